(** Lemmas about the exchange: every interleaving computes the same thing. *)
From Coq Require Import List Arith NArith ZArith Reals Bool Lia Relations Permutation.
From Verif Require Import Base BaseProofs DistModel.
Import ListNotations.
Local Open Scope nat_scope.

(** ** Vectors in tabulated form *)
Definition tab (nv np : nat) (F : nat -> nat -> R) : list (list R) :=
  map (fun v => map (F v) (seq 0 np)) (seq 0 nv).

Lemma map_seq_nth {A} (d : A) (l : list A) : map (fun k => nth k l d) (seq 0 (length l)) = l.
Proof.
  apply nth_ext with (d := d) (d' := d); rewrite map_length, seq_length; auto.
  intros n Hn. rewrite nth_indep with (d' := (fun k => nth k l d) 0) by now rewrite map_length, seq_length.
  rewrite map_nth with (f := fun k => nth k l d), seq_nth by auto. reflexivity.
Qed.

Lemma tab_of (nv np : nat) (cs : list (list R)) :
  length cs = nv -> (forall v, In v cs -> length v = np) ->
  cs = tab nv np (fun v k => nth k (nth v cs []) 0%R).
Proof.
  intros Hl Hv. unfold tab. rewrite <- (map_seq_nth [] cs) at 1. rewrite Hl.
  apply map_ext_in. intros v Hi. apply in_seq in Hi.
  assert (length (nth v cs []) = np) by (apply Hv, nth_In; lia).
  rewrite <- H, map_seq_nth. reflexivity.
Qed.

Lemma nth_map_seq {A} (f : nat -> A) d n k : k < n -> nth k (map f (seq 0 n)) d = f k.
Proof.
  intros H. rewrite nth_indep with (d' := f 0) by now rewrite map_length, seq_length.
  rewrite map_nth, seq_nth by auto. reflexivity.
Qed.

Lemma combine_seq_map {A B} (f : nat * A -> B) (g : nat -> A) m n :
  map f (combine (seq m n) (map g (seq m n))) = map (fun k => f (k, g k)) (seq m n).
Proof. revert m; induction n; intros m; cbn; auto. now rewrite IHn. Qed.

Lemma at_ids_tab {A} ids (f : A -> A) (g : nat -> A) n :
  at_ids ids f (map g (seq 0 n)) =
  map (fun k => if existsb (Nat.eqb k) ids then f (g k) else g k) (seq 0 n).
Proof. unfold at_ids. rewrite map_length, seq_length, combine_seq_map. reflexivity. Qed.

Lemma on_col_tab ix nv np F f :
  on_col ix f (tab nv np F) =
  map (fun v => if (v =? ix) then f (map (F v) (seq 0 np)) else map (F v) (seq 0 np)) (seq 0 nv).
Proof.
  unfold on_col, tab. rewrite map_length, seq_length.
  rewrite (combine_seq_map (fun t => if (fst t =? ix) then f (snd t) else snd t)). reflexivity.
Qed.

Definition F_remote (ix : nat) (ids : list nat) (l r : R) (F : nat -> nat -> R) : nat -> nat -> R :=
  fun v k => if (v =? ix) && existsb (Nat.eqb k) ids then remote l r (F v k) else F v k.

Lemma bcnd_remote_tab ix ids l r nv np F :
  bcnd_remote ix ids l r (tab nv np F) = tab nv np (F_remote ix ids l r F).
Proof.
  unfold bcnd_remote. rewrite on_col_tab. unfold tab, F_remote. apply map_ext. intros v.
  destruct (v =? ix); cbn [andb]; [rewrite at_ids_tab|]; auto.
Qed.

Definition valid_ids (np : nat) (ids : list nat) : Prop := Forall (fun k => k < np) ids.

Lemma gather_tab {A} (d : A) ids np (g : nat -> A) :
  valid_ids np ids -> gather d ids (map g (seq 0 np)) = map g ids.
Proof.
  intros H. unfold gather. apply map_ext_in. intros k Hk. apply nth_map_seq.
  unfold valid_ids in H. rewrite Forall_forall in H. auto.
Qed.

Lemma pack_real_tab ids nv np F :
  valid_ids np ids -> pack_real ids (tab nv np F) = flat_map (fun v => map (F v) ids) (seq 0 nv).
Proof.
  intros H. unfold pack_real, tab. rewrite flat_map_concat_map, map_map, flat_map_concat_map. f_equal.
  apply map_ext. intros v. now apply gather_tab.
Qed.

Lemma flat_map_slice {A} (g : nat -> list A) k m n :
  (forall v, length (g v) = k) -> forall v, v < n ->
  firstn k (skipn (v * k) (flat_map g (seq m n))) = g (m + v).
Proof.
  intros Hg. revert m. induction n as [|n IH]; intros m v Hv; [lia|].
  cbn [seq flat_map]. destruct v as [|v].
  - cbn [Nat.mul skipn]. rewrite firstn_app, Hg, Nat.sub_diag, firstn_O, app_nil_r.
    rewrite <- (Hg m), firstn_all. now rewrite Nat.add_0_r.
  - cbn [Nat.mul]. rewrite skipn_app, Hg.
    replace (skipn (k + v * k) (g m)) with (@nil A) by (symmetry; apply skipn_all2; rewrite Hg; lia).
    replace (k + v * k - k) with (v * k) by lia. cbn [app]. rewrite IH by lia. f_equal; lia.
Qed.

Lemma copy_resize {A} (d : A) (v src : list A) :
  copy_to (length v) src (resize d (length v + length src) v) = v ++ src.
Proof.
  unfold copy_to, resize.
  rewrite (firstn_all2 v) by lia.
  rewrite firstn_app, Nat.sub_diag, firstn_O, app_nil_r, firstn_all.
  rewrite skipn_app. rewrite (skipn_all2 v) by lia.
  replace (length v + length src - length v) with (length src) by lia.
  rewrite skipn_all2 by (rewrite repeat_length; lia). now rewrite !app_nil_r.
Qed.

(** after unpacking [k] super-droplets given by [G] and ids of the sender *)
Definition F_app (ix np : nat) (tol : R -> R) (ids : list nat) (G F : nat -> nat -> R) : nat -> nat -> R :=
  fun v k => if (k <? np) then F v k
             else let y := G v (nth (k - np) ids 0) in if (v =? ix) then tol y else y.

Lemma map_app_seq {A} (f : nat -> A) (g : nat -> A) np ids :
  map f (seq 0 np) ++ map g ids =
  map (fun k => if k <? np then f k else g (nth (k - np) ids 0)) (seq 0 (np + length ids)).
Proof.
  rewrite seq_app, map_app. f_equal.
  - apply map_ext_in. intros k Hk. apply in_seq in Hk. destruct (Nat.ltb_spec k np); auto; lia.
  - cbn [Nat.add]. rewrite <- (map_seq_nth 0 ids) at 1. rewrite map_map.
    clear. revert np.
    enough (forall m np, map (fun x => g (nth x ids 0)) (seq m (length ids - m)) =
            map (fun k => if k <? np then f k else g (nth (k - np) ids 0)) (seq (np + m) (length ids - m))) as H.
    { intros np. specialize (H 0 np). now rewrite Nat.sub_0_r, Nat.add_0_r in H. }
    intros m np. remember (length ids - m) as q. clear Heqq. revert m. induction q; intros m; cbn [seq map]; auto.
    destruct (Nat.ltb_spec (np + m) np); [lia|]. replace (np + m - np) with m by lia. f_equal.
    specialize (IHq (S m)). rewrite <- plus_n_Sm in IHq. exact IHq.
Qed.

Section unpack.
Variables (ix nv : nat).

Lemma unpack_n_tab (s : local) np (f g : nat -> N) ids :
  ns s = map f (seq 0 np) -> n_part s = np -> in_n s = map g ids ->
  unpack_n (length ids) s =
  mk_local (map f (seq 0 np) ++ map g ids) (cols s) (np + length ids) np (n_copied s)
           (out_n s) (out_r s) (in_n s) (in_r s) (threw s).
Proof.
  intros Hn Hp Hi. unfold unpack_n. rewrite Hn, Hp, Hi. f_equal.
  destruct (Nat.eqb_spec (length ids) 0) as [E|E].
  - destruct ids; [|discriminate]. now rewrite app_nil_r.
  - rewrite <- (map_length g ids) at 1 2. rewrite firstn_all.
    pose proof (copy_resize 0%N (map f (seq 0 np)) (map g ids)) as H.
    now rewrite !map_length, seq_length in *.
Qed.

Lemma unpack_real_tab c (s : local) np F G ids :
  cols s = tab nv np F -> n_part_old s = np -> n_part s = np + length ids ->
  in_r s = flat_map (fun v => map (G v) ids) (seq 0 nv) ->
  unpack_real c ix (length ids) s =
  mk_local (ns s) (tab nv (np + length ids) (F_app ix np (tolerance_away (cx0 c) (cx1 c)) ids G F))
           (n_part s) np (n_copied s) (out_n s) (out_r s) (in_n s) (in_r s) (threw s).
Proof.
  intros Hc Ho Hn Hr. unfold unpack_real.
  destruct (Nat.eqb_spec (length ids) 0) as [E|E].
  - destruct ids; [|discriminate]. cbn [length] in *. rewrite Nat.add_0_r in *.
    destruct s as [a b d e f0 g h i j k]; cbn in *. subst. f_equal.
    unfold tab. apply map_ext. intros v. apply map_ext_in. intros q Hq. apply in_seq in Hq. unfold F_app.
    destruct (Nat.ltb_spec q np); auto; lia.
  - rewrite Hc, Ho, Hn, Hr. f_equal.
    set (cs := map _ (combine _ _)).
    assert (cs = tab nv (np + length ids) (fun v k => if k <? np then F v k else G v (nth (k - np) ids 0))) as ->.
    { subst cs. unfold tab at 1 2. rewrite map_length, seq_length.
      rewrite (combine_seq_map (fun t => copy_to np (firstn (length ids) (skipn (fst t * length ids)
        (flat_map (fun v => map (G v) ids) (seq 0 nv)))) (resize 0%R (np + length ids) (snd t)))).
      unfold tab. apply map_ext_in. intros v Hv. apply in_seq in Hv. cbn [fst snd].
      rewrite flat_map_slice; [|intros; now rewrite map_length|lia]. cbn [Nat.add].
      pose proof (copy_resize 0%R (map (F v) (seq 0 np)) (map (G v) ids)) as H.
      rewrite !map_length, seq_length in H. rewrite H. apply map_app_seq. }
    rewrite on_col_tab. unfold tab. apply map_ext. intros v.
    destruct (Nat.eqb_spec v ix) as [->|Hne].
    + rewrite <- (map_app_seq (F ix) (G ix) np ids).
      rewrite firstn_app, skipn_app, map_length, seq_length, Nat.sub_diag.
      rewrite firstn_all2 by (now rewrite map_length, seq_length).
      cbn [skipn firstn]. rewrite app_nil_r.
      rewrite skipn_all2 by (now rewrite map_length, seq_length). cbn [app].
      rewrite map_map.
      rewrite (map_app_seq (F ix) (fun x => tolerance_away (cx0 c) (cx1 c) (G ix x))).
      apply map_ext. intros k. unfold F_app. now rewrite Nat.eqb_refl.
    + apply map_ext. intros k. unfold F_app. apply Nat.eqb_neq in Hne. now rewrite Hne.
Qed.
End unpack.
