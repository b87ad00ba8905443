(** C16: exchanging super-droplets between neighbouring processes neither loses nor duplicates any of them. *)
From Coq Require Import List Arith NArith ZArith Reals Bool Lia Lra Relations Permutation.
From Verif Require Import Base BaseProofs DistModel ExchProofs ExchInv.
Import ListNotations.
Local Open Scope nat_scope.

(** ** Specification *)
(** a super-droplet: its multiplicity and its attributes, one per attribute vector *)
Definition sd : Type := N * list R.
Definition droplets (s : local) : list sd :=
  map (fun k => (nth k (ns s) 0%N, map (fun v => nth k v 0%R) (cols s))) (seq 0 (length (ns s))).
Definition alive (d : sd) : bool := negb (fst d =? 0)%N.
(** the x coordinate is the attribute number [ix] *)
Definition x_of (ix : nat) (d : sd) : R := nth ix (snd d) 0%R.
Definition with_x (ix : nat) (g : R -> R) (d : sd) : sd :=
  (fst d, firstn ix (snd d) ++ map g (firstn 1 (skipn ix (snd d))) ++ skipn (S ix) (snd d)).
(** all droplets of all processes, with x measured in the whole domain; process [i] begins at [off i] *)
Definition world (ix size : nat) (off : nat -> R) (loc : nat -> local) : list sd :=
  flat_map (fun i => map (with_x ix (Rplus (off i))) (filter alive (droplets (loc i)))) (seq 0 size).
(** the whole domain *)
Definition left_end (c : nat -> rankc) (off : nat -> R) : R := (off 0%nat + cx0 (c 0%nat))%R.
Definition right_end (size : nat) (c : nat -> rankc) (off : nat -> R) : R := (off (size - 1)%nat + cx1 (c (size - 1)%nat))%R.
(** what the walls do: droplets beyond a periodic wall reappear at the other end, those beyond an open one are removed *)
Definition wrapped (a b X : R) : R := if Rltb X a then (X + (b - a))%R else if Rleb b X then (X - (b - a))%R else X.
Definition through_walls (ix : nat) (periodic : bool) (a b : R) (w : list sd) : list sd :=
  if periodic then map (with_x ix (wrapped a b)) w
  else filter (fun d => Rleb a (x_of ix d) && Rltb (x_of ix d) b) w.

(** all attribute vectors as long as the number of super-droplets *)
Definition aligned (nv : nat) (s : local) : Prop :=
  length (cols s) = nv /\ n_part s = length (ns s) /\ forall v, In v (cols s) -> length v = length (ns s).

(** The processes share out the domain, know the edges of their neighbours, have computed which super-droplets are
    beyond which edge, have receive buffers for what their neighbours send, and no super-droplet has moved further
    than across the neighbouring sub-domain. [L] are the states before the boundary conditions. *)
Record ring_setup (size ix nv : nat) (periodic : bool) (off : nat -> R) (c : nat -> rankc) (L : nat -> local) : Prop := {
  rs_size : 1 <= size; rs_ix : ix < nv;
  rs_state : forall i, i < size -> aligned nv (L i) /\ threw (L i) = false;
  rs_bcL : forall i, i < size -> bcL (c i) = (0 <? i) || periodic;
  rs_bcR : forall i, i < size -> bcR (c i) = (S i <? size) || periodic;
  rs_lft : forall i, i < size -> lft_id (c i) = bcnd_lft ix (c i) (L i);
  rs_rgt : forall i, i < size -> rgt_id (c i) = bcnd_rgt ix (c i) (L i);
  rs_width : forall i, i < size -> (cx0 (c i) < cx1 (c i))%R;
  rs_adjacent : forall i, S i < size -> (off i + cx1 (c i) = off (S i) + cx0 (c (S i)))%R;
  rs_lft_x1 : forall i, i < size -> lft_x1 (c i) = cx1 (c (lft_rank size i));
  rs_rgt_x0 : forall i, i < size -> rgt_x0 (c i) = cx0 (c (rgt_rank size i));
  rs_cap_rgt : forall i, i < size -> bcR (c i) = true ->
    length (lft_id (c (rgt_rank size i))) <= cap_n (c i) /\ nv * length (lft_id (c (rgt_rank size i))) <= cap_r (c i);
  rs_cap_lft : forall i, i < size -> bcL (c i) = true ->
    length (rgt_id (c (lft_rank size i))) <= cap_n (c i) /\ nv * length (rgt_id (c (lft_rank size i))) <= cap_r (c i);
  rs_reach : forall i d, i < size -> In d (droplets (L i)) -> alive d = true ->
    (bcL (c i) = true -> cx0 (c i) - (cx1 (c (lft_rank size i)) - cx0 (c (lft_rank size i))) <= x_of ix d)%R /\
    (bcR (c i) = true -> x_of ix d < cx1 (c i) + (cx1 (c (rgt_rank size i)) - cx0 (c (rgt_rank size i))))%R
}.

(** ** Lists *)
Lemma firstn_at {A} (l : list A) x r n : length l = n -> firstn n (l ++ x :: r) = l.
Proof. intros <-. induction l; cbn; congruence. Qed.
Lemma skipn_at {A} (l : list A) x r n : length l = n -> skipn n (l ++ x :: r) = x :: r.
Proof. intros <-. induction l; cbn; congruence. Qed.
Lemma skipn_S_at {A} (l : list A) x r n : length l = n -> skipn (S n) (l ++ x :: r) = r.
Proof. intros <-. induction l; cbn in *; congruence. Qed.
Lemma with_x_seq ix nv g (h : nat -> R) n : ix < nv ->
  with_x ix g (n, map h (seq 0 nv)) = (n, map (fun v => if v =? ix then g (h v) else h v) (seq 0 nv)).
Proof.
  intros H. unfold with_x. cbn [fst snd]. f_equal.
  replace nv with (ix + S (nv - ix - 1)) by lia. rewrite seq_app, !map_app. cbn [Nat.add seq map].
  assert (Hl : length (map h (seq 0 ix)) = ix) by now rewrite map_length, seq_length.
  rewrite firstn_at, skipn_at, skipn_S_at by auto. cbn [firstn map app].
  rewrite Nat.eqb_refl. f_equal; [|f_equal]; apply map_ext_in; intros v Hv; apply in_seq in Hv;
    destruct (Nat.eqb_spec v ix); auto; lia.
Qed.
Lemma x_of_seq ix nv (h : nat -> R) n : ix < nv -> x_of ix (n, map h (seq 0 nv)) = h ix.
Proof. intros H. unfold x_of. cbn [snd]. now rewrite nth_map_seq. Qed.

Lemma filter_map {A B} (p : B -> bool) (g : A -> B) l : filter p (map g l) = map g (filter (fun x => p (g x)) l).
Proof. induction l; cbn; auto. destruct (p (g a)); cbn; congruence. Qed.
Lemma filter_filter {A} (p q : A -> bool) l : filter p (filter q l) = filter (fun x => q x && p x) l.
Proof. induction l; cbn; auto. destruct (q a); cbn; [destruct (p a)|]; cbn; congruence. Qed.
Lemma filter_ext_in' {A} (p q : A -> bool) l : (forall x, In x l -> p x = q x) -> filter p l = filter q l.
Proof. intros H. induction l; cbn; auto. rewrite H by now left. rewrite IHl; auto. intros; apply H; now right. Qed.
Lemma filter_split3 {A} (p q r s : A -> bool) l :
  (forall x, In x l -> s x = p x || q x || r x) -> (forall x, In x l -> p x && q x = false) ->
  (forall x, In x l -> p x && r x = false) -> (forall x, In x l -> q x && r x = false) ->
  Permutation (filter s l) (filter p l ++ filter q l ++ filter r l).
Proof.
  induction l as [|a l IH]; intros H0 H1 H2 H3; cbn; auto.
  assert (IH' : Permutation (filter s l) (filter p l ++ filter q l ++ filter r l)) by (apply IH; intros; auto using in_cons).
  clear IH. specialize (H0 a ltac:(now left)). specialize (H1 a ltac:(now left)). specialize (H2 a ltac:(now left)). specialize (H3 a ltac:(now left)).
  rewrite H0. destruct (p a), (q a), (r a); cbn in *; try discriminate; auto.
  - apply Permutation_cons_app. exact IH'.
  - rewrite app_assoc in *. apply Permutation_cons_app. exact IH'.
Qed.
Lemma flat_map_perm {A B} (g h : A -> list B) l : (forall x, In x l -> Permutation (g x) (h x)) ->
  Permutation (flat_map g l) (flat_map h l).
Proof. intros H. induction l; cbn; auto. apply Permutation_app; [apply H; now left|apply IHl; intros; apply H; now right]. Qed.
Lemma flat_map_app2 {A B} (g h : A -> list B) l :
  Permutation (flat_map (fun x => g x ++ h x) l) (flat_map g l ++ flat_map h l).
Proof.
  induction l; cbn; auto. rewrite IHl. rewrite <- !app_assoc. apply Permutation_app_head.
  apply Permutation_app_swap_app.
Qed.
Lemma flat_map_map {A B C} (g : B -> list C) (h : A -> B) l : flat_map g (map h l) = flat_map (fun x => g (h x)) l.
Proof. induction l; cbn; congruence. Qed.
Lemma perm_seq (r : nat -> nat) n : (forall i, i < n -> r i < n) -> (forall i j, i < n -> j < n -> r i = r j -> i = j) ->
  Permutation (map r (seq 0 n)) (seq 0 n).
Proof.
  intros H1 H2. assert (ND : NoDup (map r (seq 0 n))).
  { apply NoDup_nth with (d := 0). rewrite map_length, seq_length. intros i j Hi Hj E.
    rewrite !nth_map_seq in E by auto. auto. }
  apply NoDup_Permutation_bis; auto.
  - now rewrite map_length.
  - intros x Hx. apply in_map_iff in Hx. destruct Hx as [i [<- Hi]]. apply in_seq in Hi. apply in_seq.
    specialize (H1 i). lia.
Qed.
Lemma ids_if_seq p np (g : nat -> R) : ids_if p (map g (seq 0 np)) = filter (fun k => p (g k)) (seq 0 np).
Proof.
  unfold ids_if. rewrite map_length, seq_length.
  enough (forall m, map fst (filter (fun t => p (snd t)) (combine (seq m np) (map g (seq m np)))) =
          filter (fun k => p (g k)) (seq m np)) by auto.
  induction np; intros m; cbn; auto. destruct (p (g m)); cbn; now rewrite IHnp.
Qed.
Lemma existsb_filter p n k : k < n -> existsb (Nat.eqb k) (filter p (seq 0 n)) = p k.
Proof.
  intros H. destruct (p k) eqn:E.
  - apply existsb_exists. exists k. split; [|apply Nat.eqb_refl]. apply filter_In. split; auto. apply in_seq. lia.
  - apply not_true_iff_false. intros E'. apply existsb_exists in E'. destruct E' as [j [Hj Hk]].
    apply Nat.eqb_eq in Hk. subst j. apply filter_In in Hj. rewrite E in Hj. destruct Hj; discriminate.
Qed.
Lemma existsb_filter_ge p n k : n <= k -> existsb (Nat.eqb k) (filter p (seq 0 n)) = false.
Proof.
  intros H. apply not_true_iff_false. intros E'. apply existsb_exists in E'. destruct E' as [j [Hj Hk]].
  apply Nat.eqb_eq in Hk. subst j. apply filter_In in Hj. destruct Hj as [Hj _]. apply in_seq in Hj. lia.
Qed.

Section proof.
Variables (size ix nv : nat) (periodic : bool) (off : nat -> R) (c : nat -> rankc) (L : nat -> local).
Hypothesis RS : ring_setup size ix nv periodic off c L.

Let P (i : nat) : nat := length (ns (L i)).
Let f0 (i k : nat) : N := nth k (ns (L i)) 0%N.
Let F (i v k : nat) : R := nth k (nth v (cols (L i)) []) 0%R.
Let xx (i k : nat) : R := F i ix k.
Let lf (i k : nat) : bool := Rltb (xx i k) (cx0 (c i)).
Let rg (i k : nat) : bool := Rleb (cx1 (c i)) (xx i k).
Let f (i k : nat) : N := if (negb (bcL (c i)) && lf i k) || (negb (bcR (c i)) && rg i k) then 0%N else f0 i k.
Let l0 (i : nat) : local := bcnd_flag (c i) (L i).
Let LE := left_end c off.
Let RE := right_end size c off.
Notation lftr := (lft_rank size).
Notation rgtr := (rgt_rank size).

Lemma Hsz : 1 <= size. Proof. apply (rs_size _ _ _ _ _ _ _ RS). Qed.
Lemma Lns i : ns (L i) = map (f0 i) (seq 0 (P i)).
Proof. symmetry. apply map_seq_nth. Qed.
Lemma Lcols i : i < size -> cols (L i) = tab nv (P i) (F i).
Proof. intros Hi. destruct (rs_state _ _ _ _ _ _ _ RS i Hi) as [[A [B C]] _]. apply tab_of; auto. Qed.
Lemma Lx i : i < size -> nth ix (cols (L i)) [] = map (xx i) (seq 0 (P i)).
Proof. intros Hi. rewrite Lcols by auto. unfold tab. rewrite nth_map_seq by apply (rs_ix _ _ _ _ _ _ _ RS). reflexivity. Qed.
Lemma ids_l i : i < size -> lft_id (c i) = filter (lf i) (seq 0 (P i)).
Proof.
  intros Hi. rewrite (rs_lft _ _ _ _ _ _ _ RS) by auto. unfold bcnd_lft. rewrite Lx by auto. rewrite ids_if_seq. reflexivity.
Qed.
Lemma ids_r i : i < size -> rgt_id (c i) = filter (rg i) (seq 0 (P i)).
Proof.
  intros Hi. rewrite (rs_rgt _ _ _ _ _ _ _ RS) by auto. unfold bcnd_rgt. rewrite Lx by auto. rewrite ids_if_seq. reflexivity.
Qed.
Lemma not_both i k : i < size -> lf i k = true -> rg i k = true -> False.
Proof.
  intros Hi A B. apply Rltb_true in A. apply Rleb_true in B. pose proof (rs_width _ _ _ _ _ _ _ RS i Hi). lra.
Qed.
Lemma l0_eq i : i < size -> ns (l0 i) = map (f i) (seq 0 (P i)) /\ cols (l0 i) = cols (L i) /\
  n_part (l0 i) = P i /\ threw (l0 i) = false.
Proof.
  intros Hi. destruct (rs_state _ _ _ _ _ _ _ RS i Hi) as [[A [B C]] T].
  unfold l0, bcnd_flag. repeat split.
  - assert (E : forall s ids g, ns s = map g (seq 0 (P i)) -> ns (set_ns s (flag ids (ns s))) =
        map (fun k => if existsb (Nat.eqb k) ids then 0%N else g k) (seq 0 (P i))).
    { intros s ids g H. cbn. rewrite H. unfold flag. apply at_ids_tab. }
    destruct (bcL (c i)) eqn:EL, (bcR (c i)) eqn:ER.
    + rewrite Lns. apply map_ext. intros k. unfold f. now rewrite EL, ER.
    + rewrite (E _ _ _ (Lns i)), ids_r by auto. apply map_ext_in. intros k Hk. apply in_seq in Hk.
      rewrite existsb_filter by lia. unfold f. rewrite EL, ER. reflexivity.
    + rewrite (E _ _ _ (Lns i)), ids_l by auto. apply map_ext_in. intros k Hk. apply in_seq in Hk.
      rewrite existsb_filter by lia. unfold f. rewrite EL, ER. cbn. now rewrite orb_false_r.
    + rewrite (E _ _ _ (E _ _ _ (Lns i))), ids_l, ids_r by auto. apply map_ext_in. intros k Hk. apply in_seq in Hk.
      rewrite !existsb_filter by lia. unfold f. rewrite EL, ER. cbn. destruct (lf i k), (rg i k); reflexivity.
  - destruct (bcL (c i)), (bcR (c i)); reflexivity.
  - unfold P. destruct (bcL (c i)), (bcR (c i)); cbn; auto.
  - destruct (bcL (c i)), (bcR (c i)); cbn; auto.
Qed.

Lemma valid_l i : i < size -> valid_ids (P i) (lft_id (c i)).
Proof. intros Hi. rewrite ids_l by auto. apply Forall_forall. intros k Hk. apply filter_In in Hk. destruct Hk as [Hk _]. apply in_seq in Hk. lia. Qed.
Lemma valid_r i : i < size -> valid_ids (P i) (rgt_id (c i)).
Proof. intros Hi. rewrite ids_r by auto. apply Forall_forall. intros k Hk. apply filter_In in Hk. destruct Hk as [Hk _]. apply in_seq in Hk. lia. Qed.
Lemma disj i k : i < size -> In k (lft_id (c i)) -> In k (rgt_id (c i)) -> False.
Proof.
  intros Hi. rewrite ids_l, ids_r by auto. intros A B. apply filter_In in A, B. exact (not_both i k Hi (proj2 A) (proj2 B)).
Qed.
Lemma ring_ok i : i < size -> bcR (c i) = bcL (c (rgtr i)).
Proof.
  intros Hi. rewrite (rs_bcR _ _ _ _ _ _ _ RS) by auto.
  rewrite (rs_bcL _ _ _ _ _ _ _ RS) by (apply rgtr_lt; auto using Hsz). unfold rgt_rank.
  destruct (Nat.ltb_spec i (size - 1)).
  - destruct (Nat.ltb_spec (S i) size), (Nat.ltb_spec 0 (i + 1)); auto; lia.
  - destruct (Nat.ltb_spec (S i) size), (Nat.ltb_spec 0 0); auto; lia.
Qed.
Lemma ring_ok' i : i < size -> bcL (c i) = bcR (c (lftr i)).
Proof. intros Hi. rewrite ring_ok by (apply lftr_lt; auto using Hsz). now rewrite rgt_lft by auto using Hsz. Qed.
Lemma fit_ok i t : i < size -> guard (c i) (at_irecv t) = true ->
  fits (c i) (content ix nv c f F t (source size t i)) = true.
Proof.
  intros Hi Hg.
  assert (FM : forall (h : nat -> nat -> R) ids n, length (flat_map (fun v => map (h v) ids) (seq 0 n)) = n * length ids).
  { intros h ids n. replace (n * length ids) with (length (seq 0 n) * length ids) by now rewrite seq_length.
    generalize (seq 0 n). clear. intros l. induction l; cbn [flat_map length]; auto. rewrite app_length, map_length, IHl. reflexivity. }
  destruct t; cbn in Hg |- *; apply Nat.leb_le; rewrite ?map_length, ?FM.
  - apply (rs_cap_rgt _ _ _ _ _ _ _ RS); auto.
  - apply (rs_cap_rgt _ _ _ _ _ _ _ RS); auto.
  - apply (rs_cap_lft _ _ _ _ _ _ _ RS); auto.
  - apply (rs_cap_lft _ _ _ _ _ _ _ RS); auto.
Qed.
Lemma the_end y : clos_refl_trans_1n _ (step size ix c) (start l0) y -> (forall z, ~ step size ix c y z) ->
  exists g, y = Run g /\ forall i, i < size ->
    ns (loc g i) = map (f3 size c P f i) (seq 0 (PB size c P i)) /\
    cols (loc g i) = tab nv (PB size c P i) (F4 size ix c P F i) /\
    threw (loc g i) = (bcL (c i) || bcR (c i)) && (n_sd_max (c i) <? PB size c P i).
Proof.
  apply (final_state size ix nv c l0 P f F); try (intros; now apply l0_eq);
    auto using valid_l, valid_r, ring_ok, fit_ok.
  - apply (rs_size _ _ _ _ _ _ _ RS).
  - intros i Hi. destruct (l0_eq i Hi) as [_ [-> _]]. now apply Lcols.
  - exact disj.
Qed.

Lemma droplets_tab s np h G : ns s = map h (seq 0 np) -> cols s = tab nv np G ->
  droplets s = map (fun k => (h k, map (fun v => G v k) (seq 0 nv))) (seq 0 np).
Proof.
  intros A B. unfold droplets. rewrite A, B, map_length, seq_length. apply map_ext_in. intros k Hk. apply in_seq in Hk.
  rewrite nth_map_seq by lia. f_equal. unfold tab. rewrite map_map. apply map_ext. intros v. apply nth_map_seq. lia.
Qed.

(** geometry *)
Lemma edge_le i j : i <= j -> j < size -> (off i + cx0 (c i) <= off j + cx0 (c j))%R.
Proof.
  intros Hij. induction Hij as [|j Hij IH]; intros Hj; [lra|].
  specialize (IH ltac:(lia)). pose proof (rs_adjacent _ _ _ _ _ _ _ RS j ltac:(lia)).
  pose proof (rs_width _ _ _ _ _ _ _ RS j ltac:(lia)). lra.
Qed.
Lemma lo i : i < size -> (LE <= off i + cx0 (c i))%R.
Proof. intros Hi. apply edge_le; lia. Qed.
Lemma hi i : i < size -> (off i + cx1 (c i) <= RE)%R.
Proof.
  intros Hi. unfold RE, right_end. destruct (Nat.eq_dec i (size - 1)) as [->|]; [lra|].
  pose proof (edge_le (S i) (size - 1) ltac:(lia) ltac:(lia)). pose proof (rs_adjacent _ _ _ _ _ _ _ RS i ltac:(lia)).
  pose proof (rs_width _ _ _ _ _ _ _ RS (size - 1) ltac:(lia)). lra.
Qed.
Let Wx (i k : nat) : R := if periodic then wrapped LE RE (off i + xx i k)%R else (off i + xx i k)%R.
Let al (i k : nat) : bool := negb (f0 i k =? 0)%N.
Let row (i k : nat) : sd := (f0 i k, map (fun v => F i v k) (seq 0 nv)).
Let W (i k : nat) : sd := (f0 i k, map (fun v => if v =? ix then Wx i k else F i v k) (seq 0 nv)).
Lemma drops i : i < size -> droplets (L i) = map (row i) (seq 0 (P i)).
Proof. intros Hi. rewrite (droplets_tab _ (P i) (f0 i) (F i)); auto using Lns, Lcols. Qed.
Lemma x_row i k : x_of ix (row i k) = xx i k.
Proof. unfold row. rewrite x_of_seq by apply (rs_ix _ _ _ _ _ _ _ RS). reflexivity. Qed.
Lemma reach i k : i < size -> k < P i -> al i k = true ->
  (bcL (c i) = true -> cx0 (c i) - (cx1 (c (lftr i)) - cx0 (c (lftr i))) <= xx i k)%R /\
  (bcR (c i) = true -> xx i k < cx1 (c i) + (cx1 (c (rgtr i)) - cx0 (c (rgtr i))))%R.
Proof.
  intros Hi Hk Ha. rewrite <- x_row. apply (rs_reach _ _ _ _ _ _ _ RS); auto.
  rewrite drops by auto. apply in_map, in_seq. lia.
Qed.
Lemma wrap_in X : (LE <= X < RE)%R -> wrapped LE RE X = X.
Proof.
  intros H. unfold wrapped. destruct (Rltb X LE) eqn:E; [apply Rltb_true in E; lra|].
  destruct (Rleb RE X) eqn:E'; [apply Rleb_true in E'; lra|auto].
Qed.
Lemma stay_x i k : i < size -> lf i k = false -> rg i k = false ->
  Wx i k = (off i + xx i k)%R /\ (cx0 (c i) <= xx i k < cx1 (c i))%R /\ (LE <= off i + xx i k < RE)%R.
Proof.
  intros Hi A B. apply Rltb_false in A. apply Rleb_false in B. pose proof (lo i Hi). pose proof (hi i Hi).
  split; [|split; lra]. unfold Wx. destruct periodic; auto. apply wrap_in. lra.
Qed.
Lemma left_x j k : j < size -> k < P j -> al j k = true -> bcL (c j) = true -> lf j k = true ->
  let x' := remote (cx0 (c j)) (lft_x1 (c j)) (xx j k) in
  (cx0 (c (lftr j)) <= x' < cx1 (c (lftr j)))%R /\ (off (lftr j) + x' = Wx j k)%R /\
  (periodic = false -> LE <= off j + xx j k < RE)%R.
Proof.
  intros Hj Hk Ha Hb Hl. apply Rltb_true in Hl. destruct (reach j k Hj Hk Ha) as [R1 _]. specialize (R1 Hb).
  cbv zeta. unfold remote. rewrite (rs_lft_x1 _ _ _ _ _ _ _ RS) by auto.
  split; [lra|]. rewrite (rs_bcL _ _ _ _ _ _ _ RS) in Hb by auto.
  unfold lft_rank in *. destruct (Nat.ltb_spec 0 j).
  - pose proof (rs_adjacent _ _ _ _ _ _ _ RS (j - 1) ltac:(lia)) as Ad. replace (S (j - 1)) with j in Ad by lia.
    pose proof (lo (j - 1) ltac:(lia)). pose proof (hi (j - 1) ltac:(lia)).
    assert (Hin : (LE <= off j + xx j k < RE)%R) by lra.
    split; [|auto]. unfold Wx. destruct periodic; [rewrite wrap_in by auto|]; lra.
  - assert (j = 0) as -> by lia. cbn in Hb. rewrite Hb. split; [|discriminate]. unfold Wx. rewrite Hb.
    unfold wrapped. destruct (Rltb (off 0 + xx 0 k) LE)%nat eqn:E.
    + unfold LE, RE, left_end, right_end. lra.
    + apply Rltb_false in E. unfold LE, left_end in E. lra.
Qed.
Lemma right_x j k : j < size -> k < P j -> al j k = true -> bcR (c j) = true -> rg j k = true ->
  let x' := remote (cx1 (c j)) (rgt_x0 (c j)) (xx j k) in
  (cx0 (c (rgtr j)) <= x' < cx1 (c (rgtr j)))%R /\ (off (rgtr j) + x' = Wx j k)%R /\
  (periodic = false -> LE <= off j + xx j k < RE)%R.
Proof.
  intros Hj Hk Ha Hb Hl. apply Rleb_true in Hl. destruct (reach j k Hj Hk Ha) as [_ R1]. specialize (R1 Hb).
  cbv zeta. unfold remote. rewrite (rs_rgt_x0 _ _ _ _ _ _ _ RS) by auto.
  split; [lra|]. rewrite (rs_bcR _ _ _ _ _ _ _ RS) in Hb by auto.
  unfold rgt_rank in *. destruct (Nat.ltb_spec j (size - 1)).
  - pose proof (rs_adjacent _ _ _ _ _ _ _ RS j ltac:(lia)) as Ad. replace (S j) with (j + 1) in Ad by lia.
    pose proof (lo (j + 1) ltac:(lia)). pose proof (hi (j + 1) ltac:(lia)).
    assert (Hin : (LE <= off j + xx j k < RE)%R) by lra.
    split; [|auto]. unfold Wx. destruct periodic; [rewrite wrap_in by auto|]; lra.
  - assert (j = size - 1) as -> by lia. destruct (Nat.ltb_spec (S (size - 1)) size); [lia|]. cbn in Hb. rewrite Hb.
    split; [|discriminate]. unfold Wx. rewrite Hb. pose proof (lo (size - 1) ltac:(lia)) as Hlo.
    pose proof (rs_width _ _ _ _ _ _ _ RS (size - 1) ltac:(lia)).
    unfold wrapped. destruct (Rltb (off (size - 1) + xx (size - 1) k) LE)%nat eqn:E.
    + apply Rltb_true in E. lra.
    + destruct (Rleb RE (off (size - 1) + xx (size - 1) k))%nat eqn:E'.
      * unfold LE, RE, left_end, right_end. lra.
      * apply Rleb_false in E'. unfold RE, right_end in E'. lra.
Qed.

Let pst (i k : nat) : bool := al i k && negb (lf i k) && negb (rg i k).
Let pl (i k : nat) : bool := al i k && (bcL (c i) && lf i k).
Let pr (i k : nat) : bool := al i k && (bcR (c i) && rg i k).

(** ** the world before *)
Lemma before_rank i : i < size ->
  Permutation (through_walls ix periodic LE RE (map (with_x ix (Rplus (off i))) (filter alive (droplets (L i)))))
    (map (W i) (filter (pst i) (seq 0 (P i))) ++ map (W i) (filter (pl i) (seq 0 (P i))) ++ map (W i) (filter (pr i) (seq 0 (P i)))).
Proof.
  intros Hi. rewrite <- !map_app. pose proof (rs_ix _ _ _ _ _ _ _ RS) as Hix.
  assert (Hnb : forall k, lf i k = true -> rg i k = true -> False) by (intros; eapply not_both; eauto).
  rewrite drops, filter_map, map_map by auto.
  rewrite (map_ext _ (fun k => (f0 i k, map (fun v => if v =? ix then (off i + F i v k)%R else F i v k) (seq 0 nv)))).
  2:{ intros k. unfold row. rewrite with_x_seq by auto. reflexivity. }
  change (fun x => alive (row i x)) with (al i).
  rewrite <- (filter_split3 (pst i) (pl i) (pr i) (fun k => pst i k || pl i k || pr i k)).
  2: reflexivity.
  2,3,4: intros k _; unfold pst, pl, pr; specialize (Hnb k); destruct (al i k), (lf i k), (rg i k), (bcL (c i)), (bcR (c i)); cbn; auto; exfalso; auto.
  unfold through_walls.
  assert (Ep : periodic = true \/ periodic = false) by (destruct periodic; auto). destruct Ep as [Ep|Ep]; rewrite Ep.
  - rewrite map_map. rewrite (filter_ext_in' (fun k => pst i k || pl i k || pr i k) (al i)).
    + apply Permutation_refl'. apply map_ext. intros k. rewrite with_x_seq by auto. unfold W. f_equal. apply map_ext.
      intros v. destruct (Nat.eqb_spec v ix); auto. subst v. unfold Wx. rewrite Ep. reflexivity.
    + intros k _. unfold pst, pl, pr. rewrite (rs_bcL _ _ _ _ _ _ _ RS), (rs_bcR _ _ _ _ _ _ _ RS), Ep, !orb_true_r by auto. cbn.
      destruct (al i k), (lf i k), (rg i k); reflexivity.
  - rewrite filter_map. match goal with |- Permutation ?a ?b => cut (a = b); [intros ->; apply Permutation_refl|] end. rewrite filter_filter.
    match goal with |- map ?g (filter ?p ?l) = map ?h (filter ?q ?l) => replace (filter p l) with (filter q l) end.
    2:{ symmetry. apply filter_ext_in'. intros k Hk. apply in_seq in Hk. rewrite x_of_seq by auto. rewrite Nat.eqb_refl.
      change (F i ix k) with (xx i k). destruct (al i k) eqn:Ea; [|unfold pst, pl, pr; now rewrite Ea].
      unfold pst, pl, pr. rewrite Ea. cbn [andb].
      destruct (lf i k) eqn:El; [|destruct (rg i k) eqn:Er]; cbn [negb andb orb].
      * destruct (rg i k) eqn:Er; [exfalso; eauto|]. rewrite !andb_false_r, ?orb_false_r, ?andb_true_r.
        destruct (bcL (c i)) eqn:Eb.
        -- destruct (left_x i k Hi ltac:(lia) Ea Eb El) as [_ [_ G]]. specialize (G Ep).
           rewrite (proj2 (Rleb_true _ _)), (proj2 (Rltb_true _ _)) by lra. reflexivity.
        -- rewrite (rs_bcL _ _ _ _ _ _ _ RS), Ep, orb_false_r in Eb by auto. apply Nat.ltb_ge in Eb. assert (i = 0) as -> by lia.
           apply Rltb_true in El. rewrite (proj2 (Rleb_false _ _)); auto. unfold LE, left_end. lra.
      * rewrite ?andb_false_r. cbn [orb andb]. rewrite ?andb_true_r. destruct (bcR (c i)) eqn:Eb.
        -- destruct (right_x i k Hi ltac:(lia) Ea Eb Er) as [_ [_ G]]. specialize (G Ep).
           rewrite (proj2 (Rleb_true _ _)), (proj2 (Rltb_true _ _)) by lra. reflexivity.
        -- rewrite (rs_bcR _ _ _ _ _ _ _ RS), Ep, orb_false_r in Eb by auto. apply Nat.ltb_ge in Eb. assert (i = size - 1) as -> by lia.
           apply Rleb_true in Er. rewrite (proj2 (Rltb_false _ _)), andb_false_r; auto. unfold RE, right_end. lra.
      * destruct (stay_x i k Hi El Er) as [_ [_ G]].
        rewrite (proj2 (Rleb_true _ _)), (proj2 (Rltb_true _ _)) by lra. reflexivity. }
    apply map_ext_in. intros k _. unfold W, Wx. rewrite Ep. f_equal. apply map_ext. intros v. destruct (Nat.eqb_spec v ix); subst; auto.
Qed.

(** ** the world after *)
Let own (i k : nat) : sd := (f3 size c P f i k, map (fun v => F4 size ix c P F i v k) (seq 0 nv)).
Let ra (i k : nat) : sd := let j := rgtr i in
  (f j k, map (fun v => if v =? ix then tol c i (FL ix c F j v k) else FL ix c F j v k) (seq 0 nv)).
Let rb (i k : nat) : sd := let j := lftr i in
  (f j k, map (fun v => if v =? ix then tol c i (FR ix c F j v k) else FR ix c F j v k) (seq 0 nv)).
Lemma rows_split i : i < size ->
  map (own i) (seq 0 (PB size c P i)) = map (own i) (seq 0 (P i)) ++ map (ra i) (inA size c i) ++ map (rb i) (inB size c i).
Proof.
  intros Hi. rewrite app_assoc, !map_app_seq. apply map_ext_in. intros k Hk. apply in_seq in Hk.
  fold (PA size c P i). unfold own at 1, f3, f2, f1, F4, F3, F_app.
  destruct (Nat.ltb_spec k (PA size c P i)) as [H1|H1].
  - destruct (Nat.ltb_spec k (P i)) as [H2|H2].
    + unfold own, f3, f2, f1, F4, F3, F_app. destruct (Nat.ltb_spec k (PA size c P i)); [|lia].
      destruct (Nat.ltb_spec k (P i)); [|lia]. reflexivity.
    + rewrite ids_l, ids_r by auto. rewrite !existsb_filter_ge by lia. rewrite !andb_false_r. reflexivity.
  - assert (P i <= PA size c P i) by (unfold PA; lia).
    rewrite ids_l, ids_r by auto. rewrite !existsb_filter_ge by lia. rewrite !andb_false_r. reflexivity.
Qed.
Lemma own_row i k : i < size -> k < P i -> own i k =
  if lf i k || rg i k then (0%N, map (fun v => F2 ix c F i v k) (seq 0 nv)) else row i k.
Proof.
  intros Hi Hk. unfold own, f3, f2, f1, F4, F3, F_app.
  destruct (Nat.ltb_spec k (PA size c P i)); [|unfold PA in *; lia]. destruct (Nat.ltb_spec k (P i)); [|lia].
  rewrite ids_l, ids_r by auto. rewrite !existsb_filter by lia. unfold f.
  destruct (lf i k) eqn:El, (rg i k) eqn:Er; cbn [orb].
  - destruct (bcL (c i)), (bcR (c i)); reflexivity.
  - destruct (bcL (c i)), (bcR (c i)); reflexivity.
  - destruct (bcL (c i)), (bcR (c i)); reflexivity.
  - rewrite !andb_false_r. cbn [orb]. unfold row. f_equal. apply map_ext. intros v.
    assert (EL : existsb (Nat.eqb k) (lft_id (c i)) = false) by (rewrite ids_l, existsb_filter by (auto; lia); auto).
    assert (ER : existsb (Nat.eqb k) (rgt_id (c i)) = false) by (rewrite ids_r, existsb_filter by (auto; lia); auto).
    unfold F2, F1, FL, F_remote. destruct (bcR (c i)), (bcL (c i)); rewrite ?EL, ?ER, ?andb_false_r; reflexivity.
Qed.
Lemma stayed i : i < size ->
  map (with_x ix (Rplus (off i))) (filter alive (map (own i) (seq 0 (P i)))) = map (W i) (filter (pst i) (seq 0 (P i))) /\
  (forall d, In d (filter alive (map (own i) (seq 0 (P i)))) -> cx0 (c i) <= x_of ix d < cx1 (c i))%R.
Proof.
  intros Hi. rewrite filter_map.
  assert (E : filter (fun k => alive (own i k)) (seq 0 (P i)) = filter (pst i) (seq 0 (P i))).
  { apply filter_ext_in'. intros k Hk. apply in_seq in Hk. rewrite own_row by (auto; lia). unfold pst.
    destruct (lf i k), (rg i k); cbn [orb negb]; rewrite ?andb_false_r; auto. rewrite !andb_true_r. reflexivity. }
  rewrite E. split.
  - rewrite map_map. apply map_ext_in. intros k Hk. apply filter_In in Hk. destruct Hk as [Hk Hp]. apply in_seq in Hk.
    unfold pst in Hp. apply andb_prop in Hp. destruct Hp as [Hp H2]. apply andb_prop in Hp. destruct Hp as [Hp H1].
    apply negb_true_iff in H1, H2. rewrite own_row by (auto; lia). rewrite H1, H2. cbn [orb].
    unfold row. rewrite with_x_seq by apply (rs_ix _ _ _ _ _ _ _ RS). unfold W. f_equal. apply map_ext. intros v.
    destruct (Nat.eqb_spec v ix); auto. subst v. symmetry. apply (stay_x i k Hi H1 H2).
  - intros d Hd. apply in_map_iff in Hd. destruct Hd as [k [<- Hk]]. apply filter_In in Hk. destruct Hk as [Hk Hp]. apply in_seq in Hk.
    unfold pst in Hp. apply andb_prop in Hp. destruct Hp as [Hp H2]. apply andb_prop in Hp. destruct Hp as [Hp H1].
    apply negb_true_iff in H1, H2. rewrite own_row by (auto; lia). rewrite H1, H2. cbn [orb].
    rewrite x_row. apply (stay_x i k Hi H1 H2).
Qed.
Lemma tol_in i x : (cx0 (c i) <= x < cx1 (c i))%R -> tol c i x = x.
Proof.
  intros H. unfold tol, tolerance_away. rewrite (proj2 (Rleb_false _ _)), (proj2 (Rltb_false _ _)) by lra. reflexivity.
Qed.
Lemma from_right i : i < size ->
  map (with_x ix (Rplus (off i))) (filter alive (map (ra i) (inA size c i))) = map (W (rgtr i)) (filter (pl (rgtr i)) (seq 0 (P (rgtr i)))) /\
  (forall d, In d (filter alive (map (ra i) (inA size c i))) -> cx0 (c i) <= x_of ix d < cx1 (c i))%R.
Proof.
  intros Hi. pose proof Hsz as Hs. pose proof (rs_ix _ _ _ _ _ _ _ RS) as Hix. assert (Hj : rgtr i < size) by (now apply rgtr_lt).
  assert (Hij : lftr (rgtr i) = i) by now apply lft_rgt.
  unfold inA. rewrite ring_ok by auto. destruct (bcL (c (rgtr i))) eqn:Eb.
  2:{ cbn. split; [|tauto]. rewrite (filter_ext_in' _ (fun _ => false)).
      - induction (seq 0 (P (rgtr i))); auto.
      - intros k _. unfold pl. rewrite Eb. apply andb_false_r. }
  rewrite ids_l by auto. rewrite filter_map, filter_filter.
  set (j := rgtr i) in *.
  assert (E : filter (fun k => lf j k && alive (ra i k)) (seq 0 (P j)) = filter (pl j) (seq 0 (P j))).
  { apply filter_ext_in'. intros k Hk. apply in_seq in Hk. unfold pl, ra, alive. fold j. cbn [fst]. unfold f. rewrite Eb. cbn [negb andb orb].
    destruct (lf j k) eqn:El; [|now rewrite andb_false_r]. destruct (rg j k) eqn:Er; [exfalso; eapply (not_both j k); eauto|].
    rewrite andb_false_r, andb_true_r. reflexivity. }
  rewrite E.
  assert (K : forall k, In k (filter (pl j) (seq 0 (P j))) -> let x' := remote (cx0 (c j)) (lft_x1 (c j)) (xx j k) in
     ra i k = (f0 j k, map (fun v => if v =? ix then x' else F j v k) (seq 0 nv)) /\
     (cx0 (c i) <= x' < cx1 (c i))%R /\ (off i + x' = Wx j k)%R).
  { intros k Hk. apply filter_In in Hk. destruct Hk as [Hk Hp]. apply in_seq in Hk.
    unfold pl in Hp. rewrite Eb in Hp. cbn [andb] in Hp. apply andb_prop in Hp. destruct Hp as [Ha El].
    destruct (left_x j k Hj ltac:(lia) Ha Eb El) as [X1 [X2 _]]. rewrite Hij in X1, X2. cbv zeta. split; [|auto].
    unfold ra. fold j. f_equal.
    - unfold f. rewrite Eb. cbn [negb andb orb]. destruct (rg j k) eqn:Er; [exfalso; eapply (not_both j k); eauto|].
      now rewrite andb_false_r.
    - apply map_ext. intros v. unfold FL, F_remote. rewrite ids_l, existsb_filter by (auto; lia). rewrite El, andb_true_r.
      destruct (Nat.eqb_spec v ix); auto. subst v. apply tol_in. exact X1. }
  split.
  - rewrite map_map. apply map_ext_in. intros k Hk. destruct (K k Hk) as [-> [_ X]]. rewrite with_x_seq by auto. unfold W.
    f_equal. apply map_ext. intros v. destruct (Nat.eqb_spec v ix); auto.
  - intros d Hd. apply in_map_iff in Hd. destruct Hd as [k [<- Hk]]. destruct (K k Hk) as [-> [X _]]. rewrite x_of_seq by auto.
    rewrite Nat.eqb_refl. exact X.
Qed.
Lemma from_left i : i < size ->
  map (with_x ix (Rplus (off i))) (filter alive (map (rb i) (inB size c i))) = map (W (lftr i)) (filter (pr (lftr i)) (seq 0 (P (lftr i)))) /\
  (forall d, In d (filter alive (map (rb i) (inB size c i))) -> cx0 (c i) <= x_of ix d < cx1 (c i))%R.
Proof.
  intros Hi. pose proof Hsz as Hs. pose proof (rs_ix _ _ _ _ _ _ _ RS) as Hix. assert (Hj : lftr i < size) by (now apply lftr_lt).
  assert (Hij : rgtr (lftr i) = i) by now apply rgt_lft.
  unfold inB. rewrite ring_ok' by auto. destruct (bcR (c (lftr i))) eqn:Eb.
  2:{ cbn. split; [|tauto]. rewrite (filter_ext_in' _ (fun _ => false)).
      - induction (seq 0 (P (lftr i))); auto.
      - intros k _. unfold pr. rewrite Eb. apply andb_false_r. }
  rewrite ids_r by auto. rewrite filter_map, filter_filter.
  set (j := lftr i) in *.
  assert (E : filter (fun k => rg j k && alive (rb i k)) (seq 0 (P j)) = filter (pr j) (seq 0 (P j))).
  { apply filter_ext_in'. intros k Hk. apply in_seq in Hk. unfold pr, rb, alive. fold j. cbn [fst]. unfold f. rewrite Eb. cbn [negb andb orb].
    destruct (rg j k) eqn:El; [|now rewrite andb_false_r]. destruct (lf j k) eqn:Er; [exfalso; eapply (not_both j k); eauto|].
    rewrite andb_false_r, andb_true_r. reflexivity. }
  rewrite E.
  assert (K : forall k, In k (filter (pr j) (seq 0 (P j))) -> let x' := remote (cx1 (c j)) (rgt_x0 (c j)) (xx j k) in
     rb i k = (f0 j k, map (fun v => if v =? ix then x' else F j v k) (seq 0 nv)) /\
     (cx0 (c i) <= x' < cx1 (c i))%R /\ (off i + x' = Wx j k)%R).
  { intros k Hk. apply filter_In in Hk. destruct Hk as [Hk Hp]. apply in_seq in Hk.
    unfold pr in Hp. rewrite Eb in Hp. cbn [andb] in Hp. apply andb_prop in Hp. destruct Hp as [Ha El].
    destruct (right_x j k Hj ltac:(lia) Ha Eb El) as [X1 [X2 _]]. rewrite Hij in X1, X2. cbv zeta. split; [|auto].
    unfold rb. fold j. f_equal.
    - unfold f. rewrite Eb. cbn [negb andb orb]. destruct (lf j k) eqn:Er; [exfalso; eapply (not_both j k); eauto|].
      now rewrite andb_false_r.
    - apply map_ext. intros v. unfold FR, F_remote. rewrite ids_r, existsb_filter by (auto; lia). rewrite El, andb_true_r.
      destruct (Nat.eqb_spec v ix); auto. subst v. apply tol_in. exact X1. }
  split.
  - rewrite map_map. apply map_ext_in. intros k Hk. destruct (K k Hk) as [-> [_ X]]. rewrite with_x_seq by auto. unfold W.
    f_equal. apply map_ext. intros v. destruct (Nat.eqb_spec v ix); auto.
  - intros d Hd. apply in_map_iff in Hd. destruct Hd as [k [<- Hk]]. destruct (K k Hk) as [-> [X _]]. rewrite x_of_seq by auto.
    rewrite Nat.eqb_refl. exact X.
Qed.

Lemma walls_flat_map {A} (h : A -> list sd) l :
  through_walls ix periodic LE RE (flat_map h l) = flat_map (fun i => through_walls ix periodic LE RE (h i)) l.
Proof.
  unfold through_walls. induction l; cbn [flat_map].
  - destruct periodic; reflexivity.
  - rewrite <- IHl. clear IHl. destruct periodic; [apply map_app|apply filter_app].
Qed.

Lemma exchange g : (forall i, i < size ->
    ns (loc g i) = map (f3 size c P f i) (seq 0 (PB size c P i)) /\
    cols (loc g i) = tab nv (PB size c P i) (F4 size ix c P F i)) ->
  Permutation (world ix size off (loc g)) (through_walls ix periodic LE RE (world ix size off L)) /\
  forall i d, i < size -> In d (droplets (loc g i)) -> alive d = true -> (cx0 (c i) <= x_of ix d < cx1 (c i))%R.
Proof.
  intros E. pose proof Hsz as Hs.
  assert (D : forall i, i < size -> filter alive (droplets (loc g i)) =
     filter alive (map (own i) (seq 0 (P i))) ++ filter alive (map (ra i) (inA size c i)) ++ filter alive (map (rb i) (inB size c i))).
  { intros i Hi. destruct (E i Hi) as [E1 E2]. rewrite (droplets_tab _ _ _ _ E1 E2). fold (own i).
    change (map _ (seq 0 (PB size c P i))) with (map (own i) (seq 0 (PB size c P i))).
    rewrite rows_split by auto. now rewrite !filter_app. }
  split.
  - unfold world at 2. rewrite walls_flat_map. unfold world.
    set (S_ := fun i => map (W i) (filter (pst i) (seq 0 (P i)))).
    set (A_ := fun i => map (W i) (filter (pl i) (seq 0 (P i)))).
    set (B_ := fun i => map (W i) (filter (pr i) (seq 0 (P i)))).
    transitivity (flat_map S_ (seq 0 size) ++ flat_map A_ (seq 0 size) ++ flat_map B_ (seq 0 size)).
    + transitivity (flat_map (fun i => S_ i ++ (A_ (rgtr i) ++ B_ (lftr i))) (seq 0 size)).
      * apply flat_map_perm. intros i Hi. apply in_seq in Hi. rewrite D by lia. rewrite !map_app.
        rewrite (proj1 (stayed i ltac:(lia))), (proj1 (from_right i ltac:(lia))), (proj1 (from_left i ltac:(lia))). reflexivity.
      * rewrite flat_map_app2. apply Permutation_app_head. rewrite flat_map_app2.
        rewrite <- (flat_map_map A_ rgtr), <- (flat_map_map B_ lftr).
        apply Permutation_app; apply Permutation_flat_map, perm_seq.
        -- intros; now apply rgtr_lt.
        -- intros i j Hi Hj H. rewrite <- (lft_rgt size Hs i Hi), <- (lft_rgt size Hs j Hj). now f_equal.
        -- intros; now apply lftr_lt.
        -- intros i j Hi Hj H. rewrite <- (rgt_lft size Hs i Hi), <- (rgt_lft size Hs j Hj). now f_equal.
    + symmetry. etransitivity; [apply flat_map_perm; intros i Hi; apply in_seq in Hi; apply before_rank; lia|].
      change (Permutation (flat_map (fun i => S_ i ++ (A_ i ++ B_ i)) (seq 0 size)) (flat_map S_ (seq 0 size) ++ flat_map A_ (seq 0 size) ++ flat_map B_ (seq 0 size))).
      rewrite flat_map_app2. apply Permutation_app_head. apply flat_map_app2.
  - intros i d Hi Hd Ha. assert (Hf : In d (filter alive (droplets (loc g i)))) by (apply filter_In; auto).
    rewrite D in Hf by auto. rewrite !in_app_iff in Hf. destruct Hf as [H|[H|H]].
    + now apply stayed.
    + now apply from_right.
    + now apply from_left.
Qed.
End proof.

(** ** C16 *)
(** However the processes are scheduled and the messages delayed, an exchange that has come to its end has neither
    lost nor duplicated nor mixed up anything: the super-droplets of all processes together are those there were
    before, at the positions the walls give them; every one belongs to the process whose sub-domain contains it;
    and a process holds more than n_sd_max of them only if it has raised an exception. *)
Theorem C16_exchange : forall size ix nv periodic off c L, ring_setup size ix nv periodic off c L ->
  forall y, clos_refl_trans_1n _ (step size ix c) (start (fun i => bcnd_flag (c i) (L i))) y ->
  (forall z, ~ step size ix c y z) ->
  exists g, y = Run g /\
    Permutation (world ix size off (loc g))
      (through_walls ix periodic (left_end c off) (right_end size c off) (world ix size off L)) /\
    (forall i d, i < size -> In d (droplets (loc g i)) -> alive d = true -> (cx0 (c i) <= x_of ix d < cx1 (c i))%R) /\
    (forall i, i < size -> length (cols (loc g i)) = nv /\ forall v, In v (cols (loc g i)) -> length v = length (ns (loc g i))) /\
    (forall i, i < size -> 1 < size \/ periodic = true ->
       (threw (loc g i) = true <-> n_sd_max (c i) < length (ns (loc g i)))).
Proof.
  intros size ix nv periodic off c L RS y Hy Hs.
  destruct (the_end size ix nv periodic off c L RS y Hy Hs) as [g [-> E]].
  exists g. split; auto.
  destruct (exchange size ix nv periodic off c L RS g) as [A B].
  { intros i Hi. destruct (E i Hi) as [E1 [E2 _]]. auto. }
  split; [exact A|]. split; [exact B|]. split.
  - intros i Hi. destruct (E i Hi) as [E1 [E2 _]]. rewrite E1, E2. unfold tab. rewrite !map_length, !seq_length. split; auto.
    intros v Hv. apply in_map_iff in Hv. destruct Hv as [q [<- _]]. now rewrite map_length, seq_length.
  - intros i Hi Hp. destruct (E i Hi) as [E1 [_ E3]]. rewrite E3, E1, map_length, seq_length.
    assert (Hb : bcL (c i) || bcR (c i) = true).
    { rewrite (rs_bcL _ _ _ _ _ _ _ RS), (rs_bcR _ _ _ _ _ _ _ RS) by auto. destruct Hp as [Hp| ->].
      - destruct (Nat.ltb_spec 0 i); auto. destruct (Nat.ltb_spec (S i) size); [destruct periodic; reflexivity|lia].
      - now rewrite orb_true_r. }
    rewrite Hb. cbn [andb]. apply Nat.ltb_lt.
Qed.

(** Every exchange comes to its end: there is no infinite run. *)
Theorem C16_every_run_ends : forall size ix c x, 1 <= size -> Acc (fun y x => step size ix c x y) x.
Proof.
  intros size ix c x Hs. remember (weight size x) as w eqn:E. revert x E.
  induction w as [w IH] using lt_wf_ind. intros x ->. constructor. intros y Hy.
  eapply IH; [|reflexivity]. eapply step_weight; eauto.
Qed.

(** The total multiplicity in a periodic domain is conserved. *)
Theorem C16_number : forall size ix nv off c L, ring_setup size ix nv true off c L ->
  forall y, clos_refl_trans_1n _ (step size ix c) (start (fun i => bcnd_flag (c i) (L i))) y ->
  (forall z, ~ step size ix c y z) ->
  exists g, y = Run g /\ Permutation (map fst (world ix size off (loc g))) (map fst (world ix size off L)).
Proof.
  intros size ix nv off c L RS y Hy Hs. destruct (C16_exchange _ _ _ _ _ _ _ RS y Hy Hs) as [g [-> [A _]]].
  exists g. split; auto. rewrite (Permutation_map fst A). unfold through_walls. rewrite map_map.
  apply Permutation_refl'. apply map_ext. intros d. reflexivity.
Qed.

(** A case meeting the hypotheses: two processes in a periodic domain [0,5), the second having a sub-domain of width 3;
    two attributes (x and another); one super-droplet crosses each of the edges, one stays and one is dead. *)
Definition ex_local (n : list N) (cs : list (list R)) : local := mk_local n cs (length n) 0 0 [] [] [] [] false.
Definition ex_L (i : nat) : local :=
  match i with
  | 0 => ex_local [3; 4; 5]%N [[-(1/2); 1; 5/2]; [7; 8; 9]]%R
  | _ => ex_local [6; 0]%N [[4; -(1)]; [10; 11]]%R
  end.
Definition ex_c (i : nat) : rankc :=
  match i with
  | 0 => mk_rankc true true [0] [2] 0 2 3 0 10 4 8
  | _ => mk_rankc true true [1] [0] 0 3 2 0 10 4 8
  end.
Ltac lra_bool := repeat match goal with
  | |- context[Rltb ?a ?b] => first [rewrite (proj2 (Rltb_true a b)) by lra | rewrite (proj2 (Rltb_false a b)) by lra]
  | |- context[Rleb ?a ?b] => first [rewrite (proj2 (Rleb_true a b)) by lra | rewrite (proj2 (Rleb_false a b)) by lra]
  end.
Theorem C16_instance : ring_setup 2 0 2 true (fun i => match i with 0 => 0 | _ => 2 end)%R ex_c ex_L /\
  length (world 0 2 (fun i => match i with 0 => 0 | _ => 2 end)%R ex_L) = 4.
Proof.
  split; [|reflexivity].
  constructor; try lia.
  - intros [|[|i]] Hi; try lia; split; auto; repeat split; cbn; intros v [<-|[<-|[]]]; reflexivity.
  - intros [|[|i]] Hi; try lia; reflexivity.
  - intros [|[|i]] Hi; try lia; reflexivity.
  - intros [|[|i]] Hi; try lia; unfold bcnd_lft, ids_if; cbn; lra_bool; reflexivity.
  - intros [|[|i]] Hi; try lia; unfold bcnd_rgt, ids_if; cbn; lra_bool; reflexivity.
  - intros [|[|i]] Hi; try lia; cbn; lra.
  - intros [|[|i]] Hi; try lia; cbn; lra.
  - intros [|[|i]] Hi; try lia; reflexivity.
  - intros [|[|i]] Hi; try lia; reflexivity.
  - intros [|[|i]] Hi; try lia; cbn; lia.
  - intros [|[|i]] Hi; try lia; cbn; lia.
  - intros [|[|i]] d Hi Hd Ha; try lia; cbn in Hd; repeat destruct Hd as [<-|Hd]; try contradiction; cbn in Ha; try discriminate;
      unfold x_of; cbn; split; intros; lra.
Qed.

(** The receive buffers are not always large enough. They are reserved for n_sd_max/nx/2 super-droplets and grow with
    what the process itself sends, not with what it receives: here two processes of 4 columns each and n_sd_max = 8,
    the second of which sends its two super-droplets to the first, which has room for only one. The run is aborted by
    the message-passing library although both super-droplets would fit. *)
Definition bad_L (i : nat) : local :=
  match i with 0 => ex_local [] [[]] | _ => ex_local [1; 1]%N [[-(1/2); -(1/4)]]%R end.
Definition bad_c (i : nat) : rankc :=
  let ids := match i with 0 => [] | _ => [0; 1] end in
  let '(bn, br) := reserved 1 4 8 in
  let '(bn, br) := grown 1 (length ids) 0 bn br in
  mk_rankc true true ids [] 0 4 4 0 8 bn br.
Theorem C16_receive_buffer_refuted :
  (forall i, i < 2 -> lft_id (bad_c i) = bcnd_lft 0 (bad_c i) (bad_L i) /\ rgt_id (bad_c i) = bcnd_rgt 0 (bad_c i) (bad_L i)) /\
  (forall i, i < 2 -> length (ns (bad_L 0)) + length (ns (bad_L 1)) <= n_sd_max (bad_c i)) /\
  clos_refl_trans_1n _ (step 2 0 bad_c) (start (fun i => bcnd_flag (bad_c i) (bad_L i))) Abort.
Proof.
  split; [|split].
  - intros [|[|i]] Hi; try lia; unfold bcnd_lft, bcnd_rgt, ids_if; cbn; lra_bool; auto.
  - intros [|[|i]] Hi; try lia; cbn; lia.
  - unfold start.
    eapply Relation_Operators.rt1n_trans; [eapply (st_instr _ _ _ _ 1); [lia|reflexivity..]|].
    eapply Relation_Operators.rt1n_trans; [eapply (st_instr _ _ _ _ 1); [lia|reflexivity..]|].
    eapply Relation_Operators.rt1n_trans; [eapply (st_read _ _ _ _ 1 NL); [lia|reflexivity..]|].
    eapply Relation_Operators.rt1n_trans; [eapply (st_instr _ _ _ _ 0); [lia|reflexivity..]|].
    eapply Relation_Operators.rt1n_trans; [eapply (st_instr _ _ _ _ 0); [lia|reflexivity..]|].
    eapply Relation_Operators.rt1n_trans; [eapply (st_instr _ _ _ _ 0); [lia|reflexivity..]|].
    eapply Relation_Operators.rt1n_trans; [eapply (st_overrun _ _ _ _ 0 NL); [lia|reflexivity..]|]. apply Relation_Operators.rt1n_refl.
Qed.

Print Assumptions C16_exchange.
Print Assumptions C16_every_run_ends.
Print Assumptions C16_number.
Print Assumptions C16_instance.
Print Assumptions C16_receive_buffer_refuted.
