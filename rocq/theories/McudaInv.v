(** Every interleaving of the threads and of the copy engines computes the same thing. *)
From Coq Require Import List Arith NArith ZArith Reals Bool Lia Relations.
From Verif Require Import Base BaseProofs DistModel ExchProofs ExchInv McudaModel.
Import ListNotations.
Local Open Scope nat_scope.

(** ** The program *)
Definition is_bar (a : cinstr) : bool := match a with Barrier => true | _ => false end.
Definition nbar (k : nat) : nat := length (filter (fun t => is_bar (snd t)) (firstn k cprog)).
Lemma cprog_lt k x : nth_error cprog k = Some x -> k < 34.
Proof. intros E. change 34 with (length cprog). apply nth_error_Some. rewrite E. discriminate. Qed.
Lemma nbar_S k gd a : nth_error cprog k = Some (gd, a) -> nbar (S k) = nbar k + if is_bar a then 1 else 0.
Proof.
  intros H. pose proof (cprog_lt _ _ H).
  do 34 (destruct k as [|k]; [inversion H; reflexivity|]). lia.
Qed.
Lemma nbar_le_S k : nbar k <= nbar (S k).
Proof.
  destruct (nth_error cprog k) as [[gd a]|] eqn:E.
  - rewrite (nbar_S _ _ _ E). lia.
  - unfold nbar. apply nth_error_None in E. rewrite !firstn_all2 by lia. lia.
Qed.
Lemma nbar_mono j k : j <= k -> nbar j <= nbar k.
Proof. intros H. induction H; auto. pose proof (nbar_le_S m). lia. Qed.

(** position in the other program (DistModel.prog) with the same local effects up to there *)
Definition mp (k : nat) : nat :=
  nth k [0;0;0;1;3;3;3;4;7;8;9;10;10;10;11;12;13;14;14;17;17;17;18;19;20;22;22;22;23;24;25;26;27;27;27] 27.
Definition sync_pos (t : tag) : nat := match t with NL => 8 | RL => 15 | NR => 22 | RR => 29 end.
Definition last_use (t : tag) : nat := match t with NL => 9 | RL => 16 | _ => 34 end.
Definition bar_before (t : tag) : nat := match t with NL => 5 | RL => 12 | NR => 20 | RR => 26 end.

Definition core2 (s : local) : local :=
  mk_local (ns s) (cols s) (n_part s) (n_part_old s) 0 (out_n s) (out_r s) [] [] false.

(** ** Lists *)
Lemma put_length {A} k (v : A) l : k < length l -> length (put k v l) = length l.
Proof. intros H. unfold put. rewrite app_length, firstn_length. cbn [length]. rewrite skipn_length. lia. Qed.
Lemma nth_put {A} k (v d : A) l q : k < length l -> nth q (put k v l) d = if q =? k then v else nth q l d.
Proof.
  intros H. unfold put. destruct (Nat.eqb_spec q k) as [->|Hne].
  - rewrite app_nth2; rewrite firstn_length, Nat.min_l by lia; [|lia]. rewrite Nat.sub_diag. reflexivity.
  - destruct (le_lt_dec q k).
    + rewrite app_nth1 by (rewrite firstn_length; lia).
      rewrite <- (firstn_skipn k l) at 2. rewrite app_nth1 by (rewrite firstn_length; lia). reflexivity.
    + rewrite app_nth2; rewrite firstn_length, Nat.min_l by lia; [|lia].
      replace (q - k) with (S (q - S k)) by lia. cbn [nth].
      rewrite <- (firstn_skipn (S k) l) at 2. rewrite app_nth2; rewrite firstn_length, Nat.min_l by lia; [|lia].
      reflexivity.
Qed.
Lemma firstn_eq {A} (d : A) n a b : n <= length a -> n <= length b -> (forall k, k < n -> nth k a d = nth k b d) ->
  firstn n a = firstn n b.
Proof.
  intros Ha Hb H. apply nth_ext with (d := d) (d' := d).
  - rewrite !firstn_length; lia.
  - intros k Hk. rewrite firstn_length in Hk.
    assert (E : forall l, n <= length l -> nth k (firstn n l) d = nth k l d).
    { intros l Hl. rewrite <- (firstn_skipn n l) at 2. rewrite app_nth1; auto. rewrite firstn_length; lia. }
    rewrite !E by auto. apply H. lia.
Qed.
Lemma slice_firstn {A} k m n (l : list A) : m + k <= n -> firstn k (skipn m l) = firstn k (skipn m (firstn n l)).
Proof.
  intros H. rewrite skipn_firstn_comm, firstn_firstn. f_equal. lia.
Qed.
Lemma resize_same {A} (d : A) l : resize d (length l) l = l.
Proof. unfold resize. rewrite firstn_all, Nat.sub_diag. cbn. apply app_nil_r. Qed.

Lemma core2_parts s s' : core2 s = core2 s' -> ns s = ns s' /\ cols s = cols s' /\ n_part s = n_part s' /\
  n_part_old s = n_part_old s' /\ out_n s = out_n s' /\ out_r s = out_r s'.
Proof. unfold core2. intros H. inversion H. auto 10. Qed.
Lemma core2_exec x ix a s s' : core2 s = core2 s' ->
  (match a with UnpackN | UnpackR | Resize | WaitRecv _ => False | _ => True end) ->
  core2 (exec x ix a s) = core2 (exec x ix a s').
Proof.
  intros E H. apply core2_parts in E. destruct E as [E1 [E2 [E3 [E4 [E5 E6]]]]].
  destruct a; try contradiction; unfold core2; cbn; congruence.
Qed.
Lemma core2_unpack_n k s s' : core2 s = core2 s' -> firstn k (in_n s) = firstn k (in_n s') ->
  core2 (unpack_n k s) = core2 (unpack_n k s').
Proof.
  intros E H. apply core2_parts in E. destruct E as [E1 [E2 [E3 [E4 [E5 E6]]]]].
  unfold core2, unpack_n; cbn. rewrite E1, E2, E3, E5, E6, H. reflexivity.
Qed.
Lemma core2_unpack_real x ix k nv s s' : core2 s = core2 s' -> length (cols s) = nv ->
  firstn (nv * k) (in_r s) = firstn (nv * k) (in_r s') ->
  core2 (unpack_real x ix k s) = core2 (unpack_real x ix k s').
Proof.
  intros E Hn H. apply core2_parts in E. destruct E as [E1 [E2 [E3 [E4 [E5 E6]]]]].
  unfold unpack_real. destruct (k =? 0); [unfold core2; congruence|].
  unfold core2; cbn. rewrite <- E1, <- E2, <- E3, <- E4, <- E5, <- E6. f_equal.
  replace (map (fun t => copy_to (n_part_old s) (firstn k (skipn (fst t * k) (in_r s'))) (resize 0%R (n_part s) (snd t)))
            (combine (seq 0 (length (cols s))) (cols s)))
    with (map (fun t => copy_to (n_part_old s) (firstn k (skipn (fst t * k) (in_r s))) (resize 0%R (n_part s) (snd t)))
            (combine (seq 0 (length (cols s))) (cols s))); [reflexivity|].
  apply map_ext_in. intros [q v] Hq. cbn [fst snd]. apply in_combine_l in Hq. apply in_seq in Hq.
  rewrite (slice_firstn k (q * k) (nv * k) (in_r s)) by nia.
  rewrite (slice_firstn k (q * k) (nv * k) (in_r s')) by nia. now rewrite H.
Qed.

Section ring.
Variables (na : R -> R) (size ix nv : nat) (c : nat -> rankc) (L l0 : nat -> local).
Variables (P : nat -> nat) (f : nat -> nat -> N) (F : nat -> nat -> nat -> R).
Hypothesis Hsize : 1 <= size.
Hypothesis Hl0 : forall i, l0 i = bcnd_flag (c i) (L i).
Hypothesis Hns : forall i, i < size -> ns (l0 i) = map (f i) (seq 0 (P i)).
Hypothesis Hcols : forall i, i < size -> cols (l0 i) = tab nv (P i) (F i).
Hypothesis Hnp : forall i, i < size -> n_part (l0 i) = P i.
Hypothesis Hlft : forall i, i < size -> valid_ids (P i) (lft_id (c i)).
Hypothesis Hrgt : forall i, i < size -> valid_ids (P i) (rgt_id (c i)).
Hypothesis Hdisj : forall i k, i < size -> In k (lft_id (c i)) -> In k (rgt_id (c i)) -> False.
Hypothesis Hring : forall i, i < size -> bcR (c i) = bcL (c (rgt_rank size i)).
(* the receive buffers, before the step, are large enough for what is sent and for what is received *)
Hypothesis Hown : forall i, i < size ->
  length (lft_id (c i)) <= length (in_n (L i)) /\ length (rgt_id (c i)) <= length (in_n (L i)).
Hypothesis Hfit : forall i t, i < size -> cguard (c i) (at_copy t) = true ->
  cnt nv (c i) t <= in_len t (L (dest size t i)).
Hypothesis Hx1 : forall i k, i < size -> bcR (c i) = true -> P i <= k < PA size c P i ->
  F3 size ix c P F i ix k <> cx1 (c i).

Notation lftr := (lft_rank size).
Notation rgtr := (rgt_rank size).
Notation idl := (ideal size ix nv c l0 f F).
Notation conN := (cN ix nv c f F).
Notation conR := (cR ix nv c f F).

Lemma source_dest t i : i < size -> source size t (dest size t i) = i.
Proof. intros H. unfold source, dest. destruct (to_left t); [apply rgt_lft|apply lft_rgt]; auto. Qed.
Lemma dest_source t i : i < size -> dest size t (source size t i) = i.
Proof. intros H. unfold source, dest. destruct (to_left t); [apply lft_rgt|apply rgt_lft]; auto. Qed.
Lemma dest_lt t i : i < size -> dest size t i < size.
Proof. intros H. unfold dest. destruct (to_left t); [apply lftr_lt|apply rgtr_lt]; auto. Qed.
Lemma src_lt t i : i < size -> source size t i < size.
Proof. intros H. unfold source. destruct (to_left t); [apply rgtr_lt|apply lftr_lt]; auto. Qed.
(** the receiver knows that something is coming *)
Lemma guard_sync t i : i < size -> cguard (c i) (at_copy t) = cguard (c (dest size t i)) (sync_pos t).
Proof.
  intros H. assert (Hr := Hring). destruct t; cbn; auto.
  all: rewrite (Hr (lftr i)) by (apply lftr_lt; auto); now rewrite rgt_lft.
Qed.

Definition in_nth (t : tag) (k : nat) (s : local) (N_ : list N) (R_ : list R) : Prop :=
  if is_n t then nth k (in_n s) 0%N = nth k N_ 0%N else nth k (in_r s) 0%R = nth k R_ 0%R.

Definition waits (g : csys) (i : nat) : bool :=
  match waiting g i with Some w => w =? gen g | None => false end.

Record CInv (g : csys) : Prop := {
  v_pc : forall i, i < size -> cpc g i <= 34;
  v_run : forall i, i < size -> waiting g i = None -> nbar (cpc g i) = gen g;
  v_wait : forall i w, i < size -> waiting g i = Some w -> nbar (cpc g i) = w /\ w <= gen g <= S w /\
    exists gd, nth_error cprog (cpc g i) = Some (gd, Barrier);
  v_count : m_count g + length (filter (waits g) (seq 0 size)) = size /\ 1 <= m_count g;
  v_loc0 : forall i, i < size -> cpc g i = 0 -> core2 (cloc g i) = core2 (L i);
  v_loc : forall i, i < size -> 1 <= cpc g i -> core2 (cloc g i) = core2 (idl i (mp (cpc g i)));
  v_moved : forall i t k, i < size -> moved g i t k = true -> posted c g i t = true /\ k < cnt nv (c i) t;
  v_evt : forall i r gd, i < size -> nth_error cprog r = Some (gd, RecordE) -> gd (bcL (c i)) (bcR (c i)) = true ->
    r < cpc g i -> r <= evt g i;
  v_ev2 : forall i, i < size -> evt g i <= cpc g i;
  v_max : forall i, i < size -> 32 <= cpc g i -> PB size c P i <= n_sd_max (c i);
  v_sync : forall j t, j < size -> sync_pos t < cpc g j -> cguard (c j) (sync_pos t) = true ->
    complete nv c g (source size t j) t = true;
  v_in : forall j t k, j < size -> cpc g j <= last_use t -> moved g (source size t j) t k = true ->
    in_nth t k (cloc g j) (conN t (source size t j)) (conR t (source size t j));
  v_len : forall i, i < size -> length (in_n (cloc g i)) = length (in_n (L i)) /\ length (in_r (cloc g i)) = length (in_r (L i))
}.

(** who is behind a barrier has seen everybody arrive at it *)
Lemma barrier_ok g i j p gd : CInv g -> i < size -> j < size -> nth_error cprog p = Some (gd, Barrier) ->
  p < cpc g j -> p <= cpc g i.
Proof.
  intros I Hi Hj Hp Hlt. destruct (le_lt_dec p (cpc g i)) as [|Hc]; auto. exfalso.
  pose proof (nbar_S _ _ _ Hp) as E. cbn [is_bar] in E.
  assert (A : nbar (S p) <= gen g).
  { etransitivity; [apply (nbar_mono (S p) (cpc g j)); lia|].
    destruct (waiting g j) as [w|] eqn:Ew.
    - destruct (v_wait g I j w Hj Ew) as [-> [? _]]. lia.
    - rewrite (v_run g I j Hj Ew). lia. }
  pose proof (nbar_mono (cpc g i) p ltac:(lia)) as B.
  destruct (waiting g i) as [w|] eqn:Ew.
  - destruct (v_wait g I i w Hi Ew) as [W1 [W2 [gd' W3]]].
    pose proof (nbar_S _ _ _ W3) as E'. cbn [is_bar] in E'.
    pose proof (nbar_mono (S (cpc g i)) p ltac:(lia)). lia.
  - rewrite (v_run g I i Hi Ew) in B. lia.
Qed.

Lemma complete_all g i t k : complete nv c g i t = true -> k < cnt nv (c i) t -> moved g i t k = true.
Proof.
  unfold complete. intros H Hk. rewrite forallb_forall in H. apply H. apply in_seq. lia.
Qed.

Lemma posted_parts g i t : posted c g i t = true <-> at_copy t < cpc g i /\ cguard (c i) (at_copy t) = true.
Proof. unfold posted. rewrite andb_true_iff, Nat.ltb_lt. tauto. Qed.

(** a copy not completed has not been waited for *)
Lemma not_synced g i t k : CInv g -> i < size -> posted c g i t = true -> k < cnt nv (c i) t -> moved g i t k = false ->
  cpc g (dest size t i) <= sync_pos t.
Proof.
  intros I Hi Hp Hk Hm. destruct (le_lt_dec (cpc g (dest size t i)) (sync_pos t)); auto. exfalso.
  apply posted_parts in Hp. destruct Hp as [_ Hg]. rewrite guard_sync in Hg by auto.
  pose proof (v_sync g I _ t (dest_lt t i Hi) l Hg) as E. rewrite source_dest in E by auto.
  rewrite (complete_all _ _ _ _ E Hk) in Hm. discriminate.
Qed.

(** what the copy engine reads *)
Lemma read_ok g i t k : CInv g -> i < size -> posted c g i t = true -> k < cnt nv (c i) t -> moved g i t k = false ->
  if is_n t then out_n (cloc g i) = conN t i else out_r (cloc g i) = conR t i.
Proof.
  intros I Hi Hp Hk Hm. pose proof (not_synced g i t k I Hi Hp Hk Hm) as Hd.
  apply posted_parts in Hp. destruct Hp as [Hpc Hg].
  pose proof (dest_lt t i Hi) as Hj. pose proof (v_pc g I i Hi) as H34.
  pose proof (core2_parts _ _ (v_loc g I i Hi ltac:(lia))) as E. destruct E as [_ [_ [_ [_ [E5 E6]]]]].
  destruct t; cbn [is_n]; cbn in Hpc, Hg, Hd.
  - assert (cpc g i <= 12).
    { destruct (le_lt_dec (cpc g i) 12); auto.
      pose proof (barrier_ok g _ i 12 _ I Hj Hi eq_refl ltac:(lia)). cbn in *. lia. }
    rewrite E5. unfold cN; cbn. eapply st_outNL; eauto.
    clear - Hpc H. remember (cpc g i) as q eqn:Eq; clear Eq.
    do 13 (destruct q as [|q]; [cbn in *; lia|]). lia.
  - assert (cpc g i <= 20).
    { destruct (le_lt_dec (cpc g i) 20); auto.
      pose proof (barrier_ok g _ i 20 _ I Hj Hi eq_refl ltac:(lia)). cbn in *. lia. }
    rewrite E6. unfold cR; cbn. eapply st_outRL; eauto.
    clear - Hpc H. remember (cpc g i) as q eqn:Eq; clear Eq.
    do 21 (destruct q as [|q]; [cbn in *; lia|]). lia.
  - rewrite E5. unfold cN; cbn. eapply st_outNR; eauto.
    clear - Hpc H34. remember (cpc g i) as q eqn:Eq; clear Eq.
    do 35 (destruct q as [|q]; [cbn in *; lia|]). lia.
  - rewrite E6. unfold cR; cbn. eapply st_outRR; eauto.
    clear - Hpc H34. remember (cpc g i) as q eqn:Eq; clear Eq.
    do 35 (destruct q as [|q]; [cbn in *; lia|]). lia.
Qed.

Lemma cguard_any k gd a i : nth_error cprog k = Some (gd, a) -> cguard (c i) k = gd (bcL (c i)) (bcR (c i)).
Proof. intros H. unfold cguard. now rewrite H. Qed.

(** ** one element of a copy *)
Lemma write_core2 t k s s' : core2 (write_elem t k s s') = core2 s'.
Proof. unfold write_elem. destruct (is_n t); reflexivity. Qed.
Lemma write_len t k s s' : k < in_len t s' -> length (in_n (write_elem t k s s')) = length (in_n s') /\
  length (in_r (write_elem t k s s')) = length (in_r s').
Proof.
  unfold write_elem, in_len. destruct (is_n t); intros H; cbn; rewrite put_length; auto.
Qed.
Lemma upd3_spec h i t k j u q : upd3 h i t k j u q = true <-> (j = i /\ u = t /\ q = k) \/ h j u q = true.
Proof.
  unfold upd3. destruct (Nat.eqb_spec j i), (tag_eqb u t) eqn:Et, (Nat.eqb_spec q k); cbn; 
    try (apply tag_eqb_eq in Et); split; intros; auto; try tauto; try (destruct H as [[? [? ?]]|?]; auto; subst; try contradiction).
  all: try (rewrite (proj2 (tag_eqb_eq t t) eq_refl) in Et; discriminate).
Qed.
Lemma complete_mono g g' i t : (forall k, moved g i t k = true -> moved g' i t k = true) ->
  complete nv c g i t = true -> complete nv c g' i t = true.
Proof. intros H. unfold complete. rewrite !forallb_forall. auto. Qed.

Lemma inv_copy g i t k : CInv g -> i < size -> posted c g i t = true -> k < cnt nv (c i) t -> moved g i t k = false ->
  k < in_len t (cloc g (dest size t i)) ->
  CInv (mk_csys (cpc g) (updf (cloc g) (dest size t i) (write_elem t k (cloc g i) (cloc g (dest size t i))))
                (upd3 (moved g) i t k) (evt g) (waiting g) (gen g) (m_count g)).
Proof.
  intros I Hi Hp Hk Hm Hlen. pose proof (dest_lt t i Hi) as Hj. set (j := dest size t i) in *.
  pose proof (read_ok g i t k I Hi Hp Hk Hm) as Hread.
  pose proof (not_synced g i t k I Hi Hp Hk Hm) as Hd. fold j in Hd.
  pose proof (proj1 (posted_parts g i t) Hp) as [Hpc Hg].
  constructor; cbn [cpc cloc moved evt waiting gen m_count].
  - apply (v_pc g I).
  - apply (v_run g I).
  - apply (v_wait g I).
  - apply (v_count g I).
  - intros q Hq E. unfold updf. destruct (Nat.eqb_spec q j) as [->|]; [rewrite write_core2|]; now apply (v_loc0 g I).
  - intros q Hq E. unfold updf. destruct (Nat.eqb_spec q j) as [->|]; [rewrite write_core2|]; now apply (v_loc g I).
  - intros q u p Hq E. apply upd3_spec in E. destruct E as [[-> [-> ->]]|E]; [auto|]. now apply (v_moved g I) in E.
  - apply (v_evt g I).
  - apply (v_ev2 g I).
  - apply (v_max g I).
  - intros q u Hq E1 E2. eapply complete_mono; [|apply (v_sync g I q u Hq E1 E2)].
    intros p E. apply upd3_spec. now right.
  - intros q u p Hq E1 E2. apply upd3_spec in E2.
    unfold updf. destruct (Nat.eqb_spec q j) as [Eq|Hne].
    2:{ destruct E2 as [[E2 [-> ->]]|E2]; [|now apply (v_in g I)].
        exfalso. apply Hne. rewrite <- (dest_source t q Hq), E2. reflexivity. }
    subst q.
    assert (Hcase : (u = t /\ p = k) \/ (moved g (source size u j) u p = true /\ (u <> t \/ p <> k))).
    { destruct E2 as [[A [B C]]|A]; [left; auto|right; split; auto].
      destruct (tag_eqb u t) eqn:Et; [|left; intros ->; rewrite (proj2 (tag_eqb_eq t t) eq_refl) in Et; discriminate].
      apply tag_eqb_eq in Et. subst u. right. intros ->. unfold j in A. rewrite source_dest in A by auto. congruence. }
    destruct Hcase as [[-> ->]|[Hold Hdiff]].
    + unfold j. rewrite source_dest by auto. fold j. unfold in_nth, write_elem, in_len in *.
      destruct (is_n t) eqn:Et; cbn; rewrite nth_put by auto; rewrite Nat.eqb_refl, Hread; reflexivity.
    + pose proof (v_in g I j u p Hj E1 Hold) as Hin.
      pose proof (v_moved g I _ _ _ (src_lt u j Hj) Hold) as [Hpu Hku].
      destruct (Nat.eq_dec p k) as [->|Hpk].
      2:{ unfold in_nth, write_elem, in_len in *. destruct (is_n t), (is_n u); cbn; auto; rewrite nth_put by auto;
          destruct (Nat.eqb_spec p k); auto; contradiction. }
      destruct Hdiff as [Hut|]; [|contradiction].
      destruct (Bool.bool_dec (is_n u) (is_n t)) as [Esame|Ediff].
      2:{ unfold in_nth, write_elem in *. destruct (is_n t), (is_n u); cbn; auto; contradiction. }
      (* the same buffer, from the other side *)
      exfalso. apply posted_parts in Hpu. destruct Hpu as [Hpu Hgu].
      pose proof (src_lt u j Hj) as Hsu. clearbody j. set (s0 := source size u j) in *. clearbody s0.
      destruct t, u; try discriminate Esame; try (now apply Hut); cbn in Hd, Hpu, Hpc, E1.
      * pose proof (barrier_ok g j s0 12 _ I Hj Hsu eq_refl ltac:(lia)). lia.
      * pose proof (barrier_ok g j s0 20 _ I Hj Hsu eq_refl ltac:(lia)). lia.
      * pose proof (barrier_ok g j i 12 _ I Hj Hi eq_refl ltac:(lia)). lia.
      * pose proof (barrier_ok g j i 20 _ I Hj Hi eq_refl ltac:(lia)). lia.
  - intros q Hq. unfold updf. destruct (Nat.eqb_spec q j) as [->|]; [|now apply (v_len g I)].
    destruct (write_len t k (cloc g i) (cloc g j) Hlen) as [-> ->]. now apply (v_len g I).
Qed.

(** no copy leaves its buffer *)
Lemma no_overrun g i t k : CInv g -> i < size -> posted c g i t = true -> k < cnt nv (c i) t ->
  k < in_len t (cloc g (dest size t i)).
Proof.
  intros I Hi Hp Hk. apply posted_parts in Hp. destruct Hp as [_ Hg]. pose proof (Hfit i t Hi Hg) as H.
  destruct (v_len g I _ (dest_lt t i Hi)) as [A B]. unfold in_len in *. destruct (is_n t); lia.
Qed.

(** ** an instruction *)
Lemma idl_nop i k gd a : nth_error prog k = Some (gd, a) ->
  (match a with Isend _ | Irecv _ | WaitSend _ => True | _ => False end) -> idl i (S k) = idl i k.
Proof.
  intros H Ha. rewrite (ideal_step size ix nv c l0 f F i k gd a H). destruct (gd _ _); auto.
  destruct a; try contradiction; reflexivity.
Qed.
Lemma idl_wait i k gd t : nth_error prog k = Some (gd, WaitRecv t) -> core2 (idl i (S k)) = core2 (idl i k).
Proof.
  intros H. rewrite (ideal_step size ix nv c l0 f F i k gd _ H). destruct (gd _ _); auto. destruct t; reflexivity.
Qed.
Lemma idl_resize i k gd : nth_error prog k = Some (gd, Resize) -> core2 (idl i (S k)) = core2 (idl i k).
Proof. intros H. rewrite (ideal_step size ix nv c l0 f F i k gd _ H). destruct (gd _ _); reflexivity. Qed.
Lemma idl_local i k gd a s : nth_error prog k = Some (gd, a) -> gd (bcL (c i)) (bcR (c i)) = true ->
  (match a with UnpackN | UnpackR | Resize | WaitRecv _ => False | _ => True end) ->
  core2 s = core2 (idl i k) -> core2 (exec (c i) ix a s) = core2 (idl i (S k)).
Proof.
  intros H Hg Ha E. rewrite (ideal_step size ix nv c l0 f F i k gd a H), Hg.
  replace (oracle size ix nv c f F i a (idl i k)) with (idl i k) by (destruct a; try contradiction; reflexivity).
  apply core2_exec; auto.
Qed.
Lemma idl_skip i k gd a : nth_error prog k = Some (gd, a) -> gd (bcL (c i)) (bcR (c i)) = false -> idl i (S k) = idl i k.
Proof. intros H Hg. now rewrite (ideal_step size ix nv c l0 f F i k gd a H), Hg. Qed.

(** the received multiplicities and attributes are there when they are unpacked *)
Lemma recv_n g i t : CInv g -> i < size -> is_n t = true -> sync_pos t < cpc g i <= last_use t ->
  cguard (c i) (sync_pos t) = true ->
  firstn (length (ids_of (c (source size t i)) t)) (in_n (cloc g i)) = conN t (source size t i).
Proof.
  intros I Hi Ht [H1 H2] Hg. pose proof (v_sync g I i t Hi H1 Hg) as C.
  pose proof (src_lt t i Hi) as Hs.
  assert (Hl : length (conN t (source size t i)) = length (ids_of (c (source size t i)) t)).
  { destruct t; try discriminate; unfold cN; cbn; now rewrite map_length. }
  rewrite <- Hl. rewrite <- (firstn_all (conN t (source size t i))) at 2.
  apply (firstn_eq 0%N); auto.
  - rewrite Hl. assert (Hf := Hfit (source size t i) t Hs). rewrite dest_source in Hf by auto.
    rewrite guard_sync, dest_source in Hf by auto. specialize (Hf Hg). unfold cnt, in_len in Hf. rewrite Ht in Hf.
    rewrite (proj1 (v_len g I i Hi)). exact Hf.
  - intros k Hk. assert (Hm : moved g (source size t i) t k = true).
    { apply complete_all; auto. unfold cnt. rewrite Ht. lia. }
    pose proof (v_in g I i t k Hi H2 Hm) as E. unfold in_nth in E. rewrite Ht in E. exact E.
Qed.
Lemma recv_r g i t : CInv g -> i < size -> is_n t = false -> sync_pos t < cpc g i <= last_use t ->
  cguard (c i) (sync_pos t) = true ->
  firstn (nv * length (ids_of (c (source size t i)) t)) (in_r (cloc g i)) = conR t (source size t i).
Proof.
  intros I Hi Ht [H1 H2] Hg. pose proof (v_sync g I i t Hi H1 Hg) as C.
  pose proof (src_lt t i Hi) as Hs.
  assert (FM : forall (h : nat -> nat -> R) ids n, length (flat_map (fun v => map (h v) ids) (seq 0 n)) = n * length ids).
  { intros h ids n. replace (n * length ids) with (length (seq 0 n) * length ids) by now rewrite seq_length.
    generalize (seq 0 n). clear. intros l. induction l; cbn [flat_map length]; auto. rewrite app_length, map_length, IHl. reflexivity. }
  assert (Hl : length (conR t (source size t i)) = nv * length (ids_of (c (source size t i)) t)).
  { destruct t; try discriminate; unfold cR; cbn; now rewrite FM. }
  rewrite <- Hl. rewrite <- (firstn_all (conR t (source size t i))) at 2.
  apply (firstn_eq 0%R); auto.
  - rewrite Hl. assert (Hf := Hfit (source size t i) t Hs). rewrite dest_source in Hf by auto.
    rewrite guard_sync, dest_source in Hf by auto. specialize (Hf Hg). unfold cnt, in_len in Hf. rewrite Ht in Hf.
    rewrite (proj2 (v_len g I i Hi)). exact Hf.
  - intros k Hk. assert (Hm : moved g (source size t i) t k = true).
    { apply complete_all; auto. unfold cnt. rewrite Ht. lia. }
    pose proof (v_in g I i t k Hi H2 Hm) as E. unfold in_nth in E. rewrite Ht in E. exact E.
Qed.

Lemma grown_same i s : i < size -> length (in_n s) = length (in_n (L i)) -> grows (c i) s = false /\ bcnd_buffers nv (c i) s = s.
Proof.
  intros Hi E. destruct (Hown i Hi) as [A B].
  assert (G : grows (c i) s = false).
  { unfold grows. apply orb_false_iff. split; apply Nat.ltb_ge; lia. }
  split; auto. unfold bcnd_buffers, grown. unfold grows in G. rewrite G. rewrite !resize_same. destruct s; reflexivity.
Qed.
Lemma core2_flag x s s' : core2 s = core2 s' -> core2 (bcnd_flag x s) = core2 (bcnd_flag x s').
Proof.
  intros E. apply core2_parts in E. destruct E as [E1 [E2 [E3 [E4 [E5 E6]]]]].
  unfold bcnd_flag. destruct (bcL x), (bcR x); unfold core2; cbn; congruence.
Qed.
Lemma sanitise_id s np G i : cols s = tab nv np G -> n_part s <= np ->
  (forall k, n_part_old s <= k < n_part s -> G ix k <> cx1 (c i)) -> core2 (sanitise_x1 na ix (c i) s) = core2 s.
Proof.
  intros E Hn Hk. unfold sanitise_x1, core2. cbn. f_equal. rewrite E, on_col_tab. unfold tab. apply map_ext. intros v.
  destruct (Nat.eqb_spec v ix) as [->|]; auto.
  rewrite map_length, seq_length.
  rewrite (combine_seq_map (fun t => if (n_part_old s <=? fst t) && (fst t <? n_part s) && Reqb (snd t) (cx1 (c i)) then na (snd t) else snd t)).
  apply map_ext. intros k. cbn [fst snd].
  destruct (Nat.leb_spec (n_part_old s) k), (Nat.ltb_spec k (n_part s)); auto. cbn [andb].
  rewrite (proj2 (Reqb_false _ _)); auto.
Qed.

Ltac split_k n k := lazymatch n with O => idtac | S ?m => destruct k as [|k]; [|split_k m k] end.
Lemma effect g i gd a : CInv g -> i < size -> nth_error cprog (cpc g i) = Some (gd, a) ->
  gd (bcL (c i)) (bcR (c i)) = true ->
  core2 (cexec na size ix nv c i a (cloc g i)) = core2 (idl i (mp (S (cpc g i)))).
Proof.
  intros I Hi Hp Hg. pose proof (cprog_lt _ _ Hp) as H34.
  destruct (Nat.eq_dec (cpc g i) 0) as [E0|E0].
  { rewrite E0 in *. cbn in Hp. inversion Hp; subst gd a. cbn [cexec].
    destruct (grown_same i (cloc g i) Hi (proj1 (v_len g I i Hi))) as [_ ->].
    cbn. rewrite Hl0. apply core2_flag. now apply (v_loc0 g I). }
  pose proof (v_loc g I i Hi ltac:(lia)) as E.
  assert (Hn : forall t, is_n t = true -> sync_pos t < cpc g i <= last_use t -> cguard (c i) (sync_pos t) = true ->
    firstn (length (ids_of (c (source size t i)) t)) (in_n (cloc g i)) = conN t (source size t i)) by (intros; now apply recv_n).
  assert (Hr : forall t, is_n t = false -> sync_pos t < cpc g i <= last_use t -> cguard (c i) (sync_pos t) = true ->
    firstn (nv * length (ids_of (c (source size t i)) t)) (in_r (cloc g i)) = conR t (source size t i)) by (intros; now apply recv_r).
  remember (cpc g i) as k eqn:Ek. clear Ek.
  split_k 34 k; [exfalso; now apply E0|..|exfalso; lia].
  all: cbn in Hp; inversion Hp; subst gd a; cbn in Hg; cbn [cexec]; cbn [mp nth] in E |- *.
  - (* 1 Create *) exact E.
  - (* 2 *) apply (idl_local i 0 _ _ _ eq_refl); auto; exact I0 || exact Logic.I.
  - (* 3 *) rewrite E. rewrite <- (idl_nop i 1 _ _ eq_refl Logic.I), <- (idl_nop i 2 _ _ eq_refl Logic.I). reflexivity.
  - exact E.
  - exact E.
  - (* 6 *) apply (idl_local i 3 _ _ _ eq_refl); auto; exact Logic.I.
  - (* 7 *) rewrite (idl_nop i 6 _ _ eq_refl Logic.I), (idl_nop i 5 _ _ eq_refl Logic.I).
    apply (idl_local i 4 _ _ _ eq_refl); auto; exact Logic.I.
  - (* 8 *) rewrite (idl_wait i 7 _ _ eq_refl). exact E.
  - (* 9 *) rewrite (ideal_step size ix nv c l0 f F i 8 _ _ eq_refl). cbv beta. rewrite Hg. cbn [exec oracle].
    destruct (st_8 size ix nv c l0 f F i Hi Hg) as [E1 E2]. rewrite E2. unfold inA in *. rewrite Hg in *.
    apply core2_unpack_n; auto. rewrite E1. specialize (Hn NL eq_refl ltac:(cbn; lia) Hg). cbn in Hn. rewrite Hn.
    unfold cN; cbn. rewrite <- (map_length (f (rgtr i))) at 1. now rewrite firstn_all.
  - (* 10 *) rewrite (idl_nop i 9 _ _ eq_refl Logic.I). exact E.
  - exact E.
  - exact E.
  - (* 13 *) apply (idl_local i 10 _ _ _ eq_refl); auto; exact Logic.I.
  - (* 14 *) apply (idl_local i 11 _ _ _ eq_refl); auto; exact Logic.I.
  - (* 15 *) rewrite (idl_wait i 12 _ _ eq_refl). exact E.
  - (* 16 *) rewrite (ideal_step size ix nv c l0 f F i 13 _ _ eq_refl). cbv beta. rewrite Hg. cbn [exec oracle].
    rewrite (keep_copied size ix nv c l0 f F Hsize i 8 13) by (reflexivity || lia).
    destruct (st_8 size ix nv c l0 f F i Hi Hg) as [_ E2]. rewrite E2. unfold inA. rewrite Hg.
    apply (core2_unpack_real _ _ _ nv); auto.
    + apply core2_parts in E. destruct E as [_ [-> _]].
      rewrite (st_cols2 size ix nv c l0 P f F) by (auto; lia). unfold tab. now rewrite map_length, seq_length.
    + rewrite (st_inr13 size ix nv c l0 f F) by auto. unfold inA. rewrite Hg.
      specialize (Hr RL eq_refl ltac:(cbn; lia) Hg). cbn in Hr. rewrite Hr. unfold cR; cbn.
      symmetry. apply firstn_all2. clear. generalize 0. induction nv; intros; cbn; auto. rewrite app_length, map_length. specialize (IHn (S n0)). lia.
  - (* 17 *) pose proof (core2_parts _ _ E) as [_ [E2 [E3 [E4 _]]]]. rewrite <- E.
    rewrite (st_cols3 size ix nv c l0 P f F) in E2 by (auto; lia).
    rewrite (st_np1 size ix nv c l0 P f F) in E3 by (auto; lia).
    rewrite (st_npo1 size ix nv c l0 P f F) in E4 by (auto; lia).
    eapply sanitise_id; [exact E2|lia|]. rewrite E3, E4. intros q Hq. now apply Hx1.
  - (* 18 *) rewrite E. rewrite (idl_nop i 16 _ _ eq_refl Logic.I), (idl_nop i 15 _ _ eq_refl Logic.I), (idl_nop i 14 _ _ eq_refl Logic.I). reflexivity.
  - exact E.
  - exact E.
  - (* 21 *) apply (idl_local i 17 _ _ _ eq_refl); auto; exact Logic.I.
  - (* 22 *) rewrite (idl_wait i 18 _ _ eq_refl). exact E.
  - (* 23 *) rewrite (ideal_step size ix nv c l0 f F i 19 _ _ eq_refl). cbv beta. rewrite Hg. cbn [exec oracle].
    destruct (st_19 size ix nv c l0 f F i Hi Hg) as [E1 E2]. rewrite E2. unfold inB in *. rewrite Hg in *.
    apply core2_unpack_n; auto. rewrite E1. specialize (Hn NR eq_refl ltac:(cbn; lia) Hg). cbn in Hn. rewrite Hn.
    unfold cN; cbn. rewrite <- (map_length (f (lftr i))) at 1. now rewrite firstn_all.
  - (* 24 *) rewrite (idl_nop i 21 _ _ eq_refl Logic.I), (idl_nop i 20 _ _ eq_refl Logic.I). exact E.
  - exact E.
  - exact E.
  - (* 27 *) apply (idl_local i 22 _ _ _ eq_refl); auto; exact Logic.I.
  - (* 28 *) apply (idl_local i 23 _ _ _ eq_refl); auto; exact Logic.I.
  - (* 29 *) rewrite (idl_wait i 24 _ _ eq_refl). exact E.
  - (* 30 *) rewrite (ideal_step size ix nv c l0 f F i 25 _ _ eq_refl). cbv beta. rewrite Hg. cbn [exec oracle].
    rewrite (keep_copied size ix nv c l0 f F Hsize i 19 25) by (reflexivity || lia).
    destruct (st_19 size ix nv c l0 f F i Hi Hg) as [_ E2]. rewrite E2. unfold inB. rewrite Hg.
    apply (core2_unpack_real _ _ _ nv); auto.
    + apply core2_parts in E. destruct E as [_ [-> _]].
      rewrite (st_cols3 size ix nv c l0 P f F) by (auto; lia). unfold tab. now rewrite map_length, seq_length.
    + rewrite (st_inr25 size ix nv c l0 f F) by auto. unfold inB. rewrite Hg.
      specialize (Hr RR eq_refl ltac:(cbn; lia) Hg). cbn in Hr. rewrite Hr. unfold cR; cbn.
      symmetry. apply firstn_all2. clear. generalize 0. induction nv; intros; cbn; auto. rewrite app_length, map_length. specialize (IHn (S n0)). lia.
  - (* 31 *) rewrite (idl_resize i 26 _ eq_refl). exact E.
  - exact E.
  - exact E.
Qed.

Lemma mp_skip i k gd a : nth_error cprog k = Some (gd, a) -> gd (bcL (c i)) (bcR (c i)) = false ->
  core2 (idl i (mp (S k))) = core2 (idl i (mp k)).
Proof.
  intros Hp Hg. pose proof (cprog_lt _ _ Hp) as H34.
  split_k 34 k; [..|exfalso; lia].
  all: cbn in Hp; inversion Hp; subst gd a; cbn in Hg; cbn [mp nth]; try discriminate Hg; try (match goal with |- ?a = ?a => exact (eq_refl a) end).
  - now rewrite (idl_skip i 0 _ _ eq_refl Hg).
  - now rewrite (idl_nop i 2 _ _ eq_refl Logic.I), (idl_nop i 1 _ _ eq_refl Logic.I).
  - now rewrite (idl_skip i 3 _ _ eq_refl Hg).
  - now rewrite (idl_nop i 6 _ _ eq_refl Logic.I), (idl_nop i 5 _ _ eq_refl Logic.I), (idl_skip i 4 _ _ eq_refl Hg).
  - now rewrite (idl_skip i 7 _ _ eq_refl Hg).
  - now rewrite (idl_skip i 8 _ _ eq_refl Hg).
  - now rewrite (idl_nop i 9 _ _ eq_refl Logic.I).
  - now rewrite (idl_skip i 10 _ _ eq_refl Hg).
  - now rewrite (idl_skip i 11 _ _ eq_refl Hg).
  - now rewrite (idl_skip i 12 _ _ eq_refl Hg).
  - now rewrite (idl_skip i 13 _ _ eq_refl Hg).
  - now rewrite (idl_nop i 16 _ _ eq_refl Logic.I), (idl_nop i 15 _ _ eq_refl Logic.I), (idl_nop i 14 _ _ eq_refl Logic.I).
  - now rewrite (idl_skip i 17 _ _ eq_refl Hg).
  - now rewrite (idl_skip i 18 _ _ eq_refl Hg).
  - now rewrite (idl_skip i 19 _ _ eq_refl Hg).
  - now rewrite (idl_nop i 21 _ _ eq_refl Logic.I), (idl_nop i 20 _ _ eq_refl Logic.I).
  - now rewrite (idl_skip i 22 _ _ eq_refl Hg).
  - now rewrite (idl_skip i 23 _ _ eq_refl Hg).
  - now rewrite (idl_skip i 24 _ _ eq_refl Hg).
  - now rewrite (idl_skip i 25 _ _ eq_refl Hg).
Qed.

Lemma bar_guard k gd l r : nth_error cprog k = Some (gd, Barrier) -> gd l r = true.
Proof.
  intros Hp. pose proof (cprog_lt _ _ Hp) as H34.
  do 34 (destruct k as [|k]; [cbn in Hp; inversion Hp; try reflexivity|]). lia.
Qed.

(** ** waiting for the event of a neighbour *)
Lemma sync_cases k gd s : nth_error cprog k = Some (gd, Sync s) ->
  exists t, k = sync_pos t /\ forall i, neighbour size s i = source size t i.
Proof.
  intros Hp. pose proof (cprog_lt _ _ Hp) as H34.
  split_k 34 k; [..|exfalso; lia]; cbn in Hp; inversion Hp; subst.
  - exists NL. auto. - exists RL. auto. - exists NR. auto. - exists RR. auto.
Qed.
Lemma sync_pos_inj t u : sync_pos t = sync_pos u -> t = u.
Proof. destruct t, u; cbn; intros; auto; discriminate. Qed.
Lemma sync_at t : exists gd s, nth_error cprog (sync_pos t) = Some (gd, Sync s).
Proof. destruct t; cbn; eauto. Qed.
Lemma event_ok g i t : CInv g -> i < size -> cpc g i = sync_pos t -> cguard (c i) (sync_pos t) = true ->
  event_done nv c g (source size t i) = true -> complete nv c g (source size t i) t = true.
Proof.
  intros I Hi Hk Hg He. unfold event_done in He. rewrite forallb_forall in He.
  assert (Ht : In t tags) by (destruct t; cbn; auto). specialize (He t Ht).
  pose proof (src_lt t i Hi) as Hs. set (j := source size t i) in *.
  assert (Hgj : cguard (c j) (at_copy t) = true) by (unfold j; rewrite guard_sync, dest_source; auto).
  rewrite Hgj, andb_true_r in He.
  destruct (at_copy t <? evt g j) eqn:E; [exact He|]. exfalso. apply Nat.ltb_ge in E.
  clearbody j. destruct t; cbn in Hk, Hgj, E.
  - pose proof (barrier_ok g j i 5 _ I Hs Hi eq_refl ltac:(lia)).
    pose proof (v_evt g I j 4 _ Hs eq_refl Hgj ltac:(lia)). lia.
  - pose proof (barrier_ok g j i 12 _ I Hs Hi eq_refl ltac:(lia)).
    pose proof (v_evt g I j 11 _ Hs eq_refl Hgj ltac:(lia)). lia.
  - pose proof (barrier_ok g j i 20 _ I Hs Hi eq_refl ltac:(lia)).
    pose proof (v_evt g I j 19 _ Hs eq_refl Hgj ltac:(lia)). lia.
  - pose proof (barrier_ok g j i 26 _ I Hs Hi eq_refl ltac:(lia)).
    pose proof (v_evt g I j 25 _ Hs eq_refl Hgj ltac:(lia)). lia.
Qed.
Lemma live_ok g i j t : CInv g -> i < size -> j < size -> cpc g i = sync_pos t -> live g j = true.
Proof.
  intros I Hi Hj Hk. unfold live. apply andb_true_iff. rewrite Nat.ltb_lt, Nat.leb_le.
  change at_create with 1. change at_destroy with 33. split.
  - pose proof (barrier_ok g j i 5 _ I Hj Hi eq_refl ltac:(destruct t; cbn in Hk; lia)). lia.
  - destruct (le_lt_dec (cpc g j) 33); auto. exfalso.
    pose proof (barrier_ok g i j 32 _ I Hi Hj eq_refl ltac:(lia)). destruct t; cbn in Hk; lia.
Qed.
Lemma no_harm g i gd a : CInv g -> i < size -> nth_error cprog (cpc g i) = Some (gd, a) -> harmful size nv c g i a = false.
Proof.
  intros I Hi Hp. destruct a; auto; cbn [harmful].
  - destruct (grown_same i (cloc g i) Hi (proj1 (v_len g I i Hi))) as [-> _]. reflexivity.
  - destruct (sync_cases _ _ _ Hp) as [t [Hk ->]]. now rewrite (live_ok g i _ t I Hi (src_lt t i Hi) Hk).
Qed.

(** ** a thread goes on *)
Definition bar_part (pcs : nat -> nat) (wt : nat -> option nat) (ge mc : nat) : Prop :=
  (forall j, j < size -> wt j = None -> nbar (pcs j) = ge) /\
  (forall j w, j < size -> wt j = Some w -> nbar (pcs j) = w /\ w <= ge <= S w /\
     exists gd, nth_error cprog (pcs j) = Some (gd, Barrier)) /\
  mc + length (filter (fun j => match wt j with Some w => w =? ge | None => false end) (seq 0 size)) = size /\ 1 <= mc.

Lemma advance g i gd a l' ev' wt' ge' mc' : CInv g -> i < size -> nth_error cprog (cpc g i) = Some (gd, a) ->
  core2 l' = core2 (idl i (mp (S (cpc g i)))) -> in_n l' = in_n (cloc g i) -> in_r l' = in_r (cloc g i) ->
  (forall j, j < size -> evt g j <= ev' j \/ (j = i /\ ev' j = cpc g i)) ->
  (forall j, j < size -> ev' j <= cpc g j) -> (cpc g i = 31 -> PB size c P i <= n_sd_max (c i)) ->
  (a = RecordE -> gd (bcL (c i)) (bcR (c i)) = true -> cpc g i <= ev' i) ->
  (forall s, a = Sync s -> gd (bcL (c i)) (bcR (c i)) = true -> event_done nv c g (neighbour size s i) = true) ->
  bar_part (updf (cpc g) i (S (cpc g i))) wt' ge' mc' ->
  CInv (mk_csys (updf (cpc g) i (S (cpc g i))) (updf (cloc g) i l') (moved g) ev' wt' ge' mc').
Proof.
  intros I Hi Hp Hc Hin Hir Hev Hev2 Hmax Hrec Hsy [B1 [B2 B3]]. pose proof (cprog_lt _ _ Hp) as Hk.
  assert (Hpost : forall j t, posted c g j t = true ->
    posted c (mk_csys (updf (cpc g) i (S (cpc g i))) (updf (cloc g) i l') (moved g) ev' wt' ge' mc') j t = true).
  { intros j t E. apply posted_parts in E. apply posted_parts. destruct E as [E1 E2]. split; [|exact E2]. cbn [cpc]. unfold updf. destruct (Nat.eqb_spec j i); [subst j; apply (Nat.lt_trans _ _ _ E1), Nat.lt_succ_diag_r|exact E1]. }
  constructor; cbn [cpc cloc moved evt waiting gen m_count].
  - intros j Hj. unfold updf. destruct (Nat.eqb_spec j i); [lia|]. now apply (v_pc g I).
  - exact B1.
  - exact B2.
  - exact B3.
  - intros j Hj. unfold updf. destruct (Nat.eqb_spec j i); [lia|]. now apply (v_loc0 g I).
  - intros j Hj. unfold updf. destruct (Nat.eqb_spec j i); [subst; auto|]. now apply (v_loc g I).
  - intros j t k Hj E. destruct (v_moved g I j t k Hj E). auto.
  - intros j r gd' Hj E1 E2. unfold updf. destruct (Nat.eqb_spec j i) as [->|Hne].
    + intros E3. destruct (Nat.eq_dec r (cpc g i)) as [->|].
      * rewrite Hp in E1. inversion E1; subst. auto.
      * destruct (Hev i Hi) as [H|[_ H]]; [|lia]. pose proof (v_evt g I i r gd' Hi E1 E2 ltac:(lia)). lia.
    + intros E3. destruct (Hev j Hj) as [H|[H _]]; [|contradiction]. pose proof (v_evt g I j r gd' Hj E1 E2 E3). lia.
  - intros j Hj. specialize (Hev2 j Hj). unfold updf. destruct (Nat.eqb_spec j i); [subst; lia|exact Hev2].
  - intros j Hj. unfold updf. destruct (Nat.eqb_spec j i) as [->|]; [|now apply (v_max g I)].
    intros H. destruct (Nat.eq_dec (cpc g i) 31); [auto|]. apply (v_max g I); auto. lia.
  - intros j t Hj. unfold updf. destruct (Nat.eqb_spec j i) as [->|Hne].
    + intros E1 E2. destruct (Nat.eq_dec (sync_pos t) (cpc g i)) as [E|E].
      * destruct (sync_at t) as [gd' [s Hs]]. rewrite E, Hp in Hs. inversion Hs; subst gd' a.
        destruct (sync_cases _ _ _ Hp) as [u [Hu Hn]]. rewrite Hu in E. apply sync_pos_inj in E. subst u.
        change (complete nv c g (source size t i) t = true). apply event_ok; auto.
        rewrite <- Hn. apply Hsy; auto. rewrite <- (cguard_any _ _ _ i Hp). now rewrite Hu.
      * apply (v_sync g I i t Hi); auto. lia.
    + intros E1 E2. now apply (v_sync g I j t Hj).
  - intros j t k Hj. unfold updf. destruct (Nat.eqb_spec j i) as [->|Hne].
    + intros E1 E2. pose proof (v_in g I i t k Hi ltac:(lia) E2) as E. unfold in_nth in *. now rewrite Hin, Hir.
    + intros E1 E2. now apply (v_in g I j t k Hj).
  - intros j Hj. unfold updf. destruct (Nat.eqb_spec j i); [subst; rewrite Hin, Hir|]; now apply (v_len g I).
Qed.

Lemma cexec_in g i a : CInv g -> i < size -> in_n (cexec na size ix nv c i a (cloc g i)) = in_n (cloc g i) /\
  in_r (cexec na size ix nv c i a (cloc g i)) = in_r (cloc g i).
Proof.
  intros I Hi. destruct a as [| |a|t| | |s|s|s| | |]; try (split; reflexivity); cbn [cexec].
  - destruct (grown_same i (cloc g i) Hi (proj1 (v_len g I i Hi))) as [_ ->].
    unfold bcnd_flag. destruct (bcL (c i)), (bcR (c i)); split; reflexivity.
  - apply exec_in.
  - destruct s; split; reflexivity.
  - destruct s; split; apply unpack_real_other.
Qed.

Lemma bar_same g i gd a : CInv g -> i < size -> waiting g i = None -> nth_error cprog (cpc g i) = Some (gd, a) ->
  is_bar a = false -> bar_part (updf (cpc g) i (S (cpc g i))) (waiting g) (gen g) (m_count g).
Proof.
  intros I Hi Hw Hp Hb. pose proof (nbar_S _ _ _ Hp) as E. rewrite Hb, Nat.add_0_r in E.
  split; [|split; [|exact (v_count g I)]].
  - intros j Hj Hn. unfold updf. destruct (Nat.eqb_spec j i); [subst; rewrite E|]; now apply (v_run g I).
  - intros j w Hj Hn. unfold updf. destruct (Nat.eqb_spec j i); [subst; congruence|]. now apply (v_wait g I).
Qed.

Lemma resize_pc k gd : nth_error cprog k = Some (gd, ResizeN) -> k = 31.
Proof.
  intros Hp. pose proof (cprog_lt _ _ Hp) as H34.
  split_k 34 k; [..|exfalso; lia]; cbn in Hp; inversion Hp; reflexivity.
Qed.
Lemma at_resize g i : CInv g -> i < size -> 31 <= cpc g i -> n_part (cloc g i) = PB size c P i.
Proof.
  intros I Hi Hk. pose proof (v_pc g I i Hi). pose proof (v_loc g I i Hi ltac:(lia)) as E. apply core2_parts in E.
  destruct E as [_ [_ [-> _]]]. eapply st_np2; eauto.
  remember (cpc g i) as k eqn:Ek; clear Ek. do 35 (destruct k as [|k]; [cbn; lia|]). lia.
Qed.
Lemma inv_instr g i gd a : CInv g -> i < size -> waiting g i = None -> nth_error cprog (cpc g i) = Some (gd, a) ->
  gd (bcL (c i)) (bcR (c i)) = true -> cenabled size nv c g i a = true -> too_many c g i a = false ->
  CInv (mk_csys (updf (cpc g) i (S (cpc g i))) (updf (cloc g) i (cexec na size ix nv c i a (cloc g i)))
                     (moved g) (record_evt g i a) (waiting g) (gen g) (m_count g)).
Proof.
  intros I Hi Hw Hp Hg He Ht. destruct (cexec_in g i a I Hi) as [A B].
  apply advance with gd a; auto.
  - eapply effect; eauto.
  - intros j Hj. unfold record_evt. destruct a; auto. unfold updf. destruct (Nat.eqb_spec j i); auto.
  - intros j Hj. pose proof (v_ev2 g I j Hj). unfold record_evt. destruct a; auto. unfold updf. destruct (Nat.eqb_spec j i); [subst; lia|auto].
  - intros E. rewrite E in Hp. cbn in Hp. inversion Hp; subst. cbn in Ht. apply Nat.ltb_ge in Ht.
    rewrite at_resize in Ht by (auto; lia). exact Ht.
  - intros -> _. unfold record_evt, updf. rewrite Nat.eqb_refl. lia.
  - intros s -> _. exact He.
  - apply (bar_same g i gd a); auto. destruct a; try reflexivity. discriminate He.
Qed.

Lemma upd_id {A} (h : nat -> A) i j : updf h i (h i) j = h j.
Proof. unfold updf. destruct (Nat.eqb_spec j i); congruence. Qed.
Lemma inv_ext g h : (forall j, h j = cloc g j) -> CInv g ->
  CInv (mk_csys (cpc g) h (moved g) (evt g) (waiting g) (gen g) (m_count g)).
Proof.
  intros E I. destruct I. constructor; cbn [cpc cloc moved evt waiting gen m_count]; auto; intros; rewrite E; auto.
Qed.
Lemma inv_skip g i gd a : CInv g -> i < size -> waiting g i = None -> nth_error cprog (cpc g i) = Some (gd, a) ->
  gd (bcL (c i)) (bcR (c i)) = false ->
  CInv (mk_csys (updf (cpc g) i (S (cpc g i))) (cloc g) (moved g) (evt g) (waiting g) (gen g) (m_count g)).
Proof.
  intros I Hi Hw Hp Hg.
  assert (H0 : 1 <= cpc g i).
  { destruct (cpc g i) eqn:E; [|lia]. cbn in Hp. inversion Hp; subst. discriminate Hg. }
  assert (J : CInv (mk_csys (updf (cpc g) i (S (cpc g i))) (updf (cloc g) i (cloc g i)) (moved g) (evt g) (waiting g) (gen g) (m_count g))).
  { apply advance with gd a; auto.
    - rewrite (mp_skip i _ _ _ Hp Hg). now apply (v_loc g I).
    - apply (v_ev2 g I).
    - intros E. rewrite E in Hp. cbn in Hp. inversion Hp; subst. discriminate Hg.
    - congruence.
    - congruence.
    - eapply bar_same; eauto. destruct a; auto. rewrite (bar_guard _ _ _ _ Hp) in Hg. discriminate. }
  refine (inv_ext _ (cloc g) _ J). intros j. symmetry. apply upd_id.
Qed.

(** the barrier *)
Lemma count_upd (p q : nat -> bool) n i : i < n -> p i = false -> q i = true -> (forall j, j < n -> j <> i -> p j = q j) ->
  length (filter q (seq 0 n)) = S (length (filter p (seq 0 n))).
Proof.
  intros Hi Hp Hq He. replace n with (i + S (n - i - 1)) by lia. rewrite seq_app, !filter_app, !app_length. cbn [seq filter Nat.add].
  rewrite Hp, Hq. cbn [length].
  rewrite (filter_ext_in p q (seq 0 i)) by (intros j Hj; apply in_seq in Hj; apply He; lia).
  rewrite (filter_ext_in p q (seq (S i) _)) by (intros j Hj; apply in_seq in Hj; apply He; lia). lia.
Qed.
Lemma count_full (p : nat -> bool) n i : i < n -> p i = false -> length (filter p (seq 0 n)) + 1 = n ->
  forall j, j < n -> j <> i -> p j = true.
Proof.
  intros Hi Hp Hl j Hj Hne. destruct (p j) eqn:E; auto. exfalso.
  pose proof (count_upd p (fun q => if q =? i then true else p q) n i Hi Hp) as A. cbv beta in A. rewrite Nat.eqb_refl in A.
  specialize (A eq_refl ltac:(intros q _ Hq; apply Nat.eqb_neq in Hq; now rewrite Hq)).
  pose proof (count_upd (fun q => if q =? i then true else p q) (fun q => if q =? j then true else if q =? i then true else p q) n j Hj) as B.
  cbv beta in B. rewrite Nat.eqb_refl in B. apply Nat.eqb_neq in Hne. rewrite Hne in B.
  specialize (B E eq_refl ltac:(intros q _ Hq; apply Nat.eqb_neq in Hq; now rewrite Hq)).
  assert (forall q, length (filter q (seq 0 n)) <= n).
  { intros q. rewrite <- (seq_length n 0) at 2. clear. induction (seq 0 n); cbn; auto. destruct (q a); cbn; lia. }
  pose proof (H (fun q => if q =? j then true else if q =? i then true else p q)). lia.
Qed.

Lemma pass_barrier g i gd wt' ge' mc' : CInv g -> i < size -> nth_error cprog (cpc g i) = Some (gd, Barrier) ->
  bar_part (updf (cpc g) i (S (cpc g i))) wt' ge' mc' ->
  CInv (mk_csys (updf (cpc g) i (S (cpc g i))) (cloc g) (moved g) (evt g) wt' ge' mc').
Proof.
  intros I Hi Hp B.
  assert (J : CInv (mk_csys (updf (cpc g) i (S (cpc g i))) (updf (cloc g) i (cloc g i)) (moved g) (evt g) wt' ge' mc')).
  { apply advance with gd Barrier; auto; try congruence; [|apply (v_ev2 g I)|intros E; rewrite E in Hp; discriminate Hp].
    exact (effect g i gd Barrier I Hi Hp (bar_guard _ _ _ _ Hp)). }
  refine (inv_ext _ (cloc g) _ J). intros j. symmetry. apply upd_id.
Qed.

Lemma inv_last g i gd : CInv g -> i < size -> waiting g i = None -> nth_error cprog (cpc g i) = Some (gd, Barrier) ->
  m_count g - 1 = 0 ->
  CInv (mk_csys (updf (cpc g) i (S (cpc g i))) (cloc g) (moved g) (evt g) (waiting g) (S (gen g)) size).
Proof.
  intros I Hi Hw Hp Hm. apply pass_barrier with gd; auto.
  destruct (v_count g I) as [C1 C2]. assert (m_count g = 1) by lia.
  assert (Hall : forall j, j < size -> j <> i -> waiting g j = Some (gen g)).
  { intros j Hj Hne. assert (waits g j = true).
    { apply (count_full (waits g) size i); auto; [unfold waits; now rewrite Hw|lia]. }
    unfold waits in H0. destruct (waiting g j); [|discriminate]. apply Nat.eqb_eq in H0. now subst. }
  pose proof (nbar_S _ _ _ Hp) as E. cbn [is_bar] in E. rewrite (v_run g I i Hi Hw) in E.
  split; [|split; [|split]].
  - intros j Hj Hn. unfold updf. destruct (Nat.eqb_spec j i); [lia|]. rewrite Hall in Hn by auto. discriminate.
  - intros j w Hj Hn. unfold updf. destruct (Nat.eqb_spec j i); [subst; congruence|].
    pose proof (Hall j Hj n) as Hn'. rewrite Hn in Hn'. inversion Hn'; subst w.
    destruct (v_wait g I j _ Hj Hn) as [A [_ B]]. split; [exact A|split; [lia|exact B]].
  - rewrite (filter_ext_in _ (fun _ => false)).
    + replace (filter (fun _ => false) (seq 0 size)) with (@nil nat); [cbn; lia|]. clear. induction (seq 0 size); auto.
    + intros j Hj. apply in_seq in Hj. destruct (Nat.eq_dec j i) as [->|]; [now rewrite Hw|].
      rewrite Hall by (auto; lia). rewrite (proj2 (Nat.eqb_neq _ _)) by lia. reflexivity.
  - exact Hsize.
Qed.

Lemma inv_wait g i gd : CInv g -> i < size -> waiting g i = None -> nth_error cprog (cpc g i) = Some (gd, Barrier) ->
  m_count g - 1 <> 0 ->
  CInv (mk_csys (cpc g) (cloc g) (moved g) (evt g) (updf (waiting g) i (Some (gen g))) (gen g) (m_count g - 1)).
Proof.
  intros I Hi Hw Hp Hm. pose proof (v_run g I i Hi Hw) as E. destruct (v_count g I) as [C1 C2].
  assert (C : length (filter (fun j => match updf (waiting g) i (Some (gen g)) j with Some w => w =? gen g | None => false end) (seq 0 size)) =
     S (length (filter (waits g) (seq 0 size)))).
  { apply count_upd with i; auto.
    - unfold waits. now rewrite Hw.
    - rewrite updf_eq. apply Nat.eqb_refl.
    - intros j Hj Hne. rewrite updf_ne by auto. reflexivity. }
  destruct I. constructor; cbn [cpc cloc moved evt waiting gen m_count]; auto.
  - intros j Hj. unfold updf. destruct (Nat.eqb_spec j i); [discriminate|]. auto.
  - intros j w Hj. unfold updf. destruct (Nat.eqb_spec j i); [|auto]. subst j. intros Hs. inversion Hs; subst w.
    split; auto. split; [lia|eauto].
  - split; [|lia]. unfold waits; cbn [waiting gen]. rewrite C. lia.
Qed.

Lemma inv_wake g i w : CInv g -> i < size -> waiting g i = Some w -> w <> gen g ->
  CInv (mk_csys (updf (cpc g) i (S (cpc g i))) (cloc g) (moved g) (evt g) (updf (waiting g) i None) (gen g) (m_count g)).
Proof.
  intros I Hi Hw Hne. destruct (v_wait g I i w Hi Hw) as [A [B [gd Hp]]].
  apply pass_barrier with gd; auto.
  pose proof (nbar_S _ _ _ Hp) as E. cbn [is_bar] in E.
  split; [|split].
  - intros j Hj. unfold updf. destruct (Nat.eqb_spec j i); [lia|]. now apply (v_run g I).
  - intros j v Hj. unfold updf. destruct (Nat.eqb_spec j i); [discriminate|]. now apply (v_wait g I).
  - destruct (v_count g I) as [C1 C2]. split; auto.
    rewrite (filter_ext_in _ (waits g)); auto. intros j Hj. unfold waits, updf. destruct (Nat.eqb_spec j i); auto.
    subst j. rewrite Hw. symmetry. apply Nat.eqb_neq. auto.
Qed.

Lemma inv_start : CInv (mk_csys (fun _ => 0) L (fun _ _ _ => false) (fun _ => 0) (fun _ => None) 0 size).
Proof.
  constructor; cbn [cpc cloc moved evt waiting gen m_count]; intros; auto; try discriminate; try lia.
  unfold waits; cbn. replace (filter (fun _ => false) (seq 0 size)) with (@nil nat); [cbn; lia|].
  clear. induction (seq 0 size); auto.
Qed.

(** ** the invariant of all reachable states *)
Definition CG (x : cstate) : Prop :=
  match x with
  | CRun g => CInv g
  | Terminated => exists i, i < size /\ n_sd_max (c i) < PB size c P i
  | Corrupt => False
  end.
Lemma CG_step x y : CG x -> cstep na size ix nv c x y -> CG y.
Proof.
  intros I S. destruct S; cbn [CG] in *.
  - eapply inv_instr; eauto.
  - rewrite (no_harm g i gd a) in H3; auto. discriminate.
  - destruct a; try discriminate H3. cbn in H3. apply Nat.ltb_lt in H3. exists i. split; auto.
    apply resize_pc in H1. rewrite at_resize in H3 by (auto; lia). exact H3.
  - eapply inv_skip; eauto.
  - eapply inv_last; eauto.
  - eapply inv_wait; eauto.
  - eapply inv_wake; eauto.
  - eapply inv_copy; eauto.
  - pose proof (no_overrun g i t k I H H0 H1). lia.
Qed.
Lemma CG_reach y : clos_refl_trans_1n _ (cstep na size ix nv c) (cstart size L) y -> CG y.
Proof.
  assert (H : forall x, clos_refl_trans_1n _ (cstep na size ix nv c) x y -> CG x -> CG y).
  { intros x H. induction H; auto. intros I. apply IHclos_refl_trans_1n. eapply CG_step; eauto. }
  intros E. apply (H _ E). apply inv_start.
Qed.

(** ** No deadlock *)
Lemma forallb_false {A} (p : A -> bool) l : forallb p l = false -> exists x, In x l /\ p x = false.
Proof.
  induction l as [|a l IH]; cbn; [discriminate|]. destruct (p a) eqn:E; cbn.
  - intros H. destruct (IH H) as [x [A1 A2]]. eauto.
  - intros _. exists a. auto.
Qed.
Lemma copy_progress g j t : CInv g -> j < size -> posted c g j t = true -> complete nv c g j t = false ->
  exists y, cstep na size ix nv c (CRun g) y.
Proof.
  intros I Hj Hp Hc.
  set (todo := fun u => posted c g j u && negb (complete nv c g j u)).
  assert (Hfirst : exists u, todo u = true /\ forall v, todo v = true -> at_copy u <= at_copy v).
  { assert (Ht : todo t = true) by (unfold todo; now rewrite Hp, Hc).
    destruct (todo NL) eqn:E1; [exists NL; split; auto; intros [] _; cbn; lia|].
    destruct (todo RL) eqn:E2; [exists RL; split; auto; intros [] E; cbn; try lia; congruence|].
    destruct (todo NR) eqn:E3; [exists NR; split; auto; intros [] E; cbn; try lia; congruence|].
    destruct t; try congruence. exists RR; split; auto; intros [] E; cbn; try lia; congruence. }
  destruct Hfirst as [u [Hu Hmin]]. unfold todo in Hu. apply andb_prop in Hu. destruct Hu as [U1 U2].
  apply negb_true_iff in U2. unfold complete in U2. apply forallb_false in U2. destruct U2 as [k [K1 K2]].
  apply in_seq in K1. eexists. apply cs_copy with (i := j) (t := u) (k := k); auto; try lia.
  - intros v Hv Hlt. destruct (complete nv c g j v) eqn:E; auto. exfalso.
    assert (todo v = true) by (unfold todo; now rewrite Hv, E). specialize (Hmin v H). lia.
  - apply no_overrun; auto. lia.
Qed.

Lemma no_deadlock g : CInv g -> (exists i, i < size /\ cpc g i < 34) -> exists y, cstep na size ix nv c (CRun g) y.
Proof.
  intros I [i0 [Hi0 Hlt0]].
  destruct (min_exists 1 (le_n 1) (fun i => cpc g i <? 34) (cpc g) size) as [i [Hi [Hu Hm]]].
  { exists i0. split; auto. now apply Nat.ltb_lt. }
  apply Nat.ltb_lt in Hu.
  assert (Hall : forall j, j < size -> cpc g i <= cpc g j).
  { intros j Hj. destruct (Nat.ltb_spec (cpc g j) 34) as [E|E]; [apply Hm; auto; now apply Nat.ltb_lt|lia]. }
  clear i0 Hi0 Hlt0 Hm.
  destruct (waiting g i) as [w|] eqn:Hw.
  - destruct (Nat.eq_dec w (gen g)) as [->|Hne]; [|eexists; eapply cs_wake; eauto].
    destruct (v_wait g I i _ Hi Hw) as [A [_ [gd Hp]]].
    assert (Hex : exists j, j < size /\ waits g j = false).
    { destruct (forallb (waits g) (seq 0 size)) eqn:E.
      - exfalso. destruct (v_count g I) as [C1 C2]. rewrite forallb_forall in E.
        rewrite (filter_ext_in (waits g) (fun _ => true)) in C1 by auto.
        replace (filter (fun _ => true) (seq 0 size)) with (seq 0 size) in C1; [rewrite seq_length in C1; lia|].
        clear. induction (seq 0 size); cbn; congruence.
      - apply forallb_false in E. destruct E as [j [J1 J2]]. apply in_seq in J1. exists j. split; auto. lia. }
    destruct Hex as [j [Hj Ej]]. unfold waits in Ej. destruct (waiting g j) as [w'|] eqn:Hwj.
    + apply Nat.eqb_neq in Ej. eexists. eapply (cs_wake _ _ _ _ _ g j); eauto.
    + pose proof (v_run g I j Hj Hwj) as B. specialize (Hall j Hj).
      assert (Eq : cpc g j = cpc g i).
      { destruct (Nat.eq_dec (cpc g j) (cpc g i)); auto. exfalso.
        pose proof (nbar_S _ _ _ Hp) as E. cbn [is_bar] in E.
        pose proof (nbar_mono (S (cpc g i)) (cpc g j) ltac:(lia)). lia. }
      rewrite <- Eq in Hp. destruct (Nat.eq_dec (m_count g - 1) 0).
      * eexists. eapply (cs_last _ _ _ _ _ g j); eauto using bar_guard.
      * eexists. eapply (cs_wait _ _ _ _ _ g j); eauto using bar_guard.
  - destruct (nth_error cprog (cpc g i)) as [[gd a]|] eqn:Hp.
    2:{ apply nth_error_None in Hp. change (length cprog) with 34 in Hp. lia. }
    destruct (gd (bcL (c i)) (bcR (c i))) eqn:Hg; [|eexists; eapply cs_skip; eauto].
    destruct (too_many c g i a) eqn:Et; [eexists; eapply cs_throw; eauto|].
    destruct (cenabled size nv c g i a) eqn:He.
    { eexists. eapply cs_instr; eauto. eapply no_harm; eauto. }
    destruct a; try discriminate He.
    + destruct (Nat.eq_dec (m_count g - 1) 0).
      * eexists. eapply cs_last; eauto.
      * eexists. eapply cs_wait; eauto.
    + cbn [cenabled] in He. unfold event_done in He. apply forallb_false in He. destruct He as [t [_ E]].
      destruct (sync_cases _ _ _ Hp) as [u [_ Hn]]. rewrite Hn in E. pose proof (src_lt u i Hi) as Hj.
      set (j := source size u i) in *.
      destruct ((at_copy t <? evt g j) && cguard (c j) (at_copy t)) eqn:Ea; [|discriminate E]. cbn in E.
      apply andb_prop in Ea. destruct Ea as [E1 E2]. apply Nat.ltb_lt in E1.
      apply (copy_progress g j t); auto. apply posted_parts. split; auto. pose proof (v_ev2 g I j Hj). lia.
Qed.

(** ** the end of every run *)
Lemma final_state y : clos_refl_trans_1n _ (cstep na size ix nv c) (cstart size L) y ->
  (forall z, ~ cstep na size ix nv c y z) ->
  (exists g, y = CRun g /\ forall i, i < size -> cpc g i = 34 /\ PB size c P i <= n_sd_max (c i) /\
    ns (cloc g i) = map (f3 size c P f i) (seq 0 (PB size c P i)) /\ cols (cloc g i) = tab nv (PB size c P i) (F4 size ix c P F i))
  \/ (y = Terminated /\ exists i, i < size /\ n_sd_max (c i) < PB size c P i).
Proof.
  intros Hr Hs. pose proof (CG_reach y Hr) as I. destruct y as [g| |]; [left|right; auto|destruct I]. cbn in I.
  exists g. split; auto. intros i Hi.
  assert (E34 : cpc g i = 34).
  { pose proof (v_pc g I i Hi). destruct (Nat.eq_dec (cpc g i) 34); auto. exfalso.
    destruct (no_deadlock g I) as [z Hz]; [exists i; split; auto; lia|]. exact (Hs z Hz). }
  split; auto. split; [apply (v_max g I); auto; lia|]. pose proof (v_loc g I i Hi ltac:(lia)) as E. rewrite E34 in E. cbn [mp nth] in E.
  apply core2_parts in E. destruct E as [-> [-> _]]. split.
  - eapply st_ns3; eauto. lia.
  - eapply st_cols4; eauto. lia.
Qed.
End ring.

(** ** Every run ends *)
Section ends.
Variables (na : R -> R) (size ix nv : nat) (c : nat -> rankc).
Definition w_thread (g : csys) (i : nat) : nat :=
  3 * (34 - cpc g i) + match waiting g i with Some _ => 1 | None => if cpc g i <? 34 then 2 else 0 end.
Definition w_copies (g : csys) (i : nat) : nat :=
  list_sum (map (fun t => length (filter (fun k => negb (moved g i t k)) (seq 0 (cnt nv (c i) t)))) tags).
Definition cweight (x : cstate) : nat :=
  match x with CRun g => S (list_sum (map (fun i => w_thread g i + w_copies g i) (seq 0 size))) | _ => 0 end.
Lemma w_copies_same g g' i : moved g = moved g' -> w_copies g i = w_copies g' i.
Proof. unfold w_copies. now intros ->. Qed.
Lemma thread_less g g' i : i < size -> moved g = moved g' ->
  (forall j, j <> i -> cpc g' j = cpc g j /\ waiting g' j = waiting g j) -> w_thread g' i < w_thread g i ->
  cweight (CRun g') < cweight (CRun g).
Proof.
  intros Hi Hm Ho Hw. cbn [cweight]. apply -> Nat.succ_lt_mono. apply (list_sum_lt 1 (le_n 1)) with i; auto.
  - rewrite (w_copies_same g g') by auto. lia.
  - intros j _ Hne. destruct (Ho j Hne) as [A B]. rewrite (w_copies_same g g') by auto. f_equal.
    unfold w_thread. now rewrite A, B.
Qed.
Lemma filter_le (p q : nat -> bool) l : (forall x, q x = true -> p x = true) -> length (filter q l) <= length (filter p l).
Proof. intros H. induction l as [|a l IH]; cbn; auto. destruct (q a) eqn:E; [rewrite (H a E); cbn; lia|destruct (p a); cbn; lia]. Qed.
Lemma filter_lt (p q : nat -> bool) l x : (forall x, q x = true -> p x = true) -> In x l -> p x = true -> q x = false ->
  length (filter q l) < length (filter p l).
Proof.
  intros H Hi Hp Hq. induction l as [|a l IH]; [destruct Hi|]. cbn. pose proof (filter_le p q l H).
  destruct Hi as [->|Hi]; [rewrite Hp, Hq; cbn; lia|]. specialize (IH Hi).
  destruct (q a) eqn:E; [rewrite (H a E); cbn; lia|destruct (p a); cbn; lia].
Qed.
Lemma cstep_weight x y : cstep na size ix nv c x y -> cweight y < cweight x.
Proof.
  intros S. destruct S; try (cbn [cweight]; lia).
  - apply thread_less with i; auto.
    + intros j Hne. cbn [cpc waiting]. now rewrite updf_ne.
    + pose proof (cprog_lt _ _ H1). unfold w_thread; cbn [cpc waiting]. rewrite updf_eq, H0.
      destruct (Nat.ltb_spec (cpc g i) 34); [|lia]. destruct (S (cpc g i) <? 34); lia.
  - apply thread_less with i; auto.
    + intros j Hne. cbn [cpc waiting]. now rewrite updf_ne.
    + pose proof (cprog_lt _ _ H1). unfold w_thread; cbn [cpc waiting]. rewrite updf_eq, H0.
      destruct (Nat.ltb_spec (cpc g i) 34); [|lia]. destruct (S (cpc g i) <? 34); lia.
  - apply thread_less with i; auto.
    + intros j Hne. cbn [cpc waiting]. now rewrite updf_ne.
    + pose proof (cprog_lt _ _ H1). unfold w_thread; cbn [cpc waiting]. rewrite updf_eq, H0.
      destruct (Nat.ltb_spec (cpc g i) 34); [|lia]. destruct (S (cpc g i) <? 34); lia.
  - apply thread_less with i; auto.
    + intros j Hne. cbn [cpc waiting]. now rewrite updf_ne.
    + pose proof (cprog_lt _ _ H1). unfold w_thread; cbn [cpc waiting]. rewrite updf_eq, H0.
      destruct (Nat.ltb_spec (cpc g i) 34); lia.
  - apply thread_less with i; auto.
    + intros j Hne. cbn [cpc waiting]. now rewrite !updf_ne.
    + unfold w_thread; cbn [cpc waiting]. rewrite !updf_eq, H0.
      destruct (Nat.ltb_spec (S (cpc g i)) 34); lia.
  - cbn [cweight]. apply -> Nat.succ_lt_mono. apply (list_sum_lt 1 (le_n 1)) with i; auto.
    + change (w_thread (mk_csys _ _ _ _ _ _ _) i) with (w_thread g i). apply Nat.add_lt_mono_l.
      assert (A : forall u, length (filter (fun q => negb (upd3 (moved g) i t k i u q)) (seq 0 (cnt nv (c i) u))) <=
                            length (filter (fun q => negb (moved g i u q)) (seq 0 (cnt nv (c i) u)))).
      { intros u. apply filter_le. intros q. rewrite !negb_true_iff. intros E. destruct (moved g i u q) eqn:Em; auto.
        rewrite <- E. symmetry. apply upd3_spec. now right. }
      assert (B : length (filter (fun q => negb (upd3 (moved g) i t k i t q)) (seq 0 (cnt nv (c i) t))) <
                  length (filter (fun q => negb (moved g i t q)) (seq 0 (cnt nv (c i) t)))).
      { apply filter_lt with k.
        - intros q. rewrite !negb_true_iff. intros E. destruct (moved g i t q) eqn:Em; auto.
          rewrite <- E. symmetry. apply upd3_spec. now right.
        - apply in_seq. lia.
        - now rewrite H2.
        - apply negb_false_iff. apply upd3_spec. auto. }
      pose proof (A NL); pose proof (A RL); pose proof (A NR); pose proof (A RR).
      unfold w_copies, tags. cbn [map list_sum fold_right moved]. destruct t; cbn [list_sum]; lia.
    + intros j _ Hne. change (w_thread (mk_csys _ _ _ _ _ _ _) j) with (w_thread g j). f_equal.
      unfold w_copies. f_equal. apply map_ext. intros u. f_equal. apply filter_ext. intros q. f_equal. cbn [moved].
      unfold upd3. apply Nat.eqb_neq in Hne. now rewrite Hne.
Qed.
End ends.
