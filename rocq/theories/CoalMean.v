(** * C71: candidate pairs are sampled without bias; the mean number of collisions is the physical one *)
From Coq Require Import List Arith NArith ZArith Lia Reals Lra Permutation Sorted Bool.
From Verif Require Import Base BaseProofs HskpngModel HskpngProofs HskpngProps CoalModel CoalProofs CoalPairProofs CoalPassProofs CoalProps.
Import ListNotations.

(** ** Specification *)
(** the orders of super-droplets the first, random, sort can result in, each once *)
Definition all_orders (np : nat) (orders : list (list nat)) : Prop :=
  NoDup orders /\ forall l, In l orders <-> Permutation l (seq 0 np).
(** a sorting algorithm: from the keys alone it finds positions of the elements in sorted order; not necessarily stable *)
Definition sorter (A : list nat -> list nat) : Prop :=
  forall keys, Permutation (A keys) (seq 0 (length keys)) /\ Sorted le (map (fun p => nth p keys 0) (A keys)).
(** ids and cells of super-droplets after sorting by cell those in order [l] *)
Definition ids_after (A : list nat -> list nat) (ijk l : list nat) : list nat :=
  map (fun p => nth p l 0) (A (map (fun id => nth id ijk 0) l)).
Definition cells_after (A : list nat -> list nat) (ijk l : list nat) : list nat :=
  map (fun p => nth p (map (fun id => nth id ijk 0) l) 0) (A (map (fun id => nth id ijk 0) l)).

(** ** The two sorts as modelled give every order *)
Lemma combine_map2 {A B C} (f : A -> B) (g : A -> C) l : combine (map f l) (map g l) = map (fun x => (f x, g x)) l.
Proof. induction l; cbn; congruence. Qed.
Lemma map_nth_seq {A} (l : list A) d : map (fun p => nth p l d) (seq 0 (length l)) = l.
Proof.
  induction l as [|a l IH]; [reflexivity|]. cbn [length seq map nth]. f_equal. rewrite <- seq_shift, map_map. exact IH.
Qed.
Lemma sorts_give A ijk l : sorter A -> Permutation l (seq 0 (length ijk)) -> sort_helper true ijk (cells_after A ijk l) (ids_after A ijk l).
Proof.
  intros HA HP. pose proof (Permutation_length HP) as Hlen. rewrite seq_length in Hlen.
  (* keys: the position of each id in l *)
  unfold sort_helper.
  assert (Hinv : exists un, length un = length ijk /\ forall p, p < length ijk -> nth (nth p l 0) un 0 = p).
  { pose (F := fun i => match find (fun p => nth p l 0 =? i) (seq 0 (length ijk)) with Some p => p | None => 0 end).
    exists (map F (seq 0 (length ijk))).
    split; [rewrite map_length, seq_length; reflexivity|]. intros p Hp.
    assert (Hb : nth p l 0 < length ijk). { assert (In (nth p l 0) l) by (apply nth_In; lia). apply (Permutation_in _ HP) in H. apply in_seq in H. lia. }
    rewrite (nth_indep _ 0 (F 0)) by (rewrite map_length, seq_length; exact Hb).
    rewrite map_nth, seq_nth by exact Hb. cbn [Nat.add]. unfold F.
    destruct (find _ _) as [q|] eqn:E.
    - apply find_some in E. destruct E as (Hq & Eq). apply in_seq in Hq. apply Nat.eqb_eq in Eq.
      assert (ND : NoDup l) by (eapply Permutation_NoDup; [symmetry; exact HP|apply seq_NoDup]).
      apply (proj1 (NoDup_nth l 0) ND); [lia|lia|exact Eq].
    - exfalso. apply find_none with (x := p) in E; [|apply in_seq; lia]. rewrite Nat.eqb_refl in E. discriminate. }
  destruct Hinv as (un & Hu & Hnu).
  exists un, (seq 0 (length ijk)), l. split; [exact Hu|]. split.
  - unfold sort_by_key_result. rewrite !seq_length. split; [exact Hu|]. split; [lia|]. split.
    + assert (E1 : combine un (seq 0 (length ijk)) = map (fun i => (nth i un 0, i)) (seq 0 (length ijk))).
      { rewrite <- combine_map2, map_id. f_equal. rewrite <- Hu. symmetry. apply map_nth_seq. }
      assert (E2 : combine (seq 0 (length ijk)) l = map (fun i => (nth i un 0, i)) l).
      { assert (El : map (fun i => nth i un 0) l = seq 0 (length ijk)).
        { rewrite <- (map_nth_seq l 0) at 1. rewrite map_map, Hlen. rewrite <- (map_id (seq 0 (length ijk))) at 2. apply map_ext_in.
          intros p Hp. apply in_seq in Hp. apply Hnu. lia. }
        rewrite <- (map_id l) at 1. rewrite <- combine_map2. rewrite El, map_id. reflexivity. }
      rewrite E1, E2. apply Permutation_map. symmetry. exact HP.
    + clear. generalize 0 as a. induction (length ijk) as [|k IH]; intros a; [constructor|]. cbn [seq]. constructor; [apply IH|].
      destruct k; constructor. lia.
  - destruct (HA (map (fun id => nth id ijk 0) l)) as (P1 & P2). rewrite map_length in P1.
    unfold sort_by_key_result, cells_after, ids_after. rewrite !map_length. split; [reflexivity|]. split; [reflexivity|]. split; [|exact P2].
    rewrite combine_map2.
    assert (E : combine (map (fun id => nth id ijk 0) l) l = map (fun p => (nth p (map (fun id => nth id ijk 0) l) 0, nth p l 0)) (seq 0 (length l))).
    { rewrite <- combine_map2. rewrite map_nth_seq. f_equal. rewrite <- (map_length (fun id => nth id ijk 0) l). rewrite map_nth_seq. reflexivity. }
    rewrite E. apply Permutation_map. symmetry. exact P1.
Qed.

(** ** Exchanging super-droplets of one cell *)
Definition swap (a b x : nat) : nat := if x =? a then b else if x =? b then a else x.
Lemma swap_l a b : swap a b a = b. Proof. unfold swap. rewrite Nat.eqb_refl. reflexivity. Qed.
Lemma swap_other a b x : x <> a -> x <> b -> swap a b x = x.
Proof. intros H1 H2. unfold swap. apply Nat.eqb_neq in H1, H2. rewrite H1, H2. reflexivity. Qed.
Lemma swap_inv a b x : swap a b (swap a b x) = x.
Proof.
  unfold swap. destruct (Nat.eqb_spec x a) as [->|H1].
  - destruct (Nat.eqb_spec b a) as [->|H2]; [reflexivity|]. rewrite Nat.eqb_refl. reflexivity.
  - destruct (Nat.eqb_spec x b) as [->|H2]; [rewrite Nat.eqb_refl; reflexivity|].
    apply Nat.eqb_neq in H1, H2. rewrite H1, H2. reflexivity.
Qed.
Lemma swap_inj a b x y : swap a b x = swap a b y -> x = y.
Proof. intros H. rewrite <- (swap_inv a b x), H. apply swap_inv. Qed.
Lemma map_inj {A B} (f : A -> B) : (forall x y, f x = f y -> x = y) -> forall l l', map f l = map f l' -> l = l'.
Proof.
  intros Hf. induction l as [|a l IH]; intros [|b l']; cbn; intros H; try discriminate; [reflexivity|].
  injection H as H1 H2. f_equal; [apply Hf; exact H1|apply IH; exact H2].
Qed.
Lemma swap_orders np orders a b : all_orders np orders -> a < np -> b < np -> Permutation (map (map (swap a b)) orders) orders.
Proof.
  intros (ND & H) Ha Hb.
  assert (Hp : forall l, Permutation l (seq 0 np) -> Permutation (map (swap a b) l) (seq 0 np)).
  { intros l Hl. apply NoDup_Permutation.
    - apply FinFun.Injective_map_NoDup; [intros x y; apply swap_inj|]. eapply Permutation_NoDup; [symmetry; exact Hl|apply seq_NoDup].
    - apply seq_NoDup.
    - intros x. rewrite in_map_iff, in_seq. split.
      + intros (y & <- & Hy). apply (Permutation_in _ Hl) in Hy. apply in_seq in Hy. unfold swap. destruct (y =? a); [lia|]. destruct (y =? b); lia.
      + intros Hx. exists (swap a b x). split; [apply swap_inv|]. apply (Permutation_in _ (Permutation_sym Hl)). apply in_seq.
        unfold swap. destruct (x =? a); [lia|]. destruct (x =? b); lia. }
  apply NoDup_Permutation; [|exact ND|].
  - apply FinFun.Injective_map_NoDup; [|exact ND]. intros x y. apply map_inj. apply swap_inj.
  - intros l. rewrite in_map_iff. split.
    + intros (l0 & <- & Hl0). apply H. apply Hp. apply H. exact Hl0.
    + intros Hl. exists (map (swap a b) l). split; [|apply H, Hp, H; exact Hl].
      rewrite map_map. rewrite <- (map_id l) at 2. apply map_ext. apply swap_inv.
Qed.

Lemma Permutation_filter_compat {T} (f : T -> bool) l l' : Permutation l l' -> Permutation (filter f l) (filter f l').
Proof.
  induction 1 as [|x l l' _ IH|x y l|l1 l2 l3 _ IH1 _ IH2]; cbn; [constructor| | |].
  - destruct (f x); [constructor|]; exact IH.
  - destruct (f x), (f y); try apply perm_swap; reflexivity.
  - etransitivity; eassumption.
Qed.

Section Mean.
  Variable A : list nat -> list nat.
  Hypothesis HA : sorter A.
  Variables (n_cell : nat) (gn : nat -> nat) (ijk : list nat).
  Let np := length ijk.
  Hypothesis Hne : 0 < np.
  Hypothesis Hc : forall c, In c ijk -> c < n_cell.
  Let cell (i : nat) : nat := nth i ijk 0.
  Definition pairs_for (l : list nat) : list (nat * nat * nat) := pairs n_cell gn ijk (ids_after A ijk l) (cells_after A ijk l).
  Definition paired (i j : nat) (l : list nat) : bool :=
    existsb (fun t => (snd (fst t) =? i) && (snd t =? j)) (pairs_for l).
  Variable orders : list (list nat).
  Hypothesis Hord : all_orders np orders.
  Definition times (i j : nat) : nat := length (filter (paired i j) orders).

  Lemma paired_iff i j l : paired i j l = true <-> exists r, In (r, i, j) (pairs_for l).
  Proof.
    unfold paired. rewrite existsb_exists. split.
    - intros (((r & x) & y) & Hin & E). cbn in E. apply andb_true_iff in E. destruct E as (E1 & E2).
      apply Nat.eqb_eq in E1, E2. subst. exists r. exact Hin.
    - intros (r & Hin). exists (r, i, j). split; [exact Hin|]. cbn. rewrite !Nat.eqb_refl. reflexivity.
  Qed.
  Lemma cells_swap a b l : cell a = cell b -> cells_after A ijk (map (swap a b) l) = cells_after A ijk l /\
     A (map (fun id => nth id ijk 0) (map (swap a b) l)) = A (map (fun id => nth id ijk 0) l).
  Proof.
    intros E. assert (Ek : map (fun id => nth id ijk 0) (map (swap a b) l) = map (fun id => nth id ijk 0) l).
    { rewrite map_map. apply map_ext. intros x. unfold swap. destruct (Nat.eqb_spec x a) as [->|]; [symmetry; exact E|].
      destruct (Nat.eqb_spec x b) as [->|]; [exact E|reflexivity]. }
    unfold cells_after. rewrite Ek. split; reflexivity.
  Qed.
  Lemma paired_swap a b i j l : cell a = cell b -> Permutation l (seq 0 np) ->
    paired i j l = true -> paired (swap a b i) (swap a b j) (map (swap a b) l) = true.
  Proof.
    intros E Hl. rewrite !paired_iff. intros (r & Hin). exists r. unfold pairs_for in *.
    unfold pairs in *. apply in_map_iff in Hin. destruct Hin as (p & Ep & Hp). apply in_map_iff. exists p.
    destruct (cells_swap a b l E) as (E1 & E2). rewrite E1. split; [|exact Hp].
    injection Ep as <- <- <-. apply filter_In in Hp. destruct Hp as (_ & Hp).
    pose proof (pair_S_lt _ _ _ _ _ Hp) as Hlt.
    assert (Hla : length (A (map (fun id => nth id ijk 0) l)) = np).
    { destruct (HA (map (fun id => nth id ijk 0) l)) as (P & _). apply Permutation_length in P. rewrite P, seq_length, map_length.
      apply Permutation_length in Hl. rewrite Hl, seq_length. reflexivity. }
    assert (Ha : forall q, q < np -> nth q (A (map (fun id => nth id ijk 0) l)) 0 < np).
    { intros q Hq. destruct (HA (map (fun id => nth id ijk 0) l)) as (P & _).
      assert (Hi : In (nth q (A (map (fun id => nth id ijk 0) l)) 0) (A (map (fun id => nth id ijk 0) l))) by (apply nth_In; lia).
      apply (Permutation_in _ P) in Hi. apply in_seq in Hi. rewrite map_length in Hi. apply Permutation_length in Hl. rewrite seq_length in Hl. lia. }
    assert (Es : forall q, q < np -> sid (ids_after A ijk (map (swap a b) l)) q = swap a b (sid (ids_after A ijk l) q)).
    { intros q Hq. unfold sid, ids_after. rewrite E2.
      set (K := A (map (fun id => nth id ijk 0) l)) in *.
      rewrite (nth_indep _ 0 ((fun p => nth p (map (swap a b) l) 0) 0)) by (rewrite map_length; lia).
      rewrite (map_nth (fun p => nth p (map (swap a b) l) 0)).
      rewrite (nth_indep (map (fun p => nth p l 0) K) 0 ((fun p => nth p l 0) 0)) by (rewrite map_length; lia).
      rewrite (map_nth (fun p => nth p l 0)).
      assert (Hll : length l = np) by (apply Permutation_length in Hl; rewrite seq_length in Hl; exact Hl).
      specialize (Ha q Hq).
      rewrite (nth_indep _ 0 (swap a b 0)) by (rewrite map_length; lia). rewrite map_nth. reflexivity. }
    fold np in Hlt. rewrite !Es by lia. reflexivity.
  Qed.
  Lemma paired_swap_eq a b i j l : cell a = cell b -> a < np -> b < np -> Permutation l (seq 0 np) ->
    paired (swap a b i) (swap a b j) (map (swap a b) l) = paired i j l.
  Proof.
    intros E Ha Hb Hl. apply eq_true_iff_eq. split; [|apply paired_swap; assumption].
    intros H. apply (paired_swap a b) in H; [|exact E|].
    - rewrite !swap_inv in H. rewrite map_map in H. rewrite (map_ext _ (fun x => x)) in H by apply swap_inv. rewrite map_id in H. exact H.
    - destruct Hord as (_ & Ho). apply Ho. apply (Permutation_in _ (swap_orders np orders a b Hord Ha Hb)). apply in_map. apply Ho. exact Hl.
  Qed.
  Lemma times_swap a b i j : cell a = cell b -> a < np -> b < np -> times (swap a b i) (swap a b j) = times i j.
  Proof.
    intros E Ha Hb. unfold times.
    assert (P : Permutation (filter (paired (swap a b i) (swap a b j)) (map (map (swap a b)) orders)) (filter (paired (swap a b i) (swap a b j)) orders)).
    { apply Permutation_filter_compat. apply (swap_orders np); assumption. }
    rewrite <- (Permutation_length P).
    assert (G : forall L, (forall l, In l L -> Permutation l (seq 0 np)) ->
      length (filter (paired (swap a b i) (swap a b j)) (map (map (swap a b)) L)) = length (filter (paired i j) L)).
    { induction L as [|l L IH]; intros HL; [reflexivity|]. cbn [map filter].
      rewrite paired_swap_eq by (try assumption; apply HL; left; reflexivity).
      specialize (IH (fun l' H' => HL l' (or_intror H'))). destruct (paired i j l); cbn [length]; rewrite IH; reflexivity. }
    apply G. intros l Hl. apply (proj2 Hord). exact Hl.
  Qed.
  Lemma times_equal i j i' j' : i < np -> j < np -> i' < np -> j' < np -> cell i = cell j -> cell i' = cell i -> cell j' = cell i ->
    i <> j -> i' <> j' -> times i j = times i' j'.
  Proof.
    intros Hi Hj Hi' Hj' E1 E2 E3 N1 N2.
    rewrite <- (times_swap i i' i j) by (try assumption; congruence). rewrite swap_l.
    set (j1 := swap i i' j).
    assert (Hj1 : j1 < np) by (unfold j1, swap; destruct (j =? i); [lia|destruct (j =? i'); lia]).
    assert (Ej1 : cell j1 = cell i) by (unfold j1, swap; destruct (Nat.eqb_spec j i); [lia|destruct (Nat.eqb_spec j i'); congruence]).
    assert (Nj1 : j1 <> i').
    { unfold j1. intros H. pose proof (swap_l i i') as H0. assert (H2 : swap i i' j = swap i i' i) by congruence. apply swap_inj in H2. congruence. }
    rewrite <- (times_swap j1 j' i' j1) by (try assumption; congruence). rewrite swap_l, swap_other by congruence. reflexivity.
  Qed.

  (** ** Counting pairs in two ways *)
  Definition members (c : nat) : list nat := filter (fun i => cell i =? c) (seq 0 np).
  Definition ordered_pairs (c : nat) : list (nat * nat) :=
    filter (fun ij => negb (fst ij =? snd ij)) (list_prod (members c) (members c)).
  Lemma members_length c : length (members c) = count_occ Nat.eq_dec ijk c.
  Proof.
    unfold members, cell, np. 
    assert (G : forall l k, length (filter (fun i => nth (i - k) l 0 =? c) (seq k (length l))) = count_occ Nat.eq_dec l c).
    { induction l as [|x l IH]; intros k; [reflexivity|]. cbn [length seq filter count_occ]. rewrite Nat.sub_diag.
      assert (E : filter (fun i => nth (i - k) (x :: l) 0 =? c) (seq (S k) (length l)) = filter (fun i => nth (i - S k) l 0 =? c) (seq (S k) (length l))).
      { apply filter_ext_in. intros i Hi. apply in_seq in Hi. replace (i - k) with (S (i - S k)) by lia. reflexivity. }
      rewrite E. clear E. cbn [nth]. destruct (Nat.eqb_spec x c), (Nat.eq_dec x c); try contradiction; cbn [length]; rewrite IH; reflexivity. }
    specialize (G ijk 0). rewrite <- G. f_equal. apply filter_ext. intros i. rewrite Nat.sub_0_r. reflexivity.
  Qed.
  Lemma members_nodup c : NoDup (members c). Proof. apply NoDup_filter, seq_NoDup. Qed.
  Lemma in_members c i : In i (members c) <-> i < np /\ cell i = c.
  Proof. unfold members. rewrite filter_In, in_seq, Nat.eqb_eq. intuition lia. Qed.
  Lemma list_prod_nodup {T U} (l : list T) (m : list U) : NoDup l -> NoDup m -> NoDup (list_prod l m).
  Proof.
    intros Hl Hm. induction Hl as [|x l Hx Hl IH]; [constructor|]. cbn.
    assert (G : forall l1 l2 : list (T * U), NoDup l1 -> NoDup l2 -> (forall z, In z l1 -> ~ In z l2) -> NoDup (l1 ++ l2)).
    { induction l1 as [|z l1 IH1]; intros l2 H1 H2 H3; [exact H2|]. inversion H1; subst. cbn. constructor.
      - rewrite in_app_iff. intros [H|H]; [contradiction|]. apply (H3 z); [left; reflexivity|exact H].
      - apply IH1; [assumption|assumption|]. intros w Hw. apply H3. right. exact Hw. }
    apply G; [|exact IH|].
    - apply FinFun.Injective_map_NoDup; [|exact Hm]. intros a b E. injection E as ->. reflexivity.
    - intros (a & b) H1 H2. apply in_map_iff in H1. destruct H1 as (y & E & _). injection E as <- <-.
      apply in_prod_iff in H2. tauto.
  Qed.
  Lemma ordered_length c : length (ordered_pairs c) = count_occ Nat.eq_dec ijk c * (count_occ Nat.eq_dec ijk c - 1).
  Proof.
    rewrite <- members_length. unfold ordered_pairs. pose proof (members_nodup c) as ND. revert ND. generalize (members c) as l.
    intros l ND.
    assert (G : forall m, (forall x, In x m -> In x l) -> NoDup m -> length (filter (fun ij => negb (fst ij =? snd ij)) (list_prod m l)) = length m * (length l - 1)).
    { induction m as [|x m IH]; intros Hin NDm; [reflexivity|]. inversion NDm; subst. cbn [list_prod]. rewrite filter_app, app_length, IH by (try assumption; intros y Hy; apply Hin; right; exact Hy).
      cbn [length]. rewrite Nat.mul_succ_l. rewrite Nat.add_comm. f_equal.
      assert (Hx : In x l) by (apply Hin; left; reflexivity). clear - ND Hx.
      induction ND as [|y l Hy NDl IH]; [contradiction|]. cbn [map filter fst snd length]. replace (S (length l) - 1) with (length l) by lia.
      destruct (Nat.eqb_spec x y) as [->|Hne]; cbn [negb].
      - clear IH. assert (G : forall l', ~ In y l' -> length (filter (fun ij => negb (fst ij =? snd ij)) (map (fun z => (y, z)) l')) = length l').
        { induction l' as [|z l' IH']; intros Hz; [reflexivity|]. cbn [map filter fst snd]. destruct (Nat.eqb_spec y z) as [->|]; [exfalso; apply Hz; left; reflexivity|].
          cbn [negb length]. rewrite IH'; [reflexivity|]. intros H; apply Hz; right; exact H. }
        apply G. exact Hy.
      - destruct Hx as [->|Hx]; [congruence|]. cbn [length]. rewrite (IH Hx). destruct l; [contradiction|]. cbn [length]. lia. }
    apply G; [auto|exact ND].
  Qed.
  Lemma pairs_of_order c l : Permutation l (seq 0 np) ->
    length (filter (fun ij => paired (fst ij) (snd ij) l) (ordered_pairs c)) = count_occ Nat.eq_dec ijk c / 2.
  Proof.
    intros Hl.
    pose proof (sorts_give A ijk l HA Hl) as Hs.
    rewrite <- (pairs_count n_cell gn ijk _ _ Hs Hne Hc c). fold (pairs_for l).
    pose proof (pairs_nodup (fun _ _ _ => 0%R) (fun _ => 0%R) n_cell gn (fun _ => 0%R) ijk _ _ Hs Hne Hc (fun _ => 0%R) (fun _ => mk_sd 0 0 0 0 0 (fun _ => 0%R) 0 0 (0, 0, 0)%R)) as ND. fold (pairs_for l) in ND.
    rewrite <- (map_length (fun t => (snd (fst t), snd t)) (filter _ (pairs_for l))).
    apply Permutation_length. apply NoDup_Permutation.
    - apply NoDup_filter, NoDup_filter, list_prod_nodup; apply members_nodup.
    - revert ND. generalize (pairs_for l) as P. induction P as [|((r & i) & j) P IH]; intros ND; [constructor|].
      cbn [flat_map fst snd app] in ND. inversion ND as [|? ? H1 H2]; subst. inversion H2 as [|? ? H3 H4]; subst.
      cbn [filter]. destruct (nth (snd (r, i, j)) ijk 0 =? c); [|apply IH; exact H4]. cbn [map fst snd]. constructor; [|apply IH; exact H4].
      intros H. apply in_map_iff in H. destruct H as (((r' & i') & j') & E & Hin). cbn [fst snd] in E. injection E as -> ->.
      apply filter_In in Hin. apply H3. apply in_flat_map. exists (r', i, j). split; [apply Hin|]. right. left. reflexivity.
    - intros (i & j). rewrite filter_In. cbn [fst snd]. rewrite paired_iff. unfold ordered_pairs. rewrite filter_In. cbn [fst snd]. rewrite in_prod_iff, !in_members.
      rewrite in_map_iff. split.
      + intros (((( Hi & Ei) & (Hj & Ej)) & Nij) & r & Hin). exists (r, i, j). split; [reflexivity|]. apply filter_In. split; [exact Hin|]. cbn [snd].
        apply Nat.eqb_eq. exact Ej.
      + intros (((r & i') & j') & E & Hin). cbn [fst snd] in E. injection E as -> ->. apply filter_In in Hin. destruct Hin as (Hin & Ec). cbn [snd] in Ec.
        apply Nat.eqb_eq in Ec.
        pose proof (HP ijk _ _ Hs) as HPm.
        pose proof Hin as Hin'. unfold pairs_for, pairs in Hin'. apply in_map_iff in Hin'. destruct Hin' as (p & Ep & Hp). injection Ep as _ Ei Ej.
        apply filter_In in Hp. destruct Hp as (_ & Hp). pose proof (pair_S_lt _ _ _ _ _ Hp) as Hlt.
        assert (Hi : i < np) by (rewrite <- Ei; apply (perm_bound np _ HPm); fold np in Hlt; lia).
        assert (Hj : j < np) by (rewrite <- Ej; apply (perm_bound np _ HPm); fold np in Hlt; lia).
        pose proof (same_cell_ids n_cell gn ijk _ _ Hs Hne p Hp) as Es. rewrite Ei, Ej in Es.
        split; [|exists r; exact Hin]. split; [split; split; try assumption; unfold cell; congruence|].
        apply negb_true_iff, Nat.eqb_neq. intros E. rewrite E in Hin.
        assert (F : forall P, NoDup (flat_map (fun t : nat * nat * nat => [snd (fst t); snd t]) P) -> In (r, j, j) P -> False); [|apply (F _ ND Hin)].
        induction P as [|t P IH]; intros NDP H; [exact H|]. destruct H as [->|H]; cbn [flat_map fst snd app] in NDP.
        * inversion NDP as [|? ? H1 _]; subst. apply H1. left. reflexivity.
        * inversion NDP as [|? ? _ H2]; subst. inversion H2; subst. apply IH; assumption.
  Qed.

  Lemma list_sum_cons a l : list_sum (a :: l) = a + list_sum l. Proof. reflexivity. Qed.
  Lemma sum_swap {T U} (f : T -> U -> bool) (l : list T) (m : list U) :
    list_sum (map (fun x => length (filter (f x) m)) l) = list_sum (map (fun y => length (filter (fun x => f x y) l)) m).
  Proof.
    induction l as [|x l IH]; cbn [map].
    - induction m as [|y m IHm]; [reflexivity|]. cbn [map]. rewrite list_sum_cons, <- IHm. reflexivity.
    - rewrite list_sum_cons, IH. clear IH. 
      assert (F : forall y, length (filter (fun x => f x y) (x :: l)) = (if f x y then 1 else 0) + length (filter (fun x => f x y) l)).
      { intros y. cbn [filter]. destruct (f x y); reflexivity. }
      rewrite (map_ext _ _ F). clear F. induction m as [|y m IHm]; [reflexivity|]. cbn [filter map].
      rewrite !list_sum_cons. destruct (f x y); cbn [length]; lia.
  Qed.
  Lemma times_total i j : i < np -> j < np -> cell i = cell j -> i <> j ->
    let k := count_occ Nat.eq_dec ijk (cell i) in times i j * (k * (k - 1)) = length orders * (k / 2).
  Proof.
    intros Hi Hj E N k.
    pose proof (sum_swap (fun ij l => paired (fst ij) (snd ij) l) (ordered_pairs (cell i)) orders) as S.
    rewrite (map_ext_in _ (fun _ => times i j)) in S.
    2:{ intros (i' & j') Hin. cbn [fst snd]. fold (times i' j'). unfold ordered_pairs in Hin. apply filter_In in Hin. destruct Hin as (Hin & Nij). cbn [fst snd] in *.
        apply in_prod_iff in Hin. rewrite !in_members in Hin. destruct Hin as ((Hi' & Ei') & (Hj' & Ej')). apply negb_true_iff, Nat.eqb_neq in Nij.
        symmetry. apply times_equal; assumption. }
    rewrite (map_ext_in _ (fun _ => k / 2) orders) in S.
    2:{ intros l Hl. apply pairs_of_order. apply (proj2 Hord). exact Hl. }
    assert (C : forall T (l : list T) c, list_sum (map (fun _ => c) l) = length l * c).
    { intros T l c. induction l as [|x l IH]; [reflexivity|]. cbn [map length]. rewrite list_sum_cons, IH. lia. }
    rewrite !C, ordered_length in S. fold k in S. lia.
  Qed.
End Mean.
