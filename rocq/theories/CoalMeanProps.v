(** * C71: collisions of any two super-droplets of a cell happen at the physical mean rate *)
From Coq Require Import List Arith NArith ZArith Lia Reals Lra Permutation Sorted Bool.
From Coquelicot Require Import Coquelicot.
From Verif Require Import Base BaseProofs HskpngModel HskpngProofs HskpngProps CoalModel CoalProofs CoalPairProofs CoalPassProofs CoalProps CoalMean.
Import ListNotations.
Local Open Scope R_scope.

(** ** Specification *)
(** mean over equally likely orders *)
Definition mean_over (orders : list (list nat)) (f : list nat -> R) : R := lsumR (map f orders) / INR (length orders).
Definition in_cell (ijk : list nat) (i : nat) : nat := count_occ Nat.eq_dec ijk (nth i ijk 0%nat).

(** C71: for every order of super-droplets (random keys) the pass forms pairs as in C01; over all orders, which are equally likely, every two
    super-droplets i, j of a cell with k super-droplets form the pair (i, j) in a share floor(k/2) / (k (k-1)) of the orders, and as many times (j, i):
    no pair is preferred, whatever the sorting algorithm does with equal keys *)
Theorem C71_candidates A n_cell gn ijk orders :
  sorter A -> (0 < length ijk)%nat -> (forall c, In c ijk -> (c < n_cell)%nat) -> all_orders (length ijk) orders ->
  exists pairing : list nat -> list (nat * nat * nat),
    (forall l, In l orders -> sort_helper true ijk (cells_after A ijk l) (ids_after A ijk l) /\
      forall kernel dt dv o gr sched u01 sds, pass_inputs kernel dt dv n_cell ijk sched sds ->
      exists st, coal kernel dt dv o n_cell gn gr (ids_after A ijk l) (cells_after A ijk l) (length ijk) sched u01 sds = Some st /\
        legal_pairing ijk (pairing l) /\
        (forall r i j, In (r, i, j) (pairing l) ->
           pair_outcome o (pair_probability kernel dt dv (in_cell ijk i) (nth i ijk 0%nat) (sds i) (sds j)) (u01 r) (sds i) (sds j) (arr st i) (arr st j)) /\
        (forall i, ~ In i (flat_map (fun t => [snd (fst t); snd t]) (pairing l)) -> arr st i = sds i)) /\
    (forall i j, (i < length ijk)%nat -> (j < length ijk)%nat -> i <> j -> nth i ijk 0%nat = nth j ijk 0%nat ->
      exists chosen, NoDup chosen /\ (forall l, In l chosen <-> In l orders /\ exists r, In (r, i, j) (pairing l)) /\
        INR (length chosen) / INR (length orders) = INR (in_cell ijk i / 2) / (INR (in_cell ijk i) * (INR (in_cell ijk i) - 1))).
Proof.
  intros HA Hne Hc Hord. exists (pairs_for A n_cell gn ijk). split.
  - intros l Hl. assert (HP : Permutation l (seq 0 (length ijk))) by (apply (proj2 Hord); exact Hl).
    pose proof (sorts_give A ijk l HA HP) as Hs. split; [exact Hs|]. intros kernel dt dv o gr sched u01 sds Hin.
    exact (coal_pass_pairs kernel dt dv o n_cell gn gr ijk _ _ sched u01 sds Hs Hin).
  - intros i j Hi Hj Nij E. exists (filter (paired A n_cell gn ijk i j) orders).
    split; [apply NoDup_filter; apply Hord|]. split; [intros l; rewrite filter_In, paired_iff; reflexivity|].
    pose proof (times_total A HA n_cell gn ijk Hne Hc orders Hord i j Hi Hj E Nij) as T. cbn beta zeta in T. unfold times in T. change (count_occ Nat.eq_dec ijk (nth i ijk 0%nat)) with (in_cell ijk i) in T.
    assert (Hk : (2 <= in_cell ijk i)%nat).
    { unfold in_cell. rewrite <- members_length by exact Hne. assert (M : forall x, In x [i; j] -> In x (members ijk (nth i ijk 0%nat))).
      { intros x [<-|[<-|[]]]; apply (in_members n_cell gn ijk Hne); auto. }
      assert (ND2 : NoDup [i; j]). { constructor; [intros [H|[]]; congruence|]. constructor; [intros []|constructor]. }
      exact (NoDup_incl_length ND2 M). }
    clear - T Hk Hord.
    set (k := in_cell ijk i) in *. clearbody k.
    assert (Ho : (0 < length orders)%nat).
    { assert (In (seq 0 (length ijk)) orders) by (apply (proj2 Hord); reflexivity). destruct orders; [contradiction|cbn; lia]. }
    set (t := length (filter (paired A n_cell gn ijk i j) orders)) in *. clearbody t.
    apply (f_equal INR) in T. rewrite !mult_INR, minus_INR in T by lia. change (INR 1) with 1 in T.
    assert (2 <= INR k) by (change 2 with (INR 2); apply le_INR; exact Hk). assert (0 < INR (length orders)) by (apply lt_0_INR; exact Ho).
    assert (INR k * (INR k - 1) <> 0) by nra.
    apply Rmult_eq_reg_r with (INR (length orders) * (INR k * (INR k - 1))); [|apply Rmult_integral_contrapositive; split; lra].
    transitivity (INR t * (INR k * (INR k - 1))); [field; lra|]. rewrite T. field. split; lra.
Qed.

(** ** The random rounding of the number of collisions *)
Lemma rounding_mean p : 0 <= p -> exists c : R -> N, (forall u, collisions p u (c u)) /\ is_RInt (fun u => N2R (c u)) 0 1 p /\
  (forall u, 0 <= u -> forall M : N, p <= N2R M -> (c u <= M)%N).
Proof.
  intros Hp. destruct (N2R_truncN p Hp) as (H1 & H2). set (f := truncN p) in *. clearbody f.
  exists (fun u => if Rlt_dec u (p - N2R f) then (f + 1)%N else f). split; [|split].
  - intros u. exists f. split; [split; assumption|reflexivity].
  - assert (N1 : N2R (f + 1) = N2R f + 1) by (rewrite N2R_plus; reflexivity).
    set (g := fun u => N2R (if Rlt_dec u (p - N2R f) then (f + 1)%N else f)).
    assert (I1 : is_RInt g 0 (p - N2R f) (scal (p - N2R f - 0) (N2R f + 1))).
    { apply is_RInt_ext with (fun _ => N2R f + 1); [|apply (is_RInt_const (V := R_NormedModule))].
      intros x Hx. rewrite Rmin_left, Rmax_right in Hx by lra. unfold g. destruct (Rlt_dec x (p - N2R f)); [symmetry; exact N1|lra]. }
    assert (I2 : is_RInt g (p - N2R f) 1 (scal (1 - (p - N2R f)) (N2R f))).
    { apply is_RInt_ext with (fun _ => N2R f); [|apply (is_RInt_const (V := R_NormedModule))].
      intros x Hx. rewrite Rmin_left, Rmax_right in Hx by lra. unfold g. destruct (Rlt_dec x (p - N2R f)); [lra|reflexivity]. }
    pose proof (is_RInt_Chasles (V := R_NormedModule) _ _ _ _ _ _ I1 I2) as I3.
    match type of I3 with is_RInt _ _ _ ?v => assert (Ev : v = p) by (unfold plus, scal; cbn; unfold mult; cbn; ring) end.
    rewrite Ev in I3. exact I3.
  - intros u Hu M HM. destruct (Rlt_dec u (p - N2R f)) as [H|H].
    + assert (N2R f < N2R M) by lra. apply N2R_lt in H0. lia.
    + assert (H0 : N2R f < N2R (M + 1)) by (rewrite N2R_plus; change (N2R 1) with 1; lra). apply N2R_lt in H0. lia.
Qed.
Lemma collisions_fun p u c c' : collisions p u c -> collisions p u c' -> c = c'.
Proof.
  intros (f & Hf & ->) (f' & Hf' & ->). assert (f = f'); [|subst; reflexivity].
  assert (L : forall a b : N, N2R a <= p -> p < N2R b + 1 -> (a <= b)%N).
  { intros a b Ha Hb. assert (N2R a < N2R (b + 1)) by (rewrite N2R_plus; change (N2R 1) with 1; lra). apply N2R_lt in H. lia. }
  assert (f <= f')%N by (apply L; lra). assert (f' <= f)%N by (apply L; lra). lia.
Qed.

(** number of real droplets that a pair loses to coalescence *)
Definition lost (s s' : nat -> sd) (i j : nat) : R := N2R (n (s i)) + N2R (n (s j)) - N2R (n (s' i)) - N2R (n (s' j)).
Lemma outcome_lost o p u A B A' B' c : pair_outcome o p u A B A' B' -> collisions p u c ->
  (0 < N.min (n A) (n B))%N -> (c <= N.max (n A) (n B) / N.min (n A) (n B))%N ->
  N2R (n A) + N2R (n B) - N2R (n A') - N2R (n B') = N2R c * N2R (N.min (n A) (n B)).
Proof.
  intros (c1 & Hc1 & H) Hc Hm HM. assert (c1 = c) by (eapply collisions_fun; eassumption). subst c1.
  assert (S : forall X Y X' Y', merged o (limited c (n X) (n Y)) X Y X' Y' -> (0 < n Y)%N -> (c <= n X / n Y)%N ->
     N2R (n X) + N2R (n Y) - N2R (n X') - N2R (n Y') = N2R c * N2R (n Y)).
  { intros X Y X' Y' M HY HL. pose proof (mg_n_le _ _ _ _ _ _ M) as L. rewrite (mg_nX _ _ _ _ _ _ M), (mg_nY _ _ _ _ _ _ M).
    assert (E : limited c (n X) (n Y) = c) by (unfold limited; destruct (N.eqb_spec (n Y) 0); lia). rewrite E in *.
    assert (E2 : N2R (n X) = N2R (n X - c * n Y) + N2R c * N2R (n Y)).
    { rewrite <- N2R_mult, <- N2R_plus. f_equal. lia. }
    rewrite E2. ring. }
  destruct H as [(E & -> & ->)|[(Hpos & Hle & M)|(Hpos & Hlt & M)]].
  - rewrite E. change (N2R 0) with 0. ring.
  - rewrite N.min_r, N.max_l in * by lia. apply S; assumption.
  - rewrite N.min_l, N.max_r in * by lia. rewrite <- (S _ _ _ _ M) by assumption. ring.
Qed.

Lemma C71_at kernel dt dv o n_cell gn gr ijk sijk sid sched u01 sds :
  sort_helper true ijk sijk sid -> pass_inputs kernel dt dv n_cell ijk sched sds ->
  forall r i j, In (r, i, j) (pairs n_cell gn ijk sid sijk) ->
    let p := pair_probability kernel dt dv (in_cell ijk i) (nth i ijk 0%nat) (sds i) (sds j) in
    (0 < N.min (n (sds i)) (n (sds j)))%N -> p <= N2R (N.max (n (sds i)) (n (sds j)) / N.min (n (sds i)) (n (sds j))) ->
    exists st : R -> cst,
      (forall u, coal kernel dt dv o n_cell gn gr sid sijk (length ijk) sched (upd u01 r u) sds = Some (st u)) /\
      is_RInt (fun u => lost sds (arr (st u)) i j) 0 1 (p * N2R (N.min (n (sds i)) (n (sds j)))).
Proof.
  intros Hs Hin. 
  destruct (coal_pass_pairs kernel dt dv o n_cell gn gr ijk sid sijk sched u01 sds Hs Hin) as (st0 & _ & L & _).
  intros r i j Hr p Hm HM.
  exists (fun u => match coal kernel dt dv o n_cell gn gr sid sijk (length ijk) sched (upd u01 r u) sds with Some st => st | None => st0 end).
  assert (Q : forall u, exists st, coal kernel dt dv o n_cell gn gr sid sijk (length ijk) sched (upd u01 r u) sds = Some st /\
     pair_outcome o p u (sds i) (sds j) (arr st i) (arr st j)).
  { intros u. destruct (coal_pass_pairs kernel dt dv o n_cell gn gr ijk sid sijk sched (upd u01 r u) sds Hs Hin) as (st & E & _ & O & _).
    exists st. split; [exact E|]. specialize (O r i j Hr). unfold upd in O. rewrite Nat.eqb_refl in O. exact O. }
  split; [intros u; destruct (Q u) as (st & -> & _); reflexivity|].
  assert (Hp : 0 <= p).
  { destruct L as (_ & _ & L & _). destruct (L r i j Hr) as (Hi & Hj & E). destruct Hin as [Hne Hc Hsc Hdt Hdv Hk Hn Hrw].
    unfold p, pair_probability. apply Rmult_le_pos; [|apply Hk]. apply Rmult_le_pos.
    - apply Rle_mult_inv_pos; [exact Hdt|apply Hdv; apply nth_In; exact Hi].
    - assert (K : (1 <= in_cell ijk i)%nat) by (unfold in_cell; apply count_occ_In, nth_In; exact Hi).
      apply le_INR in K. change (INR 1) with 1 in K.
      assert (0 <= INR (in_cell ijk i) * (INR (in_cell ijk i) - 1) / 2) by nra.
      unfold Rdiv at 1. destruct (Nat.eq_dec (in_cell ijk i / 2) 0) as [->|Hz]; [cbn [INR]; rewrite Rinv_0; lra|].
      apply Rmult_le_pos; [assumption|]. left. apply Rinv_0_lt_compat. apply lt_0_INR. lia. }
  destruct (rounding_mean p Hp) as (c & C1 & C2 & C3).
  apply is_RInt_ext with (fun u => N2R (N.min (n (sds i)) (n (sds j))) * N2R (c u)).
  - intros u Hu. rewrite Rmin_left in Hu by lra. destruct (Q u) as (st & -> & O).
    assert (E : lost sds (arr st) i j = N2R (N.min (n (sds i)) (n (sds j))) * N2R (c u)).
    { unfold lost. rewrite (outcome_lost o p u _ _ _ _ (c u) O (C1 u) Hm); [ring|]. apply C3; [lra|exact HM]. }
    symmetry. exact E.
  - rewrite Rmult_comm. apply (is_RInt_scal (V := R_NormedModule) (fun u => N2R (c u)) 0 1 (N2R (N.min (n (sds i)) (n (sds j)))) p). exact C2.
Qed.

(** C71, one pass: averaged over the random number of the pair, a candidate pair loses p * min(n_i, n_j) droplets, p being its (scaled up)
    probability, unless limited by the ratio of multiplicities *)
Theorem C71_rounding kernel dt dv o n_cell gn gr ijk sijk sid sched u01 sds :
  sort_helper true ijk sijk sid -> pass_inputs kernel dt dv n_cell ijk sched sds ->
  exists pairing, legal_pairing ijk pairing /\ forall r i j, In (r, i, j) pairing ->
    let p := pair_probability kernel dt dv (in_cell ijk i) (nth i ijk 0%nat) (sds i) (sds j) in
    (0 < N.min (n (sds i)) (n (sds j)))%N -> p <= N2R (N.max (n (sds i)) (n (sds j)) / N.min (n (sds i)) (n (sds j))) ->
    exists st : R -> cst,
      (forall u, coal kernel dt dv o n_cell gn gr sid sijk (length ijk) sched (upd u01 r u) sds = Some (st u)) /\
      is_RInt (fun u => lost sds (arr (st u)) i j) 0 1 (p * N2R (N.min (n (sds i)) (n (sds j)))).
Proof.
  intros Hs Hin. exists (pairs n_cell gn ijk sid sijk).
  destruct (coal_pass_pairs kernel dt dv o n_cell gn gr ijk sid sijk sched u01 sds Hs Hin) as (st0 & _ & L & _). split; [exact L|].
  exact (C71_at kernel dt dv o n_cell gn gr ijk sijk sid sched u01 sds Hs Hin).
Qed.


(** C71, mean: i and j are super-droplets of one cell; over all (equally likely) orders of super-droplets and over the random number of the pair, the mean
    number of droplets lost in collisions of i with j is dt / dv * K * min(n_i, n_j) (K: mean of the kernel at (i, j) and at (j, i)): that is what all
    pairs colliding with the physical probability would give. Holds when the number of collisions is not limited by the ratio of multiplicities *)
Theorem C71_mean A kernel dt dv o n_cell gn gr ijk sched u01 sds orders i j :
  sorter A -> pass_inputs kernel dt dv n_cell ijk sched sds -> all_orders (length ijk) orders ->
  (i < length ijk)%nat -> (j < length ijk)%nat -> i <> j -> nth i ijk 0%nat = nth j ijk 0%nat ->
  let prob a b := pair_probability kernel dt dv (in_cell ijk i) (nth i ijk 0%nat) (sds a) (sds b) in
  let lo := N.min (n (sds i)) (n (sds j)) in let hi := N.max (n (sds i)) (n (sds j)) in
  (0 < lo)%N -> prob i j <= N2R (hi / lo) -> prob j i <= N2R (hi / lo) ->
  exists (pairing : list nat -> list (nat * nat * nat)) (loss : list nat -> R),
    (forall l, In l orders -> sort_helper true ijk (cells_after A ijk l) (ids_after A ijk l) /\ legal_pairing ijk (pairing l) /\
      (forall r, In (r, i, j) (pairing l) \/ In (r, j, i) (pairing l) -> exists st : R -> cst,
         (forall u, coal kernel dt dv o n_cell gn gr (ids_after A ijk l) (cells_after A ijk l) (length ijk) sched (upd u01 r u) sds = Some (st u)) /\
         is_RInt (fun u => lost sds (arr (st u)) i j) 0 1 (loss l)) /\
      ((forall r, ~ In (r, i, j) (pairing l) /\ ~ In (r, j, i) (pairing l)) -> loss l = 0)) /\
    mean_over orders loss = dt / dv (nth i ijk 0%nat) * ((kernel (nth i ijk 0%nat) (sds i) (sds j) + kernel (nth i ijk 0%nat) (sds j) (sds i)) / 2) * N2R lo.
Proof.
  intros HA Hin Hord Hi Hj Nij E prob lo hi Hlo Pij Pji.
  pose proof (pi_nonempty _ _ _ _ _ _ _ Hin) as Hne. pose proof (pi_cells _ _ _ _ _ _ _ Hin) as Hc.
  set (P := pairs_for A n_cell gn ijk). set (pd := paired A n_cell gn ijk).
  set (loss := fun l => if pd i j l then prob i j * N2R lo else if pd j i l then prob j i * N2R lo else 0).
  exists P, loss.
  assert (HL : forall l, In l orders -> sort_helper true ijk (cells_after A ijk l) (ids_after A ijk l) /\ legal_pairing ijk (P l)).
  { intros l Hl. assert (HP : Permutation l (seq 0 (length ijk))) by (apply (proj2 Hord); exact Hl).
    pose proof (sorts_give A ijk l HA HP) as Hs. split; [exact Hs|].
    destruct (coal_pass_pairs kernel dt dv o n_cell gn gr ijk _ _ sched u01 sds Hs Hin) as (st0 & _ & L & _). exact L. }
  assert (Hpd : forall a b l, pd a b l = true <-> exists r, In (r, a, b) (P l)) by (intros; apply paired_iff).
  assert (Hex : forall l, In l orders -> pd i j l = true -> pd j i l = false).
  { intros l Hl H1. destruct (pd j i l) eqn:H2; [|reflexivity]. exfalso. apply Hpd in H1, H2. destruct H1 as (r1 & H1), H2 as (r2 & H2).
    destruct (HL l Hl) as (_ & ND & _). apply in_split in H1. destruct H1 as (l1 & l2 & E1). rewrite E1 in *.
    apply in_app_iff in H2. rewrite flat_map_app in ND. cbn [flat_map fst snd app] in ND.
    assert (G : forall x, In x (flat_map (fun t => [snd (fst t); snd t]) l1 ++ flat_map (fun t => [snd (fst t); snd t]) l2) -> x <> i).
    { intros x Hx ->. apply (NoDup_remove_2 _ _ _ ND). rewrite in_app_iff in *. destruct Hx; [left; assumption|right; right; assumption]. }
    destruct H2 as [H2|[H2|H2]].
    - apply (G i); [|reflexivity]. apply in_app_iff. left. apply in_flat_map. exists (r2, j, i). split; [exact H2|cbn; auto].
    - congruence.
    - apply (G i); [|reflexivity]. apply in_app_iff. right. apply in_flat_map. exists (r2, j, i). split; [exact H2|cbn; auto]. }
  assert (Ein : in_cell ijk j = in_cell ijk i) by (unfold in_cell; rewrite E; reflexivity).
  split.
  - intros l Hl. destruct (HL l Hl) as (Hs & L). split; [exact Hs|]. split; [exact L|]. split.
    + intros r [Hr|Hr].
      * destruct (C71_at kernel dt dv o n_cell gn gr ijk _ _ sched u01 sds Hs Hin r i j Hr Hlo Pij) as (st & S1 & S2).
        exists st. split; [exact S1|]. unfold loss. rewrite (proj2 (Hpd i j l)) by (exists r; exact Hr). exact S2.
      * assert (Hl1 : (0 < N.min (n (sds j)) (n (sds i)))%N) by (rewrite N.min_comm; exact Hlo).
        assert (Hq : pair_probability kernel dt dv (in_cell ijk j) (nth j ijk 0%nat) (sds j) (sds i)
                     <= N2R (N.max (n (sds j)) (n (sds i)) / N.min (n (sds j)) (n (sds i)))).
        { rewrite Ein, <- E, N.max_comm, N.min_comm. exact Pji. }
        destruct (C71_at kernel dt dv o n_cell gn gr ijk _ _ sched u01 sds Hs Hin r j i Hr Hl1 Hq) as (st & S1 & S2).
        exists st. split; [exact S1|]. unfold loss.
        assert (Tj : pd j i l = true) by (apply Hpd; exists r; exact Hr). rewrite Tj.
        assert (Fi : pd i j l = false) by (destruct (pd i j l) eqn:H; [rewrite (Hex l Hl H) in Tj; discriminate|reflexivity]). rewrite Fi.
        assert (Ev : prob j i * N2R lo = pair_probability kernel dt dv (in_cell ijk j) (nth j ijk 0%nat) (sds j) (sds i) * N2R (N.min (n (sds j)) (n (sds i)))).
        { unfold prob, lo. rewrite Ein, <- E, N.min_comm. reflexivity. }
        rewrite Ev. eapply is_RInt_ext; [|exact S2]. intros u _. cbn beta.
        assert (Es : lost sds (arr (st u)) j i = lost sds (arr (st u)) i j) by (unfold lost; ring). exact Es.
    + intros Hnone. unfold loss. destruct (pd i j l) eqn:H1; [apply Hpd in H1; destruct H1 as (r & H1); destruct (Hnone r); contradiction|].
      destruct (pd j i l) eqn:H2; [apply Hpd in H2; destruct H2 as (r & H2); destruct (Hnone r); contradiction|reflexivity].
  - pose proof (times_total A HA n_cell gn ijk Hne Hc orders Hord i j Hi Hj E Nij) as T1.
    pose proof (times_total A HA n_cell gn ijk Hne Hc orders Hord j i Hj Hi (eq_sym E) (not_eq_sym Nij)) as T2. cbn beta zeta in T1, T2.
    change (count_occ Nat.eq_dec ijk (nth j ijk 0%nat)) with (in_cell ijk j) in T2. rewrite Ein in T2.
    change (count_occ Nat.eq_dec ijk (nth i ijk 0%nat)) with (in_cell ijk i) in T1, T2.
    assert (Hk : (2 <= in_cell ijk i)%nat).
    { unfold in_cell. rewrite <- members_length by exact Hne. assert (M : forall x, In x [i; j] -> In x (members ijk (nth i ijk 0%nat))).
      { intros x [<-|[<-|[]]]; apply (in_members n_cell gn ijk Hne); auto. }
      assert (ND2 : NoDup [i; j]). { constructor; [intros [H|[]]; congruence|]. constructor; [intros []|constructor]. }
      exact (NoDup_incl_length ND2 M). }
    assert (Hsum : forall L, (forall l, In l L -> In l orders) -> lsumR (map loss L) = INR (length (filter (pd i j) L)) * (prob i j * N2R lo) + INR (length (filter (pd j i) L)) * (prob j i * N2R lo)).
    { induction L as [|l L IH]; intros HLL; [unfold lsumR; cbn [map filter fold_right length INR]; ring|].
      cbn [map filter]. change (lsumR (loss l :: map loss L)) with (loss l + lsumR (map loss L)). rewrite IH by (intros x Hx; apply HLL; right; exact Hx).
      unfold loss at 1. pose proof (Hex l (HLL l (or_introl eq_refl))) as Hx. destruct (pd i j l); [rewrite (Hx eq_refl)|destruct (pd j i l)]; cbn [length]; rewrite ?S_INR; ring. }
    unfold mean_over. rewrite Hsum by auto. unfold times in T1, T2. fold (pd i j) in T1. fold (pd j i) in T2.
    assert (Ho : (0 < length orders)%nat).
    { assert (In (seq 0 (length ijk)) orders) by (apply (proj2 Hord); reflexivity). destruct orders; [contradiction|cbn; lia]. }
    set (t1 := length (filter (pd i j) orders)) in *. set (t2 := length (filter (pd j i) orders)) in *. unfold prob, pair_probability.
    set (k := in_cell ijk i) in *. set (Kij := kernel _ (sds i) (sds j)). set (Kji := kernel _ (sds j) (sds i)).
    pose proof (pi_dv _ _ _ _ _ _ _ Hin _ (nth_In ijk 0%nat Hi)) as Hdv. set (V := dv _) in *. set (m := N2R lo).
    clearbody t1 t2 k Kij Kji V m. clear - T1 T2 Hk Ho Hdv.
    assert (Hh : (1 <= k / 2)%nat) by (change 1%nat with (2 / 2)%nat; apply Nat.div_le_mono; lia).
    apply (f_equal INR) in T1, T2. rewrite !mult_INR, minus_INR in T1, T2 by lia. change (INR 1) with 1 in T1, T2.
    assert (2 <= INR k) by (change 2 with (INR 2); apply le_INR; exact Hk). assert (0 < INR (length orders)) by (apply lt_0_INR; exact Ho).
    assert (1 <= INR (k / 2)) by (change 1 with (INR 1); apply le_INR; exact Hh).
    set (h := INR (k / 2)) in *. set (O := INR (length orders)) in *. set (x := INR k) in *. set (a := INR t1) in *. set (b := INR t2) in *.
    clearbody h O x a b.
    assert (Ea : a * (x * (x - 1) / 2 / h) = O / 2).
    { apply Rmult_eq_reg_r with h; [|lra]. transitivity (a * (x * (x - 1)) / 2); [field; lra|]. rewrite T1. field. }
    assert (Eb : b * (x * (x - 1) / 2 / h) = O / 2).
    { apply Rmult_eq_reg_r with h; [|lra]. transitivity (b * (x * (x - 1)) / 2); [field; lra|]. rewrite T2. field. }
    transitivity ((dt / V * m * Kij * (a * (x * (x - 1) / 2 / h)) + dt / V * m * Kji * (b * (x * (x - 1) / 2 / h))) / O); [field; lra|].
    rewrite Ea, Eb. field. lra.
Qed.

(** ** The hypotheses can be met: orders can be listed, sorting algorithms exist *)
Fixpoint insert_all (x : nat) (l : list nat) : list (list nat) :=
  match l with [] => [[x]] | y :: l' => (x :: l) :: map (cons y) (insert_all x l') end.
Fixpoint perms (l : list nat) : list (list nat) :=
  match l with [] => [[]] | x :: l' => flat_map (insert_all x) (perms l') end.
Lemma insert_all_in x l m : In m (insert_all x l) <-> exists l1 l2, l = l1 ++ l2 /\ m = l1 ++ x :: l2.
Proof.
  revert m. induction l as [|y l IH]; intros m; cbn [insert_all In].
  - split; [intros [<-|[]]; exists [], []; split; reflexivity|]. intros ([|a l1] & l2 & E1 & E2); [|discriminate]. cbn in E1. subst. left. reflexivity.
  - rewrite in_map_iff. split.
    + intros [<-|(m' & <- & H)]; [exists [], (y :: l); split; reflexivity|]. apply IH in H. destruct H as (l1 & l2 & -> & ->).
      exists (y :: l1), l2. split; reflexivity.
    + intros ([|a l1] & l2 & E1 & E2); cbn in E1, E2; [subst; left; reflexivity|]. injection E1 as <- E1. right.
      exists (l1 ++ x :: l2). split; [symmetry; exact E2|]. apply IH. exists l1, l2. split; [exact E1|reflexivity].
Qed.
Lemma perms_in l m : In m (perms l) <-> Permutation m l.
Proof.
  revert m. induction l as [|x l IH]; intros m; cbn [perms].
  - split; [intros [<-|[]]; constructor|]. intros H. apply Permutation_sym, Permutation_nil in H. left. symmetry. exact H.
  - rewrite in_flat_map. split.
    + intros (l' & H1 & H2). apply IH in H1. apply insert_all_in in H2. destruct H2 as (l1 & l2 & -> & ->).
      rewrite <- Permutation_middle. constructor. exact H1.
    + intros H. assert (Hx : In x m) by (apply (Permutation_in _ (Permutation_sym H)); left; reflexivity).
      apply in_split in Hx. destruct Hx as (l1 & l2 & ->). exists (l1 ++ l2). split.
      * apply IH. apply Permutation_cons_inv with x. rewrite Permutation_middle. exact H.
      * apply insert_all_in. exists l1, l2. split; reflexivity.
Qed.
Lemma orders_exist np : exists orders, all_orders np orders.
Proof.
  exists (nodup (list_eq_dec Nat.eq_dec) (perms (seq 0 np))). split; [apply NoDup_nodup|].
  intros l. rewrite nodup_In. apply perms_in.
Qed.
Fixpoint ins (key : nat -> nat) (p : nat) (l : list nat) : list nat :=
  match l with [] => [p] | q :: l' => if key p <=? key q then p :: l else q :: ins key p l' end.
Lemma ins_perm key p l : Permutation (ins key p l) (p :: l).
Proof. induction l as [|q l IH]; cbn [ins]; [reflexivity|]. destruct (key p <=? key q)%nat; [reflexivity|]. rewrite IH. apply perm_swap. Qed.
Lemma ins_sorted key p l : Sorted le (map key l) -> Sorted le (map key (ins key p l)).
Proof.
  induction l as [|q l IH]; intros H; cbn [ins map]; [repeat constructor|]. destruct (Nat.leb_spec (key p) (key q)) as [Hpq|Hpq]; cbn [map].
  - constructor; [exact H|]. constructor. exact Hpq.
  - inversion H as [|? ? H1 H2]; subst. constructor; [apply IH; exact H1|]. destruct l as [|q' l]; cbn [ins map]; [constructor; lia|].
    cbn [map] in H2. inversion H2; subst. destruct (key p <=? key q')%nat; cbn [map]; constructor; lia.
Qed.
Lemma sorter_exists : exists A, sorter A.
Proof.
  exists (fun keys => fold_right (ins (fun p => nth p keys 0%nat)) [] (seq 0 (length keys))). intros keys. generalize (seq 0 (length keys)) as l.
  induction l as [|p l (IH1 & IH2)]; cbn [fold_right]; [split; constructor|]. split; [rewrite ins_perm; constructor; exact IH1|apply ins_sorted; exact IH2].
Qed.
(** five super-droplets in two cells, three (one with 5 and two with 2 droplets) in the first one: orders and sorting algorithms exist, all hypotheses hold *)
Theorem C71_instance : exists A orders,
  sorter A /\ all_orders 5 orders /\
  pass_inputs (fun _ _ _ => 1/2) 1 (fun _ => 1) 2 [0;1;0;1;0]%nat (fun _ => seq 0 4) ex_sds /\
  (0 < N.min (n (ex_sds 0)) (n (ex_sds 2)))%N /\
  pair_probability (fun _ _ _ => 1/2) 1 (fun _ => 1) (in_cell [0;1;0;1;0]%nat 0) 0 (ex_sds 0) (ex_sds 2) = 3/2 /\
  3/2 <= N2R (N.max (n (ex_sds 0)) (n (ex_sds 2)) / N.min (n (ex_sds 0)) (n (ex_sds 2))) /\
  1 / 1 * ((1/2 + 1/2) / 2) * N2R (N.min (n (ex_sds 0)) (n (ex_sds 2))) = 1.
Proof.
  destruct sorter_exists as (A & HA). destruct (orders_exist 5) as (orders & Ho). exists A, orders.
  split; [exact HA|]. split; [exact Ho|]. split; [|split; [|split; [|split]]].
  - constructor.
    + cbn [length]. lia.
    + intros c H. cbn [In] in H. lia.
    + intros k. reflexivity.
    + lra.
    + intros; lra.
    + intros; lra.
    + intros i _. unfold ex_sds. destruct (i =? 0)%nat; cbn [n ex_a ex_b]; reflexivity.
    + intros i _. unfold ex_sds. destruct (i =? 0)%nat; cbn [rw2 ex_a ex_b]; lra.
  - reflexivity.
  - unfold pair_probability. change (in_cell [0;1;0;1;0]%nat 0) with 3%nat. change (3 / 2)%nat with 1%nat. cbn [INR]. field.
  - change (N2R (N.max (n (ex_sds 0)) (n (ex_sds 2)) / N.min (n (ex_sds 0)) (n (ex_sds 2)))) with 2. lra.
  - change (N2R (N.min (n (ex_sds 0)) (n (ex_sds 2)))) with 2. lra.
Qed.

Print Assumptions C71_candidates.
Print Assumptions C71_rounding.
Print Assumptions C71_mean.
Print Assumptions C71_instance.
