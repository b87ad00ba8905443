(** C95: budgets of water, aerosol and particle number over whole runs on several MPI processes. *)
From Coq Require Import List Arith NArith ZArith Lia Reals Lra Psatz Permutation Sorted Bool Relations.
From Verif Require Import Base BaseProofs DistModel ExchProofs ExchInv ExchProps HskpngModel HskpngProofs MomsModel MomsProofs CoalModel CoalProofs
  SpaceModel SpaceProofs SpaceProps GridProps RcycModel RcycProofs RcycProps ThermoModel CondModel CondPassModel CondPassProofs CondPassProps
  CondPassProps2 CondPassProps3 CondPassProps4 FreezeProps StepModel StepProps StepMpiModel.
Import ListNotations.
Local Open Scope R_scope.

(** ** admissible runs *)
(** totals over the processes *)
Definition all (C : cluster) (f : setup -> world -> R) (W : nat -> world) : R := sumR (k_size C) (fun i => f (k_F C i) (W i)).
Definition xover (C : cluster) (f : setup -> step_states -> R) (l : list xstates) : R :=
  lsumR (map (fun t => sumR (k_size C) (fun i => f (k_F C i) (x_s t i))) l).

(** the grid of one process; side walls are periodic or open, ends of the sub-domain are open only at the ends of an open domain *)
Definition rank_ok (C : cluster) (i : nat) : Prop :=
  let F := k_F C i in let o := f_b F in let F0 := k_F C 0%nat in
  grid_dims (n_dims o) (f_nx F) (f_ny F) (f_nz F) /\ n_dims o <> 0%nat /\ 0 < f_dx F /\ 0 < f_dy F /\ 0 < f_dz F /\
  0 <= x0 o < x1 o /\ x1 o <= INR (f_nx F) * f_dx F /\
  0 <= y0 o < y1 o /\ (y1 o <= INR (f_ny F) * f_dy F \/ n_dims o <> 3%nat) /\
  0 <= z0 o < z1 o /\ (z1 o <= INR (f_nz F) * f_dz F \/ (n_dims o < 2)%nat) /\
  ice_on o = f_ice F /\ (f_ice F = true -> f_exact F = false) /\
  distmem o = true /\ open_side_walls o = negb (k_periodic C) /\
  lft_open o = (i =? 0)%nat && negb (k_periodic C) /\ rgt_open o = (S i =? k_size C)%nat && negb (k_periodic C) /\
  n_dims o = n_dims (f_b F0) /\ f_ny F = f_ny F0 /\ f_nz F = f_nz F0 /\ f_dy F = f_dy F0 /\ f_dz F = f_dz F0 /\
  f_ice F = f_ice F0 /\ f_exact F = f_exact F0.
(** the processes share out the domain *)
Definition cluster_ok (C : cluster) : Prop :=
  (2 <= k_size C)%nat /\ (forall i, (i < k_size C)%nat -> rank_ok C i) /\
  (forall i, (S i < k_size C)%nat -> k_off C i + x1 (f_b (k_F C i)) = k_off C (S i) + x0 (f_b (k_F C (S i)))).
(** the state in which a run starts *)
Definition states_ok (C : cluster) (W : nat -> world) : Prop := forall i, (i < k_size C)%nat -> state_ok (k_F C i) (W i).

(** no super-droplet has moved farther than across the neighbouring sub-domain, and what arrives fits into the receive buffers *)
Definition reachable (C : cluster) (t : xstates) : Prop :=
  forall i, (i < k_size C)%nat ->
    let o j := f_b (k_F C j) in let W := at_added (x_s t i) in let l := lft_rank (k_size C) i in let r := rgt_rank (k_size C) i in
    forall k, (k < p_np (w_P W))%nat -> p_n (w_P W) k <> 0%N ->
      (lft_open (o i) = false -> x0 (o i) - (x1 (o l) - x0 (o l)) <= w_x W k) /\
      (rgt_open (o i) = false -> w_x W k < x1 (o i) + (x1 (o r) - x0 (o r))).
Definition buffers_ok (C : cluster) (t : xstates) : Prop :=
  let ids i := ids_of (k_F C i) (at_added (x_s t i)) in
  forall i, (i < k_size C)%nat -> let nv := n_vec (k_F C i) in
    (rgt_open (f_b (k_F C i)) = false ->
       let n := length (fst (ids (rgt_rank (k_size C) i))) in (n <= fst (x_bufs t i))%nat /\ (nv * n <= snd (x_bufs t i))%nat) /\
    (lft_open (f_b (k_F C i)) = false ->
       let n := length (snd (ids (lft_rank (k_size C) i))) in (n <= fst (x_bufs t i))%nat /\ (nv * n <= snd (x_bufs t i))%nat).
(** without advection nothing moves horizontally *)
Definition at_home (C : cluster) (t : xstates) : Prop :=
  forall i, (i < k_size C)%nat -> let o := f_b (k_F C i) in let W := at_added (x_s t i) in
    forall k, (k < p_np (w_P W))%nat -> p_n (w_P W) k <> 0%N -> x0 o <= w_x W k < x1 o.
Definition xstep_ok (C : cluster) (t : xstates) : Prop :=
  (forall i, (i < k_size C)%nat ->
     let F := k_F C i in let so := x_so t i in
     o_parcel (so_c so) = f_parcel F /\ o_ice (so_c so) = f_ice F /\ o_exact (so_c so) = f_exact F /\ (1 <= o_sstp (so_c so))%nat /\
     (f_ice F = true -> so_coal so = false) /\ accurate so (at_synced (x_s t i)) /\
     (so_rcyc so = true -> pure_const_multi (f_co F) = true \/ has_one (pop_of (x_recv t i)) \/
        (2 * number_of_zeros (pop_of (x_recv t i)) <= p_np (w_P (x_recv t i)))%nat)) /\
  (if x_adve t then reachable C t /\ buffers_ok C t else at_home C t).

(** ** one process *)
(** the same grid as seen by the lemmas for a single process *)
Definition alone (F : setup) : setup :=
  let o := f_b F in
  mk_setup (mk_bopts (n_dims o) (x0 o) (x1 o) (y0 o) (y1 o) (z0 o) (z1 o) (open_side_walls o) (periodic_topbot o) false (lft_open o) (rgt_open o)
              (ice_on o) (chem_on o))
    (f_nx F) (f_ny F) (f_nz F) (f_dx F) (f_dy F) (f_dz F) (f_ice F) (f_exact F) (f_co F) (f_max F).
Lemma alone_ok C i : rank_ok C i -> setup_ok (alone (k_F C i)).
Proof.
  intros (G1 & G2 & G3 & G4 & G5 & G6 & G7 & G8 & G9 & G10 & G11 & G12 & G13 & _). unfold setup_ok, alone.
  cbn [f_b n_dims f_nx f_ny f_nz f_dx f_dy f_dz distmem x0 x1 y0 y1 z0 z1 ice_on f_ice f_exact].
  split; [exact G1|]. split; [exact G3|]. split; [exact G4|]. split; [exact G5|]. split; [reflexivity|]. split; [exact G6|]. split; [left; exact G7|].
  auto 10.
Qed.

(** what is used of the state before and after the exchange: only of super-droplets with droplets.  Cells are those of the whole grid in y
    and z *)
Definition in_yz (F : setup) (y z : R) : Prop :=
  let o := f_b F in
  (n_dims o = 3%nat -> 0 <= y < INR (f_ny F) * f_dy F) /\ ((2 <= n_dims o)%nat -> 0 <= z < INR (f_nz F) * f_dz F).
Definition sane (F : setup) (n : N) (a : list R) : Prop :=
  0 <= nth 1 a 0 /\ 0 <= nth 0 a 0 /\ (n < 2 ^ 64)%N /\
  (f_ice F = true -> one_phase (nth 1 a 0, nth 10 a 0, nth 11 a 0, nth 12 a 0)) /\ in_yz F (nth 5 a 0) (nth 6 a 0).
Section Rank.
Variables (C : cluster) (i0 : nat).
Hypothesis HR : rank_ok C i0.
Let F := k_F C i0.

Lemma walls_at W k d : (k < p_np (w_P W))%nat ->
  nth k (fst (fst (bcnd (f_b F) (map (bsd_of W) (seq 0 (p_np (w_P W)))) (w_pud W)))) d = final (f_b F) (bsd_of W k).
Proof.
  intros Hk. destruct HR as (_ & G2 & _). rewrite bcnd_list by exact G2. rewrite map_map.
  rewrite (nth_indep _ d (final (f_b F) (bsd_of W 0%nat))) by (rewrite map_length, seq_length; exact Hk).
  change (final (f_b F) (bsd_of W 0%nat)) with ((fun x => final (f_b F) (bsd_of W x)) 0%nat). rewrite map_nth, seq_nth by exact Hk. reflexivity.
Qed.

Lemma walls_mpi s : loose F (at_added s) ->
  let W := at_added s in let V := walls F W in
  loose F V /\ vapour F V = vapour F W /\ (forall w, intrinsic w -> amount w V + fallen F w W + escaped F w s = amount w W) /\
  puddle_water V = puddle_water W + fallen F (water F) W /\ p_dry_vol (w_pud V) = p_dry_vol (w_pud W) + fallen F dry W /\
  p_prt_num (w_pud V) = p_prt_num (w_pud W) + fallen F one W.
Proof.
  intros HL. cbv zeta. set (W := at_added s) in *. pose proof HL as (O1 & O2 & O3 & O5 & O6).
  pose proof HR as (G1 & G2 & G3 & G4 & G5 & G6 & G7 & G8 & G9 & G10 & G11 & G12 & _). fold F in G1, G2, G3, G4, G5, G6, G7, G8, G9, G10, G11, G12.
  set (P := w_P W) in *. set (l := map (bsd_of W) (seq 0 (p_np P))). set (o := f_b F) in *.
  assert (LL : length l = p_np P) by (unfold l; rewrite map_length, seq_length; reflexivity).
  assert (NL : forall i d, (i < p_np P)%nat -> nth i l d = bsd_of W i).
  { intros i d Hi. unfold l. rewrite (nth_indep _ d (bsd_of W 0%nat)) by (rewrite map_length, seq_length; exact Hi).
    rewrite map_nth, seq_nth by exact Hi. reflexivity. }
  assert (IL : forall b, In b l -> exists i, (i < p_np P)%nat /\ b = bsd_of W i).
  { intros b Hb. unfold l in Hb. apply in_map_iff in Hb. destruct Hb as (i & <- & Hi). apply in_seq in Hi. exists i. split; [lia|reflexivity]. }
  assert (LB : length (fst (fst (bcnd o l (w_pud W)))) = length l).
  { destruct (Nat.eq_dec (n_dims o) 0) as [E0|E0]; [unfold bcnd; rewrite E0; reflexivity|].
    apply (C09_exactly_those_outside_are_removed o l (w_pud W) (bsd_of W 0%nat) E0 (proj2 G10)). }
  assert (BN : forall i, b_n (nth i (fst (fst (bcnd o l (w_pud W)))) (bsd_of W i)) = p_n P i \/
                         b_n (nth i (fst (fst (bcnd o l (w_pud W)))) (bsd_of W i)) = 0%N).
  { intros i. destruct (Nat.lt_ge_cases i (p_np P)) as [Hi|Hi]; [|left; rewrite nth_overflow by lia; reflexivity].
    destruct (Nat.eq_dec (n_dims o) 0) as [E0|E0]; [left; unfold bcnd; rewrite E0; cbn [Nat.eqb fst]; rewrite NL by exact Hi; reflexivity|].
    rewrite (proj1 (proj2 (C09_exactly_those_outside_are_removed o l (w_pud W) (bsd_of W i) E0 (proj2 G10)) i ltac:(lia))), NL by exact Hi.
    destruct (_ || _); auto. }
  assert (FS : forall w, fallen_sum o w l = sumR (p_np P) (fun i => if fell_out o (bsd_of W i) then N2R (p_n P i) * w (bsd_of W i) else 0)).
  { intros w. unfold fallen_sum, l. rewrite map_map, <- sumR_seq. reflexivity. }
  split; [|split; [reflexivity|split; [|]]].
  - unfold loose, walls. cbn [w_P w_E set_mult p_np p_rw2 p_rd3 p_n]. fold P. split; [exact O1|]. split; [exact O2|]. split; [exact O3|].
    split; [|exact O6]. intros i. split; [apply O5|]. split; [apply O5|]. fold l. fold o. destruct (BN i) as [-> | ->]; [apply O5|reflexivity].
  - intros w Hw. unfold fallen, escaped, amount, walls. fold W P l o. cbn [w_P set_mult p_np p_n]. destruct (f_parcel F) eqn:EP.
    + cbn [negb andb]. rewrite (sumR_0 (p_np P) (fun _ => 0)) by reflexivity. rewrite !Rplus_0_r. apply sumR_ext. intros i Hi.
      set (V := mk_world _ _ _ _ _ _ _ _). replace (w (bsd_of V i)) with (w (bsd_of W i)) by (apply Hw; reflexivity). clearbody V.
      unfold f_parcel in EP. fold o in EP. unfold bcnd. rewrite EP. cbn [fst]. rewrite NL by exact Hi. reflexivity.
    + assert (E0 : n_dims o <> 0%nat) by (intros E; unfold f_parcel in EP; fold o in EP; rewrite E in EP; discriminate).
      rewrite FS, <- !sumR_plus. apply sumR_ext. intros i Hi. cbn [negb andb].
      destruct (proj2 (C09_exactly_those_outside_are_removed o l (w_pud W) (bsd_of W i) E0 (proj2 G10)) i ltac:(lia)) as [Q _].
      rewrite NL in Q by exact Hi. rewrite Q.
      set (V := mk_world _ _ _ _ _ _ _ _). replace (w (bsd_of V i)) with (w (bsd_of W i)) by (apply Hw; reflexivity). clearbody V.
      change (b_n (bsd_of W i)) with (p_n P i). unfold fell_out.
      assert (TB : left_top o (bsd_of W i) = true -> left_bottom o (bsd_of W i) = true -> False).
      { unfold left_top, left_bottom. intros A B. apply andb_true_iff in A, B. destruct A as [_ A], B as [_ B].
        rewrite Rleb_true in A. rewrite Rltb_true in B. lra. }
      destruct (left_sideways o (bsd_of W i)), (left_top o (bsd_of W i)), (left_bottom o (bsd_of W i)); cbn [negb orb andb];
        try (exfalso; apply TB; reflexivity); try (replace (N2R 0) with 0 by reflexivity); ring.
  - assert (PU : puddle_water (walls F W) = puddle_water W + fallen F (water F) W /\
                 p_dry_vol (w_pud (walls F W)) = p_dry_vol (w_pud W) + fallen F dry W /\
                 p_prt_num (w_pud (walls F W)) = p_prt_num (w_pud W) + fallen F one W).
    { unfold fallen, puddle_water, walls. cbn [w_pud]. fold P l o. destruct (f_parcel F) eqn:EP.
      - unfold f_parcel in EP. fold o in EP. unfold bcnd. rewrite EP. cbn [fst snd]. repeat split; lra.
      - assert (E0 : n_dims o <> 0%nat) by (intros E; unfold f_parcel in EP; fold o in EP; rewrite E in EP; discriminate).
        assert (POS : forall b, In b l -> 0 <= b_rw2 b /\ 0 <= b_rd3 b).
        { intros b Hb. destruct (IL b Hb) as (i & _ & ->). split; apply O5. }
        destruct (C09_puddle_exact o l (w_pud W) E0 (proj2 G10) POS) as (A1 & A2 & A3 & _ & A5 & _). rewrite A1, A2, A3, A5.
        split; [|split; reflexivity]. rewrite G12. rewrite !FS. unfold water.
        destruct (f_ice F).
        + rewrite (sumR_ext _ (fun x => if fell_out o (bsd_of W x) then N2R (p_n P x) * (liquid (bsd_of W x) + ice (bsd_of W x)) else 0)
             (fun x => 1000 * (if fell_out o (bsd_of W x) then N2R (p_n P x) * (4 / 3 * PI * sqrt (b_rw2 (bsd_of W x)) ^ 3) else 0) +
                       (if fell_out o (bsd_of W x) then N2R (p_n P x) * (4 / 3 * PI * b_a (bsd_of W x) ^ 2 * b_c (bsd_of W x) * b_rho (bsd_of W x)) else 0))).
          * rewrite sumR_plus, sumR_scal. ring.
          * intros i _. unfold liquid, ice. destruct (fell_out o (bsd_of W i)); ring.
        + rewrite (sumR_ext _ (fun x => if fell_out o (bsd_of W x) then N2R (p_n P x) * (liquid (bsd_of W x) + 0) else 0)
             (fun x => 1000 * (if fell_out o (bsd_of W x) then N2R (p_n P x) * (4 / 3 * PI * sqrt (b_rw2 (bsd_of W x)) ^ 3) else 0))).
          * rewrite sumR_scal. ring.
          * intros i _. unfold liquid. destruct (fell_out o (bsd_of W i)); ring. }
    exact PU.
Qed.

(** the states between boundary conditions and tidying up: super-droplets with droplets *)
Definition decent (W : world) : Prop :=
  let P := w_P W in let E := w_E W in
  (p_np P <= f_max F)%nat /\ e_nc E = n_cell (f_nx F) (f_ny F) (f_nz F) /\
  (forall c, (c < e_nc E)%nat -> 0 < e_rhod E c /\ 0 < e_dv E c) /\
  (forall k, (k < p_np P)%nat -> p_n P k <> 0%N -> sane F (p_n P k) (map (fun v => vec_of W v k) (seq 0 (n_vec F)))).
Lemma vec_at W k v : (v < 14)%nat -> nth v (map (fun v => vec_of W v k) (seq 0 (n_vec F))) 0 = vec_of W v k.
Proof.
  intros Hv. assert (V14 : (14 <= n_vec F)%nat) by (unfold n_vec; destruct (f_exact F); lia).
  rewrite (nth_indep _ 0 (vec_of W 0%nat k)) by (rewrite map_length, seq_length; lia).
  change (vec_of W 0%nat k) with ((fun v => vec_of W v k) 0%nat). rewrite map_nth, seq_nth by lia. reflexivity.
Qed.
(** after the boundary conditions *)
Lemma walls_decent W : loose F W -> close_by F W -> decent (walls F W) /\
  forall k, (k < p_np (w_P W))%nat -> w_x (walls F W) k = w_x W k /\ (p_n (w_P (walls F W)) k <> 0%N -> p_n (w_P W) k <> 0%N /\
    left_sideways (f_b F) (bsd_of W k) = false).
Proof.
  intros (O1 & O2 & O3 & O5 & O6) HN.
  pose proof HR as (G1 & G2 & G3 & G4 & G5 & G6 & G7 & G8 & G9 & G10 & G11 & G12 & G13 & G14 & G15 & _).
  fold F in G1, G2, G3, G4, G5, G6, G7, G8, G9, G10, G11, G12, G13, G14, G15.
  set (V := walls F W). set (o := f_b F) in *.
  assert (FN : forall k, (k < p_np (w_P W))%nat -> p_n (w_P V) k =
     if left_sideways o (bsd_of W k) || left_top o (bsd_of W k) || left_bottom o (bsd_of W k) then 0%N else p_n (w_P W) k).
  { intros k Hk. unfold V, walls. cbn [w_P set_mult p_n]. rewrite walls_at by exact Hk. apply (final_n o (bsd_of W k) (proj2 G10)). }
  assert (FM : forall k, (k < p_np (w_P W))%nat -> w_x V k = w_x W k /\
     w_y V k = (if (n_dims o =? 3)%nat && negb (open_side_walls o) then periodic (y0 o) (y1 o) (w_y W k) else w_y W k) /\
     w_z V k = (if (1 <? n_dims o)%nat && periodic_topbot o then periodic (z0 o) (z1 o) (w_z W k) else w_z W k)).
  { intros k Hk. unfold V, walls. cbn [w_x w_y w_z]. rewrite !walls_at by exact Hk.
    destruct (final_moved o (bsd_of W k)) as (M1 & M2 & M3 & _). rewrite G14 in M1. cbn [orb] in M1. auto. }
  split.
  - unfold decent. change (w_E V) with (w_E W). change (p_np (w_P V)) with (p_np (w_P W)).
    split; [exact O1|]. split; [exact O2|]. split; [exact O3|].
    intros k Hk Hn. unfold sane. rewrite !vec_at by lia. cbn [vec_of]. rewrite FN in * by exact Hk. destruct (FM k Hk) as (M1 & M2 & M3).
    destruct (left_sideways o (bsd_of W k) || left_top o (bsd_of W k) || left_bottom o (bsd_of W k)) eqn:E; [congruence|].
    apply orb_false_iff in E as [E Eb]. apply orb_false_iff in E as [Es Et].
    change (p_rw2 (w_P V)) with (p_rw2 (w_P W)). change (p_rd3 (w_P V)) with (p_rd3 (w_P W)). change (p_ia (w_P V)) with (p_ia (w_P W)).
    change (p_ic (w_P V)) with (p_ic (w_P W)). change (p_irho (w_P V)) with (p_irho (w_P W)).
    split; [apply O5|]. split; [apply O5|]. split; [apply O5|]. split; [intros EI; exact (O6 EI k)|].
    destruct (HN k Hk) as (N1 & N2 & N3). fold o in N2, N3.
    unfold left_sideways in Es. apply orb_false_iff in Es as [_ Ey]. unfold left_top, left_bottom, has_vertical_walls in Et, Eb.
    unfold in_yz. fold o. rewrite M2, M3. split; intros Hd.
    + rewrite Hd in Ey |- *. cbn [Nat.eqb andb] in Ey |- *. cbn [bsd_of b_y] in Ey. destruct (open_side_walls o); cbn [negb andb] in Ey |- *.
      * apply orb_false_iff in Ey as [Y1 Y2]. apply Rltb_false in Y1. apply Rleb_false in Y2. destruct G9 as [G9|G9]; [lra|congruence].
      * destruct (C08_periodic_into_domain (y0 o) (y1 o) (w_y W k) (proj2 G8) ltac:(lra)) as [Q _]. destruct G9 as [G9|G9]; [lra|congruence].
    + assert (L : (1 <? n_dims o)%nat = true) by (apply Nat.ltb_lt; lia). rewrite L in Et, Eb |- *. cbn [andb bsd_of b_z] in Et, Eb |- *.
      destruct (periodic_topbot o); cbn [negb andb] in Et, Eb |- *.
      * destruct (C08_periodic_into_domain (z0 o) (z1 o) (w_z W k) (proj2 G10) ltac:(lra)) as [Q _]. destruct G11 as [G11|G11]; [lra|lia].
      * apply Rleb_false in Et. apply Rltb_false in Eb. destruct G11 as [G11|G11]; [lra|lia].
  - intros k Hk. split; [apply (FM k Hk)|]. rewrite FN by exact Hk.
    destruct (left_sideways o (bsd_of W k)); cbn [orb]; [congruence|]. destruct (_ || _); [congruence|]. auto.
Qed.

(** tidying up *)
Lemma tidy_mpi so V W' : tidy F so V W' -> decent V ->
  (so_rcyc so = true -> pure_const_multi (f_co F) = true \/ has_one (pop_of V) \/ (2 * number_of_zeros (pop_of V) <= p_np (w_P V))%nat) ->
  (forall k, (k < p_np (w_P V))%nat -> p_n (w_P V) k <> 0%N -> x0 (f_b F) <= w_x V k < x1 (f_b F)) ->
  state_ok F W' /\ (forall w, intrinsic w -> amount w W' = amount w V) /\ vapour F W' = vapour F V /\ w_pud W' = w_pud V /\
  forall i, (i < p_np (w_P W'))%nat -> p_n (w_P W') i <> 0%N.
Proof.
  intros (gar & garn & tmp & sid & sched & p' & Hsort & Hsch & Hc & ->) (O1 & O2 & O3 & OS) Hd HX.
  assert (O5 : forall k, (k < p_np (w_P V))%nat -> p_n (w_P V) k <> 0%N ->
            0 <= p_rw2 (w_P V) k /\ 0 <= p_rd3 (w_P V) k /\ (p_n (w_P V) k < 2 ^ 64)%N).
  { intros k Hk Hn. destruct (OS k Hk Hn) as (A & B & D & _). rewrite !vec_at in A, B by lia. auto. }
  assert (O6 : f_ice F = true -> forall k, (k < p_np (w_P V))%nat -> p_n (w_P V) k <> 0%N -> one_phase (ice_attr (w_P V) k)).
  { intros EI k Hk Hn. destruct (OS k Hk Hn) as (_ & _ & _ & D & _). specialize (D EI). rewrite !vec_at in D by lia. exact D. }
  assert (Hij : forall i, (i < p_np (w_P V))%nat -> p_n (w_P V) i <> 0%N ->
     (hskpng_ijk (n_dims (f_b F)) (f_ny F) (f_nz F) (f_dx F) (f_dy F) (f_dz F) (w_x V i) (w_y V i) (w_z V i) < n_cell (f_nx F) (f_ny F) (f_nz F))%nat).
  { intros k Hk Hn. destruct (OS k Hk Hn) as (_ & _ & _ & _ & D). rewrite !vec_at in D by lia. cbn [vec_of] in D.
    pose proof HR as (G1 & G2 & G3 & G4 & G5 & G6 & G7 & _). fold F in G1, G2, G3, G4, G5, G6, G7.
    apply (C10_cell_contains_position (n_dims (f_b F)) (f_nx F) (f_ny F) (f_nz F) (f_dx F) (f_dy F) (f_dz F)); auto.
    specialize (HX k Hk Hn). split; [intros _; lra|exact D]. }
  set (p := pop_of V) in *.
  assert (RI : rcyc_inputs (f_max F) p tmp sid sched) by (split; [exact O1|split; [exact Hsort|exact Hsch]]).
  assert (NZ : forall k, (k < np p')%nat -> mult p' k <> 0%N).
  { apply (proj2 (C06_no_zero_left_iff_partial _ _ _ _ _ _ _ _ _ _ _ _ RI Hc)). destruct (so_rcyc so); [|auto].
    destruct (Hd eq_refl) as [A|[A|A]]; auto. }
  destruct (origin _ _ _ _ _ _ _ _ _ _ _ _ RI Hc) as [NP OR].
  assert (V14 : (14 <= n_vec F)%nat) by (unfold n_vec; destruct (f_exact F); lia).
  assert (AT : forall k, (k < np p')%nat -> exists j, (j < p_np (w_P V))%nat /\ p_n (w_P V) j <> 0%N /\ (mult p' k <= p_n (w_P V) j)%N /\
                forall v, (v < 14)%nat -> vec p' v k = vec_of V v j).
  { intros k Hk. destruct (OR k Hk (NZ k Hk)) as (j & J1 & J2 & J3 & J4). exists j. split; [exact J1|]. split; [exact J2|]. split; [exact J3|].
    intros v Hv. rewrite <- (nth_attrs (n_vec F) p' k v) by lia. rewrite J4, nth_attrs by lia. reflexivity. }
  split; [|split; [|split; [|split]]].
  - unfold state_ok, with_pop. cbn [w_P w_E p_np p_ijk p_n p_rw2 p_rd3]. split; [pose proof (Nat.le_trans _ _ _ NP O1); assumption|].
    split; [exact O2|]. split; [exact O3|]. split; [|split].
    + intros k Hk. destruct (AT k Hk) as (j & J1 & J2 & J3 & J4). rewrite !J4 by lia. cbn [vec_of]. rewrite O2. apply (Hij j J1 J2).
    + intros k. destruct (Nat.ltb_spec k (np p')) as [Hk|Hk]; [|repeat split; try lra; reflexivity].
      destruct (AT k Hk) as (j & J1 & J2 & J3 & J4). rewrite !J4 by lia. cbn [vec_of]. destruct (O5 j J1 J2) as (A & B & D).
      split; [exact A|]. split; [exact B|]. lia.
    + intros EI k. unfold ice_attr. cbn [p_rw2 p_ia p_ic p_irho].
      destruct (Nat.ltb_spec k (np p')) as [Hk|Hk]; [|left; unfold is_liquid; repeat split; lra].
      destruct (AT k Hk) as (j & J1 & J2 & J3 & J4). rewrite !J4 by lia. cbn [vec_of]. apply (O6 EI j J1 J2).
  - intros w Hw. destruct (C05_totals_conserved gar garn (f_max F) (n_vec F) 0 (pure_const_multi (f_co F)) tmp sid sched (so_rcyc so) p
        (fun l => w (decode l)) RI) as (p2 & E & T). rewrite Hc in E. injection E as <-. unfold total in T. unfold amount.
    transitivity (sumR (np p') (fun i => N2R (mult p' i) * w (decode (attrs (n_vec F) 0 p' i)))).
    + unfold with_pop. cbn [w_P p_np p_n]. apply sumR_ext. intros i Hi. destruct (Nat.ltb_spec i (np p')); [|lia]. f_equal.
      apply Hw; unfold bsd_of, decode; cbn [w_P b_rw2 b_rd3 b_a b_c b_rho p_rw2 p_rd3 p_ia p_ic p_irho];
        rewrite nth_attrs by lia; destruct (Nat.ltb_spec i (np p')); try lia; reflexivity.
    + rewrite T. unfold p, pop_of. cbn [np mult]. apply sumR_ext. intros i Hi. f_equal.
      apply Hw; unfold bsd_of, decode; cbn [b_rw2 b_rd3 b_a b_c b_rho]; rewrite nth_attrs by lia; reflexivity.
  - reflexivity.
  - reflexivity.
  - intros i Hi. unfold with_pop in *. cbn [w_P p_np p_n] in *. destruct (Nat.ltb_spec i (np p')); [|lia]. apply NZ, Hi.
Qed.

End Rank.

(** ** totals over lists of super-droplets *)
Definition weight (w : bsd -> R) (d : ExchProps.sd) : R := N2R (fst d) * w (decode (snd d)).
Lemma nth_other (k ix : nat) g l : k <> ix -> nth k (firstn ix l ++ map g (firstn 1 (skipn ix l)) ++ skipn (S ix) l) 0 = nth k l 0.
Proof.
  revert k l. induction ix as [|ix IH]; intros k l H.
  - destruct l as [|a l]; [destruct k; reflexivity|]. destruct k; [congruence|]. reflexivity.
  - destruct l as [|a l]; [destruct k; reflexivity|]. destruct k; [reflexivity|]. cbn [firstn skipn app nth]. apply IH. congruence.
Qed.
Lemma nth_this (ix : nat) g l : (ix < length l)%nat -> nth ix (firstn ix l ++ map g (firstn 1 (skipn ix l)) ++ skipn (S ix) l) 0 = g (nth ix l 0).
Proof.
  revert l. induction ix as [|ix IH]; intros [|a l] H; cbn in H; try lia; [reflexivity|]. cbn [firstn skipn app nth]. apply IH. lia.
Qed.
Lemma other_attr k g d : k <> ix_x -> nth k (snd (with_x ix_x g d)) 0 = nth k (snd d) 0.
Proof. intros H. unfold with_x. cbn [snd]. apply nth_other. exact H. Qed.
Lemma weight_x w g d : intrinsic w -> weight w (with_x ix_x g d) = weight w d.
Proof.
  intros Hw. unfold weight. change (fst (with_x ix_x g d)) with (fst d). f_equal.
  apply Hw; unfold decode; cbn [b_rw2 b_rd3 b_a b_c b_rho]; apply other_attr; discriminate.
Qed.
Lemma sane_x F n g d : sane F n (snd (with_x ix_x g d)) = sane F n (snd d).
Proof. unfold sane. rewrite !other_attr by discriminate. reflexivity. Qed.
Lemma sum_alive w l : lsumR (map (weight w) (filter alive l)) = lsumR (map (weight w) l).
Proof.
  unfold lsumR. induction l as [|d l IH]; [reflexivity|]. cbn [filter map fold_right]. unfold alive at 1. destruct (N.eqb_spec (fst d) 0) as [E|E]; cbn [negb].
  - rewrite IH. unfold weight at 2. rewrite E. unfold N2R. cbn. lra.
  - cbn [map fold_right]. rewrite IH. reflexivity.
Qed.
Lemma sum_flat {A B} (f : B -> R) (h : A -> list B) l : lsumR (map f (flat_map h l)) = lsumR (map (fun x => lsumR (map f (h x))) l).
Proof. induction l as [|a l IH]; [reflexivity|]. cbn [flat_map map]. rewrite map_app, lsumR_app, IH. reflexivity. Qed.
Lemma sum_world w size off loc : intrinsic w ->
  lsumR (map (weight w) (ExchProps.world ix_x size off loc)) = sumR size (fun i => lsumR (map (weight w) (droplets (loc i)))).
Proof.
  intros Hw. unfold ExchProps.world. rewrite sum_flat, <- sumR_seq. apply sumR_ext. intros i _. rewrite map_map, <- (sum_alive w (droplets (loc i))).
  f_equal. apply map_ext. intros d. apply weight_x, Hw.
Qed.
Lemma vec14 F : (14 <= n_vec F)%nat.
Proof. unfold n_vec. destruct (f_exact F); lia. Qed.

(** the super-droplets of a process *)
Lemma local_drops F W : droplets (local_of F W) = map (fun k => (p_n (w_P W) k, map (fun v => vec_of W v k) (seq 0 (n_vec F)))) (seq 0 (p_np (w_P W))).
Proof.
  unfold droplets, local_of. cbn [ns cols]. rewrite map_length, seq_length. apply map_ext_in. intros k Hk. apply in_seq in Hk. f_equal.
  - rewrite nth_map_seq by lia. reflexivity.
  - rewrite map_map. apply map_ext. intros v. apply nth_map_seq. lia.
Qed.
Lemma local_amount F W w : intrinsic w -> amount w W = lsumR (map (weight w) (droplets (local_of F W))).
Proof.
  intros Hw. rewrite local_drops, map_map, <- sumR_seq. unfold amount. apply sumR_ext. intros k _. unfold weight. cbn [fst snd]. f_equal.
  pose proof (vec14 F). apply Hw; unfold bsd_of, decode; cbn [b_rw2 b_rd3 b_a b_c b_rho]; rewrite nth_map_seq by lia; reflexivity.
Qed.
Lemma drop_attr (l : local) nv k v : length (cols l) = nv -> (v < nv)%nat -> nth v (map (fun c => nth k c 0) (cols l)) 0 = nth k (nth v (cols l) []) 0.
Proof.
  intros H Hv. rewrite (nth_indep _ 0 (nth k [] 0)) by (rewrite map_length; lia).
  change (nth k [] 0) with ((fun c => nth k c 0) []). rewrite map_nth. reflexivity.
Qed.
Lemma received_amount F W l w : intrinsic w -> length (cols l) = n_vec F -> amount w (received F W l) = lsumR (map (weight w) (droplets l)).
Proof.
  intros Hw Hl. unfold droplets. rewrite map_map, <- sumR_seq. unfold amount, received, with_pop. cbn [w_P p_np p_n np mult vec].
  apply sumR_ext. intros k Hk. destruct (Nat.ltb_spec k (length (ns l))); [|lia]. unfold weight. cbn [fst snd]. f_equal.
  pose proof (vec14 F).
  apply Hw; unfold bsd_of, decode; cbn [w_P b_rw2 b_rd3 b_a b_c b_rho p_rw2 p_rd3 p_ia p_ic p_irho]; (destruct (Nat.ltb_spec k (length (ns l))); [|lia]);
    match goal with |- (if (?v <? _)%nat then _ else _) = _ => destruct (Nat.ltb_spec v (n_vec F)); [|lia]; symmetry; apply (drop_attr l (n_vec F) k v); lia end.
Qed.
Lemma received_vec F W l k v : (k < length (ns l))%nat -> (v < n_vec F)%nat -> vec_of (received F W l) v k = nth k (nth v (cols l) []) 0.
Proof.
  intros Hk Hv. assert (H : (v < 18)%nat) by (revert Hv; unfold n_vec; destruct (f_exact F); lia). apply Nat.ltb_lt in Hv. apply Nat.ltb_lt in Hk.
  unfold received, with_pop. unfold vec_of at 1. cbn [w_P w_S w_x w_y w_z w_ict np p_rd3 p_rw2 p_kpa p_vt p_ssp p_dssp p_ia p_ic p_irho p_rc2 t_rv t_th t_rh t_p vec].
  do 18 (destruct v as [|v]; [rewrite Hv, ?Hk; reflexivity|]). lia.
Qed.

Lemma ids_where_seq cond n (g : nat -> bsd) : ids_where cond (map g (seq 0 n)) = filter (fun k => cond (g k)) (seq 0 n).
Proof.
  unfold ids_where. rewrite map_length, seq_length. generalize 0%nat as m. induction n as [|n IH]; intros m; [reflexivity|].
  cbn [seq map combine filter snd fst]. destruct (cond (g m)); cbn [map fst]; rewrite IH; reflexivity.
Qed.
Lemma filter_same {A} (p : A -> bool) l : (forall x, In x l -> p x = true) -> filter p l = l.
Proof. induction l as [|a l IH]; intros H; [reflexivity|]. cbn [filter]. rewrite H by (left; reflexivity). rewrite IH; [reflexivity|]. intros x Hx. apply H. right. exact Hx. Qed.

(** ** the exchange *)
Section Cluster.
Variable C : cluster.
Hypothesis HC : cluster_ok C.
Variable t : xstates.
Let size := k_size C.
Let F i := k_F C i.
Let A i := at_added (x_s t i).
Let Wl i := walls (F i) (A i).
Let L i := local_of (F i) (Wl i).
Let c := rank_of C (x_bufs t) (fun i => ids_of (F i) (A i)).
Let nv := n_vec (F 0%nat).
Hypothesis HL : forall i, (i < size)%nat -> loose (F i) (A i).
Hypothesis HN : forall i, (i < size)%nat -> close_by (F i) (A i).

Lemma H2 : (2 <= size)%nat. Proof. apply HC. Qed.
Lemma HR i : (i < size)%nat -> rank_ok C i. Proof. apply HC. Qed.
Lemma nv_eq i : (i < size)%nat -> n_vec (F i) = nv.
Proof.
  intros Hi. destruct (HR i Hi) as (_ & _ & _ & _ & _ & _ & _ & _ & _ & _ & _ & _ & _ & _ & _ & _ & _ & _ & _ & _ & _ & _ & _ & G). unfold nv, n_vec, F. rewrite G. reflexivity.
Qed.
Lemma x_wide i : (i < size)%nat -> 0 <= x0 (f_b (F i)) < x1 (f_b (F i)).
Proof. intros Hi. apply (HR i Hi). Qed.
Lemma ends i : (i < size)%nat -> lft_open (f_b (F i)) = (i =? 0)%nat && negb (k_periodic C) /\ rgt_open (f_b (F i)) = (S i =? size)%nat && negb (k_periodic C) /\
  distmem (f_b (F i)) = true /\ n_dims (f_b (F i)) <> 0%nat.
Proof.
  intros Hi. destruct (HR i Hi) as (_ & G2 & _ & _ & _ & _ & _ & _ & _ & _ & _ & _ & _ & G14 & _ & G16 & G17 & _). auto.
Qed.
Lemma x_col i : (i < size)%nat -> nth ix_x (cols (L i)) [] = map (w_x (A i)) (seq 0 (p_np (w_P (A i)))).
Proof.
  intros Hi. unfold L, local_of. cbn [cols]. rewrite nth_map_seq by (pose proof (vec14 (F i)); unfold ix_x; lia).
  change (p_np (w_P (Wl i))) with (p_np (w_P (A i))). apply map_ext_in. intros k Hk. apply in_seq in Hk. unfold vec_of, ix_x. cbn zeta.
  destruct (walls_decent C i (HR i Hi) (A i) (HL i Hi) (HN i Hi)) as [_ Q]. apply (Q k ltac:(lia)).
Qed.
Lemma ids i : (i < size)%nat ->
  ids_of (F i) (A i) = (filter (fun k => Rltb (w_x (A i) k) (x0 (f_b (F i)))) (seq 0 (p_np (w_P (A i)))),
                        filter (fun k => Rleb (x1 (f_b (F i))) (w_x (A i) k)) (seq 0 (p_np (w_P (A i))))).
Proof.
  intros Hi. destruct (ends i Hi) as (_ & _ & D & N). unfold ids_of, bcnd. destruct (Nat.eqb_spec (n_dims (f_b (F i))) 0); [contradiction|].
  unfold bcnd_x. rewrite D. cbn [negb snd]. rewrite !ids_where_seq. reflexivity.
Qed.
Lemma edges i : (S i < size)%nat -> k_off C i + x1 (f_b (F i)) = k_off C (S i) + x0 (f_b (F (S i))).
Proof. apply HC. Qed.
Lemma neighbours i : (i < size)%nat -> (lft_rank size i < size)%nat /\ (rgt_rank size i < size)%nat.
Proof. intros Hi. unfold lft_rank, rgt_rank. destruct (Nat.ltb_spec 0 i), (Nat.ltb_spec i (size - 1)); lia. Qed.

Lemma ring : reachable C t -> buffers_ok C t -> ring_setup size ix_x nv (k_periodic C) (k_off C) c L.
Proof.
  intros HX HB. constructor.
  - pose proof H2. lia.
  - unfold nv. pose proof (vec14 (F 0%nat)). unfold ix_x. lia.
  - intros i Hi. split; [|reflexivity]. unfold aligned, L, local_of. cbn [cols ns n_part]. rewrite !map_length, !seq_length. split; [apply nv_eq, Hi|].
    split; [reflexivity|]. intros v Hv. apply in_map_iff in Hv. destruct Hv as (j & <- & _). rewrite map_length, seq_length. reflexivity.
  - intros i Hi. destruct (ends i Hi) as (E & _). unfold c, rank_of. cbn [bcL]. fold (F i). rewrite E. destruct i; destruct (k_periodic C); reflexivity.
  - intros i Hi. destruct (ends i Hi) as (_ & E & _). unfold c, rank_of. cbn [bcR]. fold (F i). rewrite E.
    destruct (Nat.eqb_spec (S i) size), (Nat.ltb_spec (S i) size); try lia; destruct (k_periodic C); reflexivity.
  - intros i Hi. unfold bcnd_lft. rewrite x_col, ids_if_seq by exact Hi. unfold c, rank_of. cbn [lft_id cx0]. rewrite ids by exact Hi. reflexivity.
  - intros i Hi. unfold bcnd_rgt. rewrite x_col, ids_if_seq by exact Hi. unfold c, rank_of. cbn [rgt_id cx1]. rewrite ids by exact Hi. reflexivity.
  - intros i Hi. unfold c, rank_of. cbn [cx0 cx1]. apply (x_wide i Hi).
  - intros i Hi. unfold c, rank_of. cbn [cx0 cx1]. apply (edges i Hi).
  - intros i Hi. reflexivity.
  - intros i Hi. reflexivity.
  - intros i Hi E. unfold c, rank_of in E |- *. cbn [bcR cap_n cap_r lft_id fst snd] in E |- *. apply negb_true_iff in E.
    destruct (proj1 (HB i Hi) E) as [Q1 Q2]. fold (F i) in Q2. rewrite nv_eq in Q2 by exact Hi. split; [exact Q1|exact Q2].
  - intros i Hi E. unfold c, rank_of in E |- *. cbn [bcL cap_n cap_r rgt_id fst snd] in E |- *. apply negb_true_iff in E.
    destruct (proj2 (HB i Hi) E) as [Q1 Q2]. fold (F i) in Q2. rewrite nv_eq in Q2 by exact Hi. split; [exact Q1|exact Q2].
  - intros i d Hi Hd Ha. unfold L in Hd. rewrite local_drops in Hd. apply in_map_iff in Hd. destruct Hd as (k & <- & Hk). apply in_seq in Hk.
    change (p_np (w_P (Wl i))) with (p_np (w_P (A i))) in Hk.
    unfold alive in Ha. cbn [fst] in Ha. apply negb_true_iff, N.eqb_neq in Ha.
    destruct (walls_decent C i (HR i Hi) (A i) (HL i Hi) (HN i Hi)) as [_ Q]. destruct (Q k ltac:(lia)) as [Q1 Q2]. destruct (Q2 Ha) as [Q3 _].
    unfold x_of. cbn [snd]. rewrite nth_map_seq by (pose proof (vec14 (F i)); unfold ix_x; lia). unfold vec_of, ix_x. cbn zeta. fold (F i) in Q1. fold (Wl i) in Q1. rewrite Q1.
    destruct (HX i Hi k ltac:(unfold A in Hk; lia) Q3) as [R1 R2]. unfold c, rank_of. cbn [bcL bcR cx0 cx1].
    split; intros E; apply negb_true_iff in E; [exact (R1 E)|exact (R2 E)].
Qed.

(** the super-droplets that are left after the boundary conditions are in the whole domain, when its ends are open *)
Lemma in_domain : reachable C t -> k_periodic C = false -> forall d, In d (ExchProps.world ix_x size (k_off C) L) ->
  Rleb (left_end c (k_off C)) (x_of ix_x d) && Rltb (x_of ix_x d) (right_end size c (k_off C)) = true.
Proof.
  intros HX HP d Hd. unfold ExchProps.world in Hd. apply in_flat_map in Hd. destruct Hd as (i & Hi & Hd). apply in_seq in Hi.
  apply in_map_iff in Hd. destruct Hd as (d0 & <- & Hd). apply filter_In in Hd. destruct Hd as [Hd Ha].
  assert (Hi' : (i < size)%nat) by lia. unfold L in Hd. rewrite local_drops in Hd. apply in_map_iff in Hd. destruct Hd as (k & <- & Hk). apply in_seq in Hk.
  change (p_np (w_P (Wl i))) with (p_np (w_P (A i))) in Hk. unfold alive in Ha. cbn [fst] in Ha. apply negb_true_iff, N.eqb_neq in Ha.
  destruct (walls_decent C i (HR i Hi') (A i) (HL i Hi') (HN i Hi')) as [_ Q]. destruct (Q k ltac:(lia)) as [Q1 Q2]. destruct (Q2 Ha) as [Q3 Q4].
  unfold x_of, with_x. cbn [snd]. pose proof (vec14 (F i)) as V14. rewrite nth_this by (rewrite map_length, seq_length; unfold ix_x; lia).
  rewrite nth_map_seq by (unfold ix_x; lia). unfold vec_of, ix_x. cbn zeta. fold (F i) in Q1. fold (Wl i) in Q1. rewrite Q1.
  destruct (HX i Hi' k ltac:(unfold A in Hk; lia) Q3) as [R1 R2]. fold (A i) in R1, R2. fold (F i) in R1, R2.
  destruct (ends i Hi') as (E1 & E2 & E3 & _). rewrite HP in E1, E2. cbn [negb] in E1, E2. rewrite andb_true_r in E1, E2.
  unfold left_sideways in Q4. fold (F i) in Q4. rewrite E3 in Q4. apply orb_false_iff in Q4. destruct Q4 as [Q4 _]. apply orb_false_iff in Q4. destruct Q4 as [S1 S2].
  cbn [bsd_of b_x] in S1, S2.
  assert (MONO : forall i j, (i <= j)%nat -> (j < size)%nat -> k_off C i + x0 (f_b (F i)) <= k_off C j + x0 (f_b (F j))).
  { intros a b Hab. induction Hab as [|b Hab IH]; intros Hb; [lra|]. specialize (IH ltac:(lia)). pose proof (edges b Hb). pose proof (x_wide b ltac:(lia)). lra. }
  assert (MONO1 : forall i j, (i <= j)%nat -> (j < size)%nat -> k_off C i + x1 (f_b (F i)) <= k_off C j + x1 (f_b (F j))).
  { intros a b Hab. induction Hab as [|b Hab IH]; intros Hb; [lra|]. specialize (IH ltac:(lia)). pose proof (edges b Hb). pose proof (x_wide (S b) Hb). lra. }
  unfold left_end, right_end, c, rank_of. cbn [cx0 cx1]. fold (F 0%nat). fold size. fold (F (size - 1)%nat).
  apply andb_true_iff. split; [apply Rleb_true|apply Rltb_true].
  - destruct i as [|i].
    + rewrite E1 in S1. cbn [Nat.eqb andb] in S1. apply Rltb_false in S1. lra.
    + rewrite E1 in R1. cbn [Nat.eqb] in R1. specialize (R1 eq_refl). fold size in R1. unfold lft_rank in R1. cbn [Nat.ltb Nat.leb] in R1.
      replace (S i - 1)%nat with i in R1 by lia. pose proof (edges i Hi'). pose proof (MONO 0%nat i ltac:(lia) ltac:(lia)). fold (F i) in R1. lra.
  - destruct (Nat.eqb_spec (S i) size) as [E|E].
    + rewrite E2 in S2. cbn [andb] in S2. apply Rleb_false in S2. replace (size - 1)%nat with i by lia. lra.
    + rewrite E2 in R2. specialize (R2 eq_refl). fold size in R2. unfold rgt_rank in R2. destruct (Nat.ltb_spec i (size - 1)); [|lia].
      replace (i + 1)%nat with (S i) in R2 by lia. fold (F (S i)) in R2. pose proof (edges i ltac:(lia)). pose proof (MONO1 (S i) (size - 1)%nat ltac:(lia) ltac:(lia)). lra.
Qed.
Lemma sane_rank i j n a : (i < size)%nat -> (j < size)%nat -> sane (F i) n a -> sane (F j) n a.
Proof.
  intros Hi Hj. destruct (HR i Hi) as (_ & _ & _ & _ & _ & _ & _ & _ & _ & _ & _ & _ & _ & _ & _ & _ & _ & A1 & A2 & A3 & A4 & A5 & A6 & _).
  destruct (HR j Hj) as (_ & _ & _ & _ & _ & _ & _ & _ & _ & _ & _ & _ & _ & _ & _ & _ & _ & B1 & B2 & B3 & B4 & B5 & B6 & _).
  unfold sane, in_yz. unfold F. rewrite A1, A2, A3, A4, A5, A6, B1, B2, B3, B4, B5, B6. auto.
Qed.
Lemma sane_fst_snd (d d' : ExchProps.sd) G g : d' = with_x ix_x g d -> sane G (fst d) (snd d) <-> sane G (fst d') (snd d').
Proof. intros ->. rewrite sane_x. reflexivity. Qed.

Definition inside (i : nat) (W : world) : Prop :=
  forall k, (k < p_np (w_P W))%nat -> p_n (w_P W) k <> 0%N -> x0 (f_b (F i)) <= w_x W k < x1 (f_b (F i)).

Lemma exch_part V : exchange C (x_adve t) (x_bufs t) A V ->
  (if x_adve t then reachable C t /\ buffers_ok C t else at_home C t) ->
  (forall i, (i < size)%nat -> decent C i (V i) /\ inside i (V i) /\ w_E (V i) = w_E (A i) /\ w_pud (V i) = w_pud (Wl i)) /\
  forall w, intrinsic w -> sumR size (fun i => amount w (V i)) = sumR size (fun i => amount w (Wl i)).
Proof.
  intros HE HX. unfold exchange in HE. cbv zeta in HE. destruct (x_adve t).
  2:{ change (forall i, (i < size)%nat -> V i = Wl i) in HE. split.
      - intros i Hi. rewrite (HE i Hi). destruct (walls_decent C i (HR i Hi) (A i) (HL i Hi) (HN i Hi)) as [D Q].
        split; [exact D|]. split; [|split; reflexivity]. intros k Hk Hn. change (p_np (w_P (Wl i))) with (p_np (w_P (A i))) in Hk.
        destruct (Q k Hk) as [Q1 Q2]. fold (F i) in Q1, Q2. fold (Wl i) in Q1, Q2. rewrite Q1. apply (HX i Hi k Hk). apply (proj1 (Q2 Hn)).
      - intros w _. apply sumR_ext. intros i Hi. rewrite (HE i Hi). reflexivity. }
  destruct HE as (g & Hrun & Hend & Hthr & HV).
  change (clos_refl_trans_1n _ (DistModel.step size ix_x c) (start (fun i => bcnd_flag (c i) (L i))) (Run g)) in Hrun.
  change (forall y, ~ DistModel.step size ix_x c (Run g) y) in Hend. change (forall i, (i < size)%nat -> threw (loc g i) = false) in Hthr.
  change (forall i, (i < size)%nat -> V i = received (F i) (Wl i) (loc g i)) in HV. destruct HX as [HX HB]. pose proof (ring HX HB) as RS.
  destruct (C16_exchange size ix_x nv (k_periodic C) (k_off C) c L RS (Run g) Hrun Hend) as (g' & Eg & PM & XR & CL & TH).
  injection Eg as <-. split.
  - intros i Hi. rewrite (HV i Hi). destruct (CL i Hi) as [CL1 CL2].
    destruct (walls_decent C i (HR i Hi) (A i) (HL i Hi) (HN i Hi)) as [(D1 & D2 & D3 & _) _]. fold (F i) in D1, D2, D3. fold (Wl i) in D1, D2, D3.
    assert (AT : forall k, (k < length (ns (loc g i)))%nat ->
       map (fun v => vec_of (received (F i) (Wl i) (loc g i)) v k) (seq 0 (n_vec (F i))) = map (fun v => nth k v 0) (cols (loc g i))).
    { intros k Hk. transitivity (map (fun v => nth k (nth v (cols (loc g i)) []) 0) (seq 0 (n_vec (F i)))).
      - apply map_ext_in. intros v Hv. apply in_seq in Hv. apply received_vec; [exact Hk|lia].
      - rewrite nv_eq by exact Hi. rewrite <- CL1. rewrite <- (map_map (fun v => nth v (cols (loc g i)) []) (fun v => nth k v 0)). rewrite map_seq_nth. reflexivity. }
    assert (IN : forall k, (k < length (ns (loc g i)))%nat ->
       In (nth k (ns (loc g i)) 0%N, map (fun v => nth k v 0) (cols (loc g i))) (droplets (loc g i))).
    { intros k Hk. unfold droplets. apply (in_map (fun k => (nth k (ns (loc g i)) 0%N, map (fun v => nth k v 0) (cols (loc g i))))). apply in_seq. lia. }
    assert (MU : forall k, (k < length (ns (loc g i)))%nat -> p_n (w_P (received (F i) (Wl i) (loc g i))) k = nth k (ns (loc g i)) 0%N).
    { intros k Hk. unfold received, with_pop. cbn [w_P p_n np mult]. destruct (Nat.ltb_spec k (length (ns (loc g i)))); [reflexivity|lia]. }
    split; [|split; [|split; reflexivity]].
    + unfold decent. change (w_E (received (F i) (Wl i) (loc g i))) with (w_E (Wl i)).
      change (p_np (w_P (received (F i) (Wl i) (loc g i)))) with (length (ns (loc g i))). fold (F i). split; [|split; [exact D2|split; [exact D3|]]].
      * destruct (Nat.le_gt_cases (length (ns (loc g i))) (f_max (F i))) as [H|H]; [exact H|exfalso].
        pose proof H2. assert (T : threw (loc g i) = true) by (apply (TH i Hi); [left; lia|exact H]). rewrite (Hthr i Hi) in T. discriminate.
      * intros k Hk Hn. rewrite MU in * by exact Hk. rewrite AT by exact Hk. specialize (IN k Hk).
        set (d := (nth k (ns (loc g i)) 0%N, map (fun v => nth k v 0) (cols (loc g i)))) in *.
        assert (AL : alive d = true) by (unfold alive; apply negb_true_iff, N.eqb_neq; exact Hn).
        assert (IW : In (with_x ix_x (Rplus (k_off C i)) d) (ExchProps.world ix_x size (k_off C) (loc g))).
        { unfold ExchProps.world. apply in_flat_map. exists i. split; [apply in_seq; lia|]. apply in_map, filter_In. auto. }
        apply (Permutation_in _ PM) in IW.
        assert (Q : exists d2 h, In d2 (ExchProps.world ix_x size (k_off C) L) /\ (with_x ix_x (Rplus (k_off C i)) d = with_x ix_x h d2 \/ with_x ix_x (Rplus (k_off C i)) d = d2)).
        { unfold through_walls in IW. destruct (k_periodic C).
          - apply in_map_iff in IW. destruct IW as (d2 & E & I2). exists d2. eexists. split; [exact I2|]. left. symmetry. exact E.
          - apply filter_In in IW. eexists. exists (fun x => x). split; [apply IW|]. right. reflexivity. }
        destruct Q as (d2 & h & I2 & Q). unfold ExchProps.world in I2. apply in_flat_map in I2. destruct I2 as (j & Hj & I2). apply in_seq in Hj.
        apply in_map_iff in I2. destruct I2 as (d3 & E3 & I3). apply filter_In in I3. destruct I3 as [I3 A3].
        assert (S3 : sane (F i) (fst d3) (snd d3)).
        { apply (sane_rank j i); [lia|exact Hi|]. unfold L in I3. rewrite local_drops in I3. apply in_map_iff in I3. destruct I3 as (k3 & <- & Hk3). apply in_seq in Hk3.
          unfold alive in A3. cbn [fst] in A3. apply negb_true_iff, N.eqb_neq in A3. cbn [fst snd].
          assert (Hj' : (j < size)%nat) by lia. destruct (walls_decent C j (HR j Hj') (A j) (HL j Hj') (HN j Hj')) as [(_ & _ & _ & DD) _].
          apply DD; [exact (proj2 Hk3)|exact A3]. }
        change (sane (F i) (fst d) (snd d)). apply (sane_fst_snd d _ (F i) (Rplus (k_off C i)) eq_refl).
        apply (sane_fst_snd d3 d2 (F i) _ (eq_sym E3)) in S3.
        destruct Q as [Q|Q]; [apply (sane_fst_snd d2 _ (F i) h Q); exact S3|rewrite Q; exact S3].
    + intros k Hk Hn. change (p_np (w_P (received (F i) (Wl i) (loc g i)))) with (length (ns (loc g i))) in Hk. rewrite MU in Hn by exact Hk.
      pose proof (XR i _ Hi (IN k Hk) ltac:(unfold alive; apply negb_true_iff, N.eqb_neq; exact Hn)) as Q.
      unfold c, rank_of in Q. cbn [cx0 cx1] in Q. fold (F i) in Q. unfold x_of in Q. cbn [snd] in Q.
      assert (V14 : (ix_x < n_vec (F i))%nat) by (pose proof (vec14 (F i)); unfold ix_x; lia).
      change (w_x (received (F i) (Wl i) (loc g i))) with (vec_of (received (F i) (Wl i) (loc g i)) ix_x). rewrite received_vec by assumption.
      rewrite <- (drop_attr (loc g i) (n_vec (F i)) k ix_x (eq_trans CL1 (eq_sym (nv_eq i Hi))) V14). exact Q.
  - intros w Hw. transitivity (sumR size (fun i => lsumR (map (weight w) (droplets (loc g i))))).
    { apply sumR_ext. intros i Hi. rewrite (HV i Hi). apply received_amount; [exact Hw|]. rewrite nv_eq by exact Hi. apply (CL i Hi). }
    transitivity (sumR size (fun i => lsumR (map (weight w) (droplets (L i))))).
    2:{ apply sumR_ext. intros i Hi. symmetry. apply local_amount. exact Hw. }
    rewrite <- (sum_world w size (k_off C) (loc g)) by exact Hw. rewrite <- (sum_world w size (k_off C) L) by exact Hw.
    rewrite (lsumR_perm _ _ (Permutation_map (weight w) PM)). unfold through_walls. destruct (k_periodic C) eqn:EP.
    + rewrite map_map. f_equal. apply map_ext. intros d. apply weight_x, Hw.
    + rewrite filter_same; [reflexivity|]. apply in_domain; assumption.
Qed.
End Cluster.

(** ** a step *)
Lemma first_budget G so s : setup_ok G -> first_part G so s ->
  o_parcel (so_c so) = f_parcel G -> o_ice (so_c so) = f_ice G -> o_exact (so_c so) = f_exact G -> (1 <= o_sstp (so_c so))%nat ->
  (f_ice G = true -> so_coal so = false) -> accurate so (at_synced s) -> state_ok G (at_start s) ->
  loose G (at_added s) /\ close_by G (at_added s) /\
  vapour G (at_added s) + amount (water G) (at_added s) = vapour G (at_start s) + amount (water G) (at_start s) + from_host G s + added (water G) s /\
  amount dry (at_added s) = amount dry (at_start s) + added dry s /\
  amount one (at_added s) <= amount one (at_start s) + added one s /\
  (so_coal so = false -> amount one (at_added s) = amount one (at_start s) + added one s) /\
  w_pud (at_added s) = w_pud (at_start s).
Proof.
  intros HG (W2 & W3 & W4 & W5 & H1 & H2 & H3 & H4 & H5 & H6 & H7) K1 K2 K3 K4 K5 K6 HW.
  destruct (sync_part G so _ _ H1 HW) as (A1 & A2 & A3 & A4 & A5 & A6 & A7).
  destruct (nucl_part G so _ _ H2 K1 K2 A1) as ((B1 & B2 & B3 & B4) & B5 & B6 & B7 & B8 & B9).
  assert (AC : accurate so W2).
  { intros Hc. destruct (K6 Hc) as [Q|[Q|(Q1 & Q2 & Q3 & Q4)]]; [left; exact Q|right; left; exact Q|right; right].
    split; [exact Q1|]. split; [exact Q2|]. split; [exact Q3|]. intros i Hi. rewrite B7, B8, B9. apply Q4. rewrite <- B6. exact Hi. }
  destruct (cond_step G HG so _ _ H3 K1 K2 K3 K4 AC B1) as ((C1 & C2 & C3 & C4) & C5).
  destruct (prepare_part G so _ _ H4 K1 C1) as ((D1 & D2 & D3 & D4) & D5 & _).
  destruct (coalescence_part G so _ _ H5 K5 D1) as ((E1 & E2 & E3 & E4) & E5 & E6). unfold shrinks in E5.
  destruct (motion_part G _ _ H6 E1) as (G1 & G2 & G3 & G4 & G5).
  destruct (sources_part G s H7 G1 G2) as (I1 & I2 & I3 & I4 & I5).
  pose proof (G3 _ (water_intrinsic G)) as Gw. pose proof (G3 _ dry_intrinsic) as Gd. pose proof (G3 _ one_intrinsic) as Go.
  pose proof (I3 _ (water_intrinsic G)) as Iw. pose proof (I3 _ dry_intrinsic) as Id. pose proof (I3 _ one_intrinsic) as Io.
  split; [exact I1|]. split; [exact I2|]. unfold from_host. split; [lra|]. split; [lra|]. split; [lra|]. split; [|congruence].
  intros Hc. rewrite (E6 Hc) in *. lra.
Qed.

Lemma passes_alone G k : forall W W', coal_passes G k W W' -> coal_passes (alone G) k W W'.
Proof. induction k as [|k IH]; intros W W' H; cbn in H |- *; [exact H|]. destruct H as (V & H1 & H2). exists V. split; [exact H1|apply IH, H2]. Qed.
Lemma first_alone G so s : first_part G so s -> first_part (alone G) so s.
Proof.
  intros (W2 & W3 & W4 & W5 & H1 & H2 & H3 & H4 & H5 & H6 & H7). exists W2, W3, W4, W5. split; [exact H1|]. split; [exact H2|]. split; [exact H3|].
  split; [exact H4|]. split; [|split; [exact H6|exact H7]]. unfold coalescence in *. destruct (so_coal so); [|exact H5].
  destruct H5 as (V & rc2 & H5 & E). exists V, rc2. split; [apply passes_alone, H5|exact E].
Qed.
Definition stock (F : setup) (W : world) : R := vapour F W + amount (water F) W + puddle_water W.
Definition aerosol (F : setup) (W : world) : R := amount dry W + p_dry_vol (w_pud W).
Definition count (F : setup) (W : world) : R := amount one W + p_prt_num (w_pud W).
Definition no_collisions (C : cluster) (t : xstates) : Prop := forall i, (i < k_size C)%nat -> so_coal (x_so t i) = false.

Lemma sum_split n a b e : sumR n b = sumR n e -> sumR n (fun i => a i + (b i + (-1) * e i)) = sumR n a.
Proof. intros H. rewrite sumR_plus, sumR_plus, sumR_scal. lra. Qed.
Lemma sum_le_le n f g : (forall i, (i < n)%nat -> f i <= g i) -> sumR n f <= sumR n g.
Proof. intros H. apply sumR_le. exact H. Qed.

Lemma mpi_step C t : cluster_ok C -> xstep C t -> xstep_ok C t -> states_ok C (fun i => at_start (x_s t i)) ->
  let S f := sumR (k_size C) (fun i => f (k_F C i) (x_s t i)) in
  let B f := all C f (fun i => at_start (x_s t i)) in let E f := all C f (fun i => at_end (x_s t i)) in
  states_ok C (fun i => at_end (x_s t i)) /\
  E stock + S (fun F => escaped F (water F)) = B stock + S from_host + S (fun F => added (water F)) /\
  E aerosol + S (fun F => escaped F dry) = B aerosol + S (fun _ => added dry) /\
  E count + S (fun F => escaped F one) <= B count + S (fun _ => added one) /\
  (no_collisions C t -> E count + S (fun F => escaped F one) = B count + S (fun _ => added one)) /\
  forall i, (i < k_size C)%nat -> forall k, (k < p_np (w_P (at_end (x_s t i))))%nat -> p_n (w_P (at_end (x_s t i))) k <> 0%N.
Proof.
  intros HC (X1 & X2 & X3) (O1 & O2) HW. cbv zeta. set (size := k_size C) in *.
  set (A i := at_added (x_s t i)) in *. set (V := x_recv t) in *.
  assert (FB : forall i, (i < size)%nat -> let F := k_F C i in let s := x_s t i in
    loose F (at_added s) /\ close_by F (at_added s) /\
    vapour F (at_added s) + amount (water F) (at_added s) = vapour F (at_start s) + amount (water F) (at_start s) + from_host F s + added (water F) s /\
    amount dry (at_added s) = amount dry (at_start s) + added dry s /\
    amount one (at_added s) <= amount one (at_start s) + added one s /\
    (so_coal (x_so t i) = false -> amount one (at_added s) = amount one (at_start s) + added one s) /\
    w_pud (at_added s) = w_pud (at_start s)).
  { intros i Hi. cbv zeta. destruct (O1 i Hi) as (K1 & K2 & K3 & K4 & K5 & K6 & _).
    exact (first_budget (alone (k_F C i)) (x_so t i) (x_s t i) (alone_ok C i (proj1 (proj2 HC) i Hi)) (first_alone _ _ _ (X1 i Hi)) K1 K2 K3 K4 K5 K6 (HW i Hi)). }
  assert (HL : forall i, (i < size)%nat -> loose (k_F C i) (A i)) by (intros i Hi; apply (FB i Hi)).
  assert (HN : forall i, (i < size)%nat -> close_by (k_F C i) (A i)) by (intros i Hi; apply (FB i Hi)).
  destruct (exch_part C HC t HL HN V X2 O2) as (EX & SUM). fold size in EX, SUM.
  assert (WP : forall i, (i < size)%nat -> let W := A i in let V := walls (k_F C i) W in let F := k_F C i in
    vapour F V = vapour F W /\ (forall w, intrinsic w -> amount w V + fallen F w W + escaped F w (x_s t i) = amount w W) /\
    puddle_water V = puddle_water W + fallen F (water F) W /\ p_dry_vol (w_pud V) = p_dry_vol (w_pud W) + fallen F dry W /\
    p_prt_num (w_pud V) = p_prt_num (w_pud W) + fallen F one W).
  { intros i Hi. exact (proj2 (walls_mpi C i (proj1 (proj2 HC) i Hi) (x_s t i) (HL i Hi))). }
  assert (TD : forall i, (i < size)%nat -> let F := k_F C i in let W' := at_end (x_s t i) in
    state_ok F W' /\ (forall w, intrinsic w -> amount w W' = amount w (V i)) /\ vapour F W' = vapour F (V i) /\ w_pud W' = w_pud (V i) /\
    forall k, (k < p_np (w_P W'))%nat -> p_n (w_P W') k <> 0%N).
  { intros i Hi. destruct (EX i Hi) as (E1 & E2 & _). apply (tidy_mpi C i (proj1 (proj2 HC) i Hi) (x_so t i) (V i) _ (X3 i Hi) E1); [|exact E2].
    apply (O1 i Hi). }
  assert (VAP : forall i, (i < size)%nat -> vapour (k_F C i) (V i) = vapour (k_F C i) (A i)).
  { intros i Hi. destruct (EX i Hi) as (_ & _ & E & _). unfold vapour. rewrite E. reflexivity. }
  assert (PUD : forall i, (i < size)%nat -> w_pud (at_end (x_s t i)) = w_pud (walls (k_F C i) (A i))).
  { intros i Hi. destruct (EX i Hi) as (_ & _ & _ & E). destruct (TD i Hi) as (_ & _ & _ & T & _). rewrite T. exact E. }
  (* the sums over the processes *)
  assert (WAT : forall i, (i < size)%nat -> forall w, w = water (k_F C i) -> w = water (k_F C 0%nat)).
  { intros i Hi w ->. unfold water. destruct (proj1 (proj2 HC) i Hi) as (_ & _ & _ & _ & _ & _ & _ & _ & _ & _ & _ & _ & _ & _ & _ & _ & _ & _ & _ & _ & _ & _ & A6 & _).
    rewrite A6. reflexivity. }
  pose proof (SUM (water (k_F C 0%nat)) (water_intrinsic _)) as SW. pose proof (SUM dry dry_intrinsic) as SD. pose proof (SUM one one_intrinsic) as SO.
  split; [intros i Hi; apply (TD i Hi)|]. split; [|split; [|split; [|split]]].
  - unfold all. fold size. rewrite <- !sumR_plus.
    assert (Q : forall i, (i < size)%nat -> stock (k_F C i) (at_end (x_s t i)) + escaped (k_F C i) (water (k_F C i)) (x_s t i) =
       (stock (k_F C i) (at_start (x_s t i)) + from_host (k_F C i) (x_s t i) + added (water (k_F C i)) (x_s t i)) +
       (amount (water (k_F C 0%nat)) (V i) + (-1) * amount (water (k_F C 0%nat)) (walls (k_F C i) (A i)))).
    { intros i Hi. rewrite <- (WAT i Hi _ eq_refl). destruct (FB i Hi) as (_ & _ & F3 & _ & _ & _ & F7). destruct (WP i Hi) as (W1 & W2 & W3 & _).
      destruct (TD i Hi) as (_ & T2 & T3 & _). pose proof (T2 _ (water_intrinsic (k_F C i))) as T2w. pose proof (W2 _ (water_intrinsic (k_F C i))) as W2w.
      pose proof (VAP i Hi) as VA. assert (P1 : puddle_water (at_end (x_s t i)) = puddle_water (walls (k_F C i) (A i))) by (unfold puddle_water; rewrite (PUD i Hi); reflexivity).
      assert (P2 : puddle_water (A i) = puddle_water (at_start (x_s t i))) by (unfold puddle_water, A; rewrite F7; reflexivity).
      unfold stock. unfold A in *. lra. }
    rewrite (sumR_ext size _ _ Q). apply (sum_split size _). exact SW.
  - unfold all. fold size. rewrite <- !sumR_plus.
    assert (Q : forall i, (i < size)%nat -> aerosol (k_F C i) (at_end (x_s t i)) + escaped (k_F C i) dry (x_s t i) =
       (aerosol (k_F C i) (at_start (x_s t i)) + added dry (x_s t i)) + (amount dry (V i) + (-1) * amount dry (walls (k_F C i) (A i)))).
    { intros i Hi. destruct (FB i Hi) as (_ & _ & _ & F4 & _ & _ & F7). destruct (WP i Hi) as (_ & W2 & _ & W4 & _).
      destruct (TD i Hi) as (_ & T2 & _). pose proof (T2 _ dry_intrinsic) as T2w. pose proof (W2 _ dry_intrinsic) as W2w.
      unfold aerosol. rewrite (PUD i Hi). unfold A in *. rewrite F7 in W4. lra. }
    rewrite (sumR_ext size _ _ Q). apply (sum_split size _). exact SD.
  - unfold all. fold size. rewrite <- !sumR_plus.
    apply Rle_trans with (sumR size (fun i => (count (k_F C i) (at_start (x_s t i)) + added one (x_s t i)) + (amount one (V i) + (-1) * amount one (walls (k_F C i) (A i))))).
    + apply sum_le_le. intros i Hi. destruct (FB i Hi) as (_ & _ & _ & _ & F5 & _ & F7). destruct (WP i Hi) as (_ & W2 & _ & _ & W5).
      destruct (TD i Hi) as (_ & T2 & _). pose proof (T2 _ one_intrinsic) as T2w. pose proof (W2 _ one_intrinsic) as W2w.
      unfold count. rewrite (PUD i Hi). unfold A in *. rewrite F7 in W5. lra.
    + apply Req_le. apply (sum_split size _). exact SO.
  - intros HC0. unfold all. fold size. rewrite <- !sumR_plus.
    assert (Q : forall i, (i < size)%nat -> count (k_F C i) (at_end (x_s t i)) + escaped (k_F C i) one (x_s t i) =
       (count (k_F C i) (at_start (x_s t i)) + added one (x_s t i)) + (amount one (V i) + (-1) * amount one (walls (k_F C i) (A i)))).
    { intros i Hi. destruct (FB i Hi) as (_ & _ & _ & _ & _ & F6 & F7). specialize (F6 (HC0 i Hi)). destruct (WP i Hi) as (_ & W2 & _ & _ & W5).
      destruct (TD i Hi) as (_ & T2 & _). pose proof (T2 _ one_intrinsic) as T2w. pose proof (W2 _ one_intrinsic) as W2w.
      unfold count. rewrite (PUD i Hi). unfold A in *. rewrite F7 in W5. lra. }
    rewrite (sumR_ext size _ _ Q). apply (sum_split size _). exact SO.
  - intros i Hi. apply (TD i Hi).
Qed.

(** ** C95 *)
Lemma mpi_run C : cluster_ok C -> forall W l W', xrun C W l W' -> states_ok C W -> Forall (xstep_ok C) l ->
  states_ok C W' /\
  all C stock W' + xover C (fun F => escaped F (water F)) l = all C stock W + xover C from_host l + xover C (fun F => added (water F)) l /\
  all C aerosol W' + xover C (fun F => escaped F dry) l = all C aerosol W + xover C (fun _ => added dry) l /\
  all C count W' + xover C (fun F => escaped F one) l <= all C count W + xover C (fun _ => added one) l /\
  (Forall (no_collisions C) l -> all C count W' + xover C (fun F => escaped F one) l = all C count W + xover C (fun _ => added one) l) /\
  (l <> [] -> forall i, (i < k_size C)%nat -> forall k, (k < p_np (w_P (W' i)))%nat -> p_n (w_P (W' i)) k <> 0%N).
Proof.
  intros HC W l W' H. induction H as [W|t l W' Hs Hr IH]; intros HW HO.
  - unfold xover. cbn [map lsumR fold_right]. split; [exact HW|]. split; [lra|]. split; [lra|]. split; [lra|]. split; [intros; lra|congruence].
  - inversion HO as [|? ? HO1 HO2]; subst.
    destruct (mpi_step C t HC Hs HO1 HW) as (A1 & A2 & A3 & A4 & A5 & A6).
    destruct (IH A1 HO2) as (B1 & B2 & B3 & B4 & B5 & B6).
    assert (OV : forall f, xover C f (t :: l) = sumR (k_size C) (fun i => f (k_F C i) (x_s t i)) + xover C f l) by (intros f; reflexivity). rewrite !OV.
    split; [exact B1|]. split; [lra|]. split; [lra|]. split; [lra|]. split.
    + intros HC0. inversion HC0 as [|? ? HC1 HC2]; subst. specialize (A5 HC1). specialize (B5 HC2). lra.
    + intros _. destruct l as [|t2 l]; [inversion Hr; subst; exact A6|]. apply B6. discriminate.
Qed.

(** C95, water: over any run of any number of processes the water in the whole domain (vapour, liquid, ice) and on the ground changes
    exactly by what the host model did to the vapour field, what sources brought and what left through open side walls and the top:
    the exchange neither loses nor creates any *)
Theorem C95_water C W l W' : cluster_ok C -> xrun C W l W' -> states_ok C W -> Forall (xstep_ok C) l ->
  all C stock W' + xover C (fun F => escaped F (water F)) l = all C stock W + xover C from_host l + xover C (fun F => added (water F)) l.
Proof. intros HC H HW HO. apply (mpi_run C HC W l W' H HW HO). Qed.
(** C95, aerosol: the same for the volume of dry aerosol *)
Theorem C95_dry_aerosol C W l W' : cluster_ok C -> xrun C W l W' -> states_ok C W -> Forall (xstep_ok C) l ->
  all C aerosol W' + xover C (fun F => escaped F dry) l = all C aerosol W + xover C (fun _ => added dry) l.
Proof. intros HC H HW HO. apply (mpi_run C HC W l W' H HW HO). Qed.
(** C95, number: only collisions reduce the number of particles *)
Theorem C95_number C W l W' : cluster_ok C -> xrun C W l W' -> states_ok C W -> Forall (xstep_ok C) l ->
  all C count W' + xover C (fun F => escaped F one) l <= all C count W + xover C (fun _ => added one) l /\
  (Forall (no_collisions C) l -> all C count W' + xover C (fun F => escaped F one) l = all C count W + xover C (fun _ => added one) l).
Proof. intros HC H HW HO. pose proof (mpi_run C HC W l W' H HW HO) as Q. split; apply Q. Qed.
(** C95, state: after any run every super-droplet is in a cell of the process that holds it, no process holds more than n_sd_max of them,
    sizes are not negative, and after at least one step every super-droplet has droplets *)
Theorem C95_state C W l W' : cluster_ok C -> xrun C W l W' -> states_ok C W -> Forall (xstep_ok C) l ->
  states_ok C W' /\ (l <> [] -> forall i, (i < k_size C)%nat -> forall k, (k < p_np (w_P (W' i)))%nat -> p_n (w_P (W' i)) k <> 0%N).
Proof. intros HC H HW HO. pose proof (mpi_run C HC W l W' H HW HO) as Q. split; apply Q. Qed.

(** ** an instance: two processes with one cell each in a domain with periodic side walls; one super-droplet of each leaves through the outer
    wall and arrives at the other one, and one falls out *)
Lemma some_end size ix c x : (1 <= size)%nat -> exists y, clos_refl_trans_1n _ (DistModel.step size ix c) x y /\ forall z, ~ DistModel.step size ix c y z.
Proof.
  intros Hs. induction (C16_every_run_ends size ix c x Hs) as [x _ IH].
  destruct (Classical_Prop.classic (exists y, DistModel.step size ix c x y)) as [[y Hy]|N].
  - destruct (IH y Hy) as (z & H1 & H2). exists z. split; [|exact H2]. eapply Relation_Operators.rt1n_trans; [exact Hy|exact H1].
  - exists x. split; [apply Relation_Operators.rt1n_refl|]. intros z Hz. apply N. exists z. exact Hz.
Qed.
Fixpoint put (a : nat * nat) (l : list (nat * nat)) : list (nat * nat) :=
  match l with [] => [a] | b :: l' => if (fst a <=? fst b)%nat then a :: l else b :: put a l' end.
Lemma put_perm a l : Permutation (a :: l) (put a l).
Proof. induction l as [|b l IH]; cbn; [reflexivity|]. destruct (_ <=? _)%nat; [reflexivity|]. rewrite perm_swap. constructor. exact IH. Qed.
Lemma put_sorted a l : Sorted le (map fst l) -> Sorted le (map fst (put a l)).
Proof.
  induction l as [|b l IH]; intros H; cbn [put]; [repeat constructor|]. destruct (Nat.leb_spec (fst a) (fst b)) as [L|L].
  - cbn [map] in *. constructor; [exact H|]. constructor. exact L.
  - cbn [map] in *. inversion H as [|? ? H1 H2]; subst. constructor; [apply IH, H1|]. destruct l as [|d l]; cbn [put map].
    + constructor. lia.
    + cbn [map] in H2. inversion H2; subst. destruct (_ <=? _)%nat; cbn [map]; constructor; lia.
Qed.
Lemma sort_exists keys vals : length keys = length vals -> exists tmp sid, @sort_by_key_result nat keys vals tmp sid.
Proof.
  intros H. assert (Q : exists l, Permutation (combine keys vals) l /\ Sorted le (map fst l)).
  { generalize (combine keys vals) as l. induction l as [|a l (m & P1 & P2)]; [exists []; split; constructor|]. exists (put a m). split.
    - rewrite P1. apply put_perm.
    - apply put_sorted, P2. }
  destruct Q as (l & P1 & P2). exists (map fst l), (map snd l). split; [exact H|]. split; [rewrite !map_length; reflexivity|]. split; [|exact P2].
  replace (combine (map fst l) (map snd l)) with l; [exact P1|]. clear. induction l as [|[a b] l IH]; cbn; congruence.
Qed.

Definition mx_b : bopts := mk_bopts 2 0 1 0 1 0 1 false false true false false false false.
Definition mx_F : setup := mk_setup mx_b 1 0 1 1 1 1 false false (CoalModel.mk_copts false 1 0 1 false false false) 10.
Definition mx_C : cluster := mk_cluster 2 (fun _ => mx_F) INR true.
Definition mx_so : sopts :=
  mk_sopts (inst_pc 1) true {| i_time_dep := false; i_T_freeze := fun _ => 0; i_rd2_insol := fun _ => 0; i_u01 := fun _ => 0 |}
    false false false 1 false.
Definition mx_n (k : nat) : N := if (k =? 0)%nat then 4%N else 3%N.
Definition mx_W (i : nat) : world :=
  mk_world (mk_parts (if (i =? 0)%nat then 2%nat else 1%nat) (fun _ => 0%nat) mx_n (fun _ => 1) (fun _ => 1) (fun _ => 1) (fun _ => 0)
              (fun _ => 0) (fun _ => 0) (fun _ => 0) (fun _ => 0) (fun _ => 0) (fun _ => 1))
    (mk_cells 1 (fun _ => 1 / 100) (fun _ => 300) (fun _ => 1) (fun _ => 100000) (fun _ => 300) (fun _ => 1) (fun _ => 1) (fun _ => 1) (fun _ => 1))
    (mk_tmps (fun _ => 1 / 100) (fun _ => 300) (fun _ => 1) (fun _ => 100000)) (fun _ => 1 / 2) (fun _ => 0) (fun _ => 1 / 2) (fun _ => 0)
    (mk_puddle 0 0 0 0 0 0 (fun _ => 0)).
Definition mx_x (i k : nat) : R := if (i =? 0)%nat then (if (k =? 0)%nat then - (1 / 2) else 1 / 2) else 3 / 2.
Definition mx_z (i k : nat) : R := if (i =? 0)%nat && (k =? 1)%nat then - (1) else 1 / 2.
Definition mx_4 (i : nat) : world := with_P (with_E (mx_W i) (hskpng_Tpr (so_c mx_so) (w_E (mx_W i)))) (set_vt (w_P (mx_W i)) (fun _ => 0)).
Definition mx_A (i : nat) : world := with_pos (with_P (mx_4 i) (set_turb (w_P (mx_4 i)) (fun _ => 0) (fun _ => 0))) (mx_x i) (fun _ => 0) (mx_z i).
Definition mx_t (e : nat -> world) (r : nat -> world) : xstates :=
  mk_xs (fun _ => mx_so) true (fun _ => (10, 200)%nat) (fun i => mk_ss (mx_W i) (mx_W i) (mx_A i) (mx_A i) (e i)) r.
Lemma mx_cluster : cluster_ok mx_C.
Proof.
  split; [cbn; lia|]. split.
  - intros i Hi. cbn [mx_C k_size] in Hi. unfold rank_ok, grid_dims. cbn [mx_C k_F k_size k_periodic mx_F f_b mx_b n_dims f_nx f_ny f_nz f_dx f_dy f_dz
      x0 x1 y0 y1 z0 z1 ice_on f_ice f_exact distmem open_side_walls lft_open rgt_open negb]. rewrite !andb_false_r.
    repeat split; try lra; try lia; try discriminate; try reflexivity; cbn; try (left; lra); try lra.
  - intros i Hi. cbn [mx_C k_off k_F mx_F f_b mx_b x0 x1]. rewrite S_INR. lra.
Qed.
Lemma mx_state : states_ok mx_C mx_W.
Proof.
  intros i Hi. unfold state_ok, mx_W, n_cell, m1. cbn [mx_C k_F mx_F w_P w_E p_np e_nc e_rhod e_dv p_ijk p_rw2 p_rd3 p_n f_max f_ice f_nx f_ny f_nz].
  split; [destruct (i =? 0)%nat; lia|]. split; [reflexivity|]. split; [intros; lra|]. split; [intros; lia|]. split; [|discriminate].
  intros k. split; [lra|]. split; [lra|]. unfold mx_n. destruct (k =? 0)%nat; reflexivity.
Qed.
Lemma mx_near i k : near mx_F (mx_x i k) 0 (mx_z i k).
Proof.
  unfold near, mx_F, mx_b, mx_x, mx_z. cbn [f_b x0 x1 y0 y1 z0 z1]. destruct (i =? 0)%nat, (k =? 0)%nat, (k =? 1)%nat; cbn [andb]; lra.
Qed.
Lemma mx_first i e : first_part mx_F mx_so (mk_ss (mx_W i) (mx_W i) (mx_A i) (mx_A i) e).
Proof.
  exists (mx_W i), (mx_W i), (mx_4 i), (mx_4 i). cbn [at_start at_synced at_moved at_added]. split; [|split; [|split; [|split; [|split; [|split]]]]].
  - exists (fun _ => 1 / 100), (fun _ => 300), (fun _ => 1). split; [reflexivity|]. split; [intros; lra|]. reflexivity.
  - reflexivity.
  - reflexivity.
  - exists (fun _ => 0). reflexivity.
  - reflexivity.
  - exists (fun _ => 0), (fun _ => 0), (mx_x i), (fun _ => 0), (mx_z i). split; [|reflexivity]. intros k _. apply mx_near.
  - unfold sources. cbv zeta. split; [split; [lia|]|].
    + unfold mx_A, mx_4, mx_W. cbn. destruct (i =? 0)%nat; lia.
    + split; [reflexivity|]. split; [reflexivity|]. split; [|split; [|reflexivity]]; intros k Hk.
      * split; [|repeat split; reflexivity]. split; [lia|]. change (p_n (w_P (mx_A i)) k) with (mx_n k). unfold mx_n. destruct (k =? 0)%nat; reflexivity.
      * split; [change (p_n (w_P (mx_A i)) k) with (mx_n k); unfold mx_n; destruct (k =? 0)%nat; reflexivity|].
        change (p_rw2 (w_P (mx_A i)) k) with 1. change (p_rd3 (w_P (mx_A i)) k) with 1. split; [lra|]. split; [lra|].
        split; [reflexivity|]. split; [reflexivity|]. split; [reflexivity|]. apply mx_near.
Qed.
Lemma mx_loose i : (i < 2)%nat -> loose mx_F (mx_A i) /\ close_by mx_F (mx_A i).
Proof.
  intros Hi. set (e := mx_W i).
  assert (AC : accurate mx_so (at_synced (mk_ss (mx_W i) (mx_W i) (mx_A i) (mx_A i) e))) by (intros E; discriminate E).
  destruct (first_budget (alone mx_F) mx_so _ (alone_ok mx_C i (proj1 (proj2 mx_cluster) i Hi)) (first_alone _ _ _ (mx_first i e))
    eq_refl eq_refl eq_refl ltac:(cbn; lia) ltac:(discriminate) AC (mx_state i Hi)) as (Q1 & Q2 & _).
  split; [exact Q1|exact Q2].
Qed.
Lemma mx_reach (e r : nat -> world) : reachable mx_C (mx_t e r).
Proof.
  intros i Hi. cbv zeta. intros k Hk _. cbn [mx_C k_F mx_F f_b mx_b x0 x1 lft_open rgt_open mx_t x_s at_added].
  change (w_x (mx_A i) k) with (mx_x i k). unfold mx_x. destruct (i =? 0)%nat, (k =? 0)%nat; split; intros _; lra.
Qed.
Lemma filter_short {X} (p : X -> bool) l : (length (filter p l) <= length l)%nat.
Proof. induction l as [|a l IH]; cbn; [lia|]. destruct (p a); cbn; lia. Qed.
Lemma mx_ids i (e r : nat -> world) : (i < 2)%nat -> ids_of (k_F mx_C i) (at_added (x_s (mx_t e r) i)) =
  (filter (fun k => Rltb (mx_x i k) 0) (seq 0 (p_np (w_P (mx_A i)))), filter (fun k => Rleb 1 (mx_x i k)) (seq 0 (p_np (w_P (mx_A i))))).
Proof. intros Hi. exact (ids mx_C mx_cluster (mx_t e r) i Hi). Qed.
Lemma mx_np i : (p_np (w_P (mx_A i)) <= 2)%nat.
Proof. unfold mx_A, mx_4, mx_W. cbn. destruct (i =? 0)%nat; lia. Qed.
Lemma mx_short i (e r : nat -> world) : (i < 2)%nat -> (length (fst (ids_of (k_F mx_C i) (at_added (x_s (mx_t e r) i)))) <= 2)%nat /\
  (length (snd (ids_of (k_F mx_C i) (at_added (x_s (mx_t e r) i)))) <= 2)%nat.
Proof.
  intros Hi. rewrite mx_ids by exact Hi. cbn [fst snd]. pose proof (mx_np i).
  split; (eapply Nat.le_trans; [apply filter_short|rewrite seq_length; exact H]).
Qed.
Lemma mx_buffers (e r : nat -> world) : buffers_ok mx_C (mx_t e r).
Proof.
  intros i Hi. cbv zeta. destruct (neighbours mx_C i Hi) as [N1 N2]. cbn [mx_C k_size] in N1, N2.
  change (n_vec (k_F mx_C i)) with 14%nat. cbn [mx_t x_bufs fst snd].
  change (k_size mx_C) with 2%nat.
  split; intros _; split;
    [pose proof (proj1 (mx_short _ e r N2))|pose proof (proj1 (mx_short _ e r N2))|pose proof (proj2 (mx_short _ e r N1))|pose proof (proj2 (mx_short _ e r N1))];
    cbn [mx_t] in *; lia.
Qed.
Lemma mx_exchange (e r : nat -> world) : exists g : sys,
  let Wl i := walls mx_F (mx_A i) in
  exchange mx_C true (fun _ => (10, 200)%nat) mx_A (fun i => received mx_F (Wl i) (loc g i)).
Proof.
  pose proof (fun i Hi => proj1 (mx_loose i Hi)) as HL. pose proof (fun i Hi => proj2 (mx_loose i Hi)) as HN.
  pose proof (ring mx_C mx_cluster (mx_t e r) HL HN (mx_reach e r) (mx_buffers e r)) as RS.
  set (c := rank_of mx_C (x_bufs (mx_t e r)) _) in RS. set (L := fun i : nat => local_of _ _) in RS.
  destruct (some_end (k_size mx_C) ix_x c (start (fun i => bcnd_flag (c i) (L i))) ltac:(cbn; lia)) as (y & H1 & H2).
  destruct (the_end _ _ _ _ _ _ _ RS y H1 H2) as (g & -> & E). exists g. cbv zeta. unfold exchange. cbv zeta. exists g.
  split; [exact H1|]. split; [exact H2|]. split; [|intros; reflexivity].
  intros i Hi. destruct (E i Hi) as (_ & _ & ->). apply andb_false_iff. right. apply Nat.ltb_ge. change (n_sd_max (c i)) with 10%nat.
  destruct (neighbours mx_C i Hi) as [N1 N2]. cbn [mx_C k_size] in N1, N2.
  pose proof (proj1 (mx_short _ e r N2)) as S1. pose proof (proj2 (mx_short _ e r N1)) as S2. pose proof (mx_np i) as S3.
  unfold PB, PA, inA, inB. change (bcR (c i)) with true. change (bcL (c i)) with true. cbv iota.
  change (k_size mx_C) with 2%nat in *.
  change (lft_id (c (rgt_rank 2 i))) with (fst (ids_of (k_F mx_C (rgt_rank 2 i)) (at_added (x_s (mx_t e r) (rgt_rank 2 i))))).
  change (rgt_id (c (lft_rank 2 i))) with (snd (ids_of (k_F mx_C (lft_rank 2 i)) (at_added (x_s (mx_t e r) (lft_rank 2 i))))).
  assert (S4 : length (ns (L i)) = p_np (w_P (mx_A i))) by (unfold L, local_of; cbn [ns]; rewrite map_length, seq_length; reflexivity).
  rewrite S4. lia.
Qed.
Lemma mx_run : exists W' V, let t := mx_t W' V in
  xrun mx_C mx_W [t] W' /\ Forall (xstep_ok mx_C) [t] /\ x_adve t = true /\
  fst (ids_of (k_F mx_C 0%nat) (at_added (x_s t 0%nat))) = [0%nat] /\ snd (ids_of (k_F mx_C 1%nat) (at_added (x_s t 1%nat))) = [0%nat] /\
  all mx_C count mx_W = 11 /\ p_prt_num (w_pud (W' 0%nat)) = 3.
Proof.
  destruct (mx_exchange mx_W mx_W) as (g & HX). cbv zeta in HX. set (V := fun i : nat => received mx_F (walls mx_F (mx_A i)) (loc g i)) in HX.
  pose proof (fun i Hi => proj1 (mx_loose i Hi)) as HL. pose proof (fun i Hi => proj2 (mx_loose i Hi)) as HN.
  destruct (exch_part mx_C mx_cluster (mx_t mx_W V) HL HN V HX (conj (mx_reach _ _) (mx_buffers _ _))) as (EX & _).
  assert (TD : forall i, (i < 2)%nat -> exists W', tidy mx_F mx_so (V i) W').
  { intros i Hi. destruct (EX i Hi) as ((D1 & _) & _).
    destruct (sort_exists (map (fun k => N.to_nat (p_n (w_P (V i)) k)) (seq 0 (p_np (w_P (V i))))) (seq 0 (p_np (w_P (V i))))) as (tmp & sid & ST);
      [rewrite map_length; reflexivity|].
    destruct (C05_totals_conserved (fun _ => 0) (fun _ => 0%N) (f_max mx_F) (n_vec mx_F) 0 false tmp sid (fun l m => seq 0 m) false (pop_of (V i)) (fun _ => 0)
      (conj D1 (conj ST (fun l m => Permutation_refl (seq 0 m))))) as (p' & EP & _).
    exists (with_pop mx_F (V i) p'). exists (fun _ => 0), (fun _ => 0%N), tmp, sid, (fun l m => seq 0 m), p'.
    split; [exact ST|]. split; [intros; apply Permutation_refl|]. split; [exact EP|reflexivity]. }
  destruct (TD 0%nat ltac:(lia)) as (Z0 & T0). destruct (TD 1%nat ltac:(lia)) as (Z1 & T1). set (e := fun i : nat => if (i =? 0)%nat then Z0 else Z1).
  exists e, V. cbv zeta. split; [|split; [|split; [reflexivity|split; [|split; [|split]]]]].
  - refine (xrun_cons mx_C (mx_t e V) [] e _ (xrun_nil mx_C _)). split; [|split].
    + intros i Hi. exact (mx_first i (e i)).
    + exact HX.
    + intros i Hi. destruct i as [|[|i]]; [exact T0|exact T1|cbn in Hi; lia].
  - constructor; [|constructor]. split; [|split; [apply mx_reach|apply mx_buffers]].
    intros i Hi. cbv zeta. split; [reflexivity|]. split; [reflexivity|]. split; [reflexivity|]. split; [cbn; lia|]. split; [discriminate|].
    split; intros E; discriminate E.
  - rewrite mx_ids by lia. cbn [fst mx_A mx_4 with_pos with_P with_E mx_W w_P set_turb set_vt p_np Nat.eqb seq filter].
    unfold mx_x. cbn [Nat.eqb]. rewrite (proj2 (Rltb_true (- (1 / 2)) 0)) by lra. rewrite (proj2 (Rltb_false (1 / 2) 0)) by lra. reflexivity.
  - rewrite mx_ids by lia. cbn [snd mx_A mx_4 with_pos with_P with_E mx_W w_P set_turb set_vt p_np Nat.eqb seq filter].
    unfold mx_x. cbn [Nat.eqb]. rewrite (proj2 (Rleb_true 1 (3 / 2))) by lra. reflexivity.
  - unfold all, count, amount, one. cbn [mx_C k_size sumR mx_W w_P p_np p_n w_pud p_prt_num Nat.eqb]. unfold mx_n, N2R. cbn. lra.
  - change (e 0%nat) with Z0. destruct (EX 0%nat ltac:(cbn; lia)) as (E1 & E2 & _ & E4).
    destruct (tidy_mpi mx_C 0%nat (proj1 (proj2 mx_cluster) 0%nat ltac:(cbn; lia)) mx_so (V 0%nat) Z0 T0 E1 ltac:(discriminate) E2) as (_ & _ & _ & P & _).
    rewrite P, E4. change (walls (k_F mx_C 0%nat) (at_added (x_s (mx_t mx_W V) 0%nat))) with (walls mx_F (mx_A 0%nat)).
    destruct (walls_mpi mx_C 0%nat (proj1 (proj2 mx_cluster) 0%nat ltac:(cbn; lia)) (x_s (mx_t mx_W V) 0%nat) (HL 0%nat ltac:(lia))) as (_ & _ & _ & _ & _ & Q).
    change (at_added (x_s (mx_t mx_W V) 0%nat)) with (mx_A 0%nat) in Q. change (k_F mx_C 0%nat) with mx_F in Q. rewrite Q.
    change (p_prt_num (w_pud (mx_A 0%nat))) with 0. unfold fallen. change (f_parcel mx_F) with false. cbv iota.
    change (p_np (w_P (mx_A 0%nat))) with 2%nat. cbn [seq map]. unfold fallen_sum. cbn [map lsumR fold_right].
    unfold fell_out, left_bottom, left_sideways, has_vertical_walls. cbn [mx_F f_b mx_b n_dims periodic_topbot distmem lft_open rgt_open open_side_walls Nat.eqb Nat.ltb Nat.leb negb andb orb].
    cbn [bsd_of b_z z0 b_n]. change (w_z (mx_A 0%nat) 0%nat) with (1 / 2). change (w_z (mx_A 0%nat) 1%nat) with (- (1)).
    change (z0 mx_b) with 0. rewrite (proj2 (Rltb_true (- (1)) 0)) by lra. rewrite (proj2 (Rltb_false (1 / 2) 0)) by lra. cbn [andb].
    change (p_n (w_P (mx_A 0%nat)) 1%nat) with 3%N. unfold one, N2R. cbn. lra.
Qed.
Theorem C95_instance : exists t W',
  cluster_ok mx_C /\ states_ok mx_C mx_W /\ xrun mx_C mx_W [t] W' /\ Forall (xstep_ok mx_C) [t] /\ x_adve t = true /\
  fst (ids_of (k_F mx_C 0%nat) (at_added (x_s t 0%nat))) = [0%nat] /\ snd (ids_of (k_F mx_C 1%nat) (at_added (x_s t 1%nat))) = [0%nat] /\
  all mx_C count mx_W = 11 /\ p_prt_num (w_pud (W' 0%nat)) = 3.
Proof.
  destruct mx_run as (W' & V & H). exists (mx_t W' V), W'. split; [exact mx_cluster|]. split; [exact mx_state|]. exact H.
Qed.

Print Assumptions C95_water.
Print Assumptions C95_dry_aerosol.
Print Assumptions C95_number.
Print Assumptions C95_state.
Print Assumptions C95_instance.
