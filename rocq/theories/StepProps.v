(** C81: budgets of water, aerosol and particle number over whole runs. *)
From Coq Require Import List Arith NArith ZArith Lia Reals Lra Psatz Permutation Sorted Bool.
From Verif Require Import Base BaseProofs HskpngModel HskpngProofs MomsModel MomsProofs CoalModel CoalProofs CoalPairProofs CoalPassProofs CoalProps
  SpaceModel SpaceProofs SpaceProps GridProps RcycModel RcycProofs RcycProps ThermoModel CondModel CondPassModel CondPassProofs CondPassProps
  CondPassProps2 CondPassProps3 CondPassProps4 FreezeProps StepModel.
Import ListNotations.
Local Open Scope R_scope.

(** ** what is in the domain *)
(** properties of one real droplet of a super-droplet that do not depend on where it is and how many there are *)
Definition intrinsic (w : bsd -> R) : Prop :=
  forall s s', b_rw2 s = b_rw2 s' -> b_rd3 s = b_rd3 s' -> b_a s = b_a s' -> b_c s = b_c s' -> b_rho s = b_rho s' -> w s = w s'.
(** masses of liquid water and ice [kg], volume of dry aerosol, number *)
Definition liquid (s : bsd) : R := 4 / 3 * PI * 1000 * sqrt (b_rw2 s) ^ 3.
Definition ice (s : bsd) : R := 4 / 3 * PI * b_a s ^ 2 * b_c s * b_rho s.
Definition water (F : setup) (s : bsd) : R := liquid s + (if f_ice F then ice s else 0).
Definition dry (s : bsd) : R := 4 / 3 * PI * b_rd3 s.
Definition one (s : bsd) : R := 1.
(** total over all super-droplets *)
Definition amount (w : bsd -> R) (W : world) : R := sumR (p_np (w_P W)) (fun i => N2R (p_n (w_P W) i) * w (bsd_of W i)).
(** water vapour; in a parcel model everything is per kilogram of dry air *)
Definition vapour (F : setup) (W : world) : R :=
  sumR (e_nc (w_E W)) (fun c => air_in (f_parcel F) (e_rhod (w_E W)) (e_dv (w_E W)) c * e_rv (w_E W) c).
(** water on the ground *)
Definition puddle_water (W : world) : R := 1000 * p_liq_vol (w_pud W) + p_ice_mass (w_pud W).

(** ** what came in and went out in a step *)
Definition from_host (F : setup) (s : step_states) : R := vapour F (at_synced s) - vapour F (at_start s).
Definition added (w : bsd -> R) (s : step_states) : R :=
  let n := p_np (w_P (at_moved s)) in
  sumR (p_np (w_P (at_added s))) (fun i =>
    (N2R (p_n (w_P (at_added s)) i) - (if (i <? n)%nat then N2R (p_n (w_P (at_moved s)) i) else 0)) * w (bsd_of (at_added s) i)).
Definition escaped (F : setup) (w : bsd -> R) (s : step_states) : R :=
  let W := at_added s in
  sumR (p_np (w_P W)) (fun i =>
    if negb (f_parcel F) && (left_sideways (f_b F) (bsd_of W i) || left_top (f_b F) (bsd_of W i))
    then N2R (p_n (w_P W) i) * w (bsd_of W i) else 0).
Definition over (f : step_states -> R) (l : list (sopts * step_states)) : R := lsumR (map (fun t => f (snd t)) l).

(** ** admissible runs *)
Definition setup_ok (F : setup) : Prop :=
  let o := f_b F in
  grid_dims (n_dims o) (f_nx F) (f_ny F) (f_nz F) /\ 0 < f_dx F /\ 0 < f_dy F /\ 0 < f_dz F /\ distmem o = false /\
  0 <= x0 o < x1 o /\ (x1 o <= INR (f_nx F) * f_dx F \/ n_dims o = 0%nat) /\
  0 <= y0 o < y1 o /\ (y1 o <= INR (f_ny F) * f_dy F \/ n_dims o <> 3%nat) /\
  0 <= z0 o < z1 o /\ (z1 o <= INR (f_nz F) * f_dz F \/ (n_dims o < 2)%nat) /\
  ice_on o = f_ice F /\ (f_ice F = true -> f_exact F = false).
(** the state in which a run starts, i.e. after initialisation *)
Definition state_ok (F : setup) (W : world) : Prop :=
  let P := w_P W in let E := w_E W in
  (p_np P <= f_max F)%nat /\ e_nc E = n_cell (f_nx F) (f_ny F) (f_nz F) /\
  (forall c, (c < e_nc E)%nat -> 0 < e_rhod E c /\ 0 < e_dv E c) /\
  (forall i, (i < p_np P)%nat -> (p_ijk P i < e_nc E)%nat) /\
  (forall i, 0 <= p_rw2 P i /\ 0 <= p_rd3 P i /\ (p_n P i < 2 ^ 64)%N) /\
  (f_ice F = true -> forall i, one_phase (ice_attr P i)).
(** condensation conserves water (C20): per-cell substeps with a density that does not change or a single substep, per-particle substeps
    without mixing, or with mixing when the density at super-droplets is that of their cells *)
Definition accurate (so : sopts) (W : world) : Prop :=
  so_cond so = true -> let o := so_c so in
  (use_perparticle o = false /\ steady o) \/ (use_perparticle o = true /\ o_mix o = false) \/
  (use_perparticle o = true /\ o_mix o = true /\ o_adaptive o = false /\
   forall i, (i < p_np (w_P W))%nat -> t_rh (w_S W) i = e_rhod (w_E W) (p_ijk (w_P W) i)).
(** recycling finds a donor for every super-droplet without droplets (C06) *)
Definition enough_donors (F : setup) (so : sopts) (s : step_states) : Prop :=
  let W := walls F (at_added s) in
  so_rcyc so = true -> pure_const_multi (f_co F) = true \/ has_one (pop_of W) \/ (2 * number_of_zeros (pop_of W) <= p_np (w_P W))%nat.
Definition step_ok (F : setup) (t : sopts * step_states) : Prop :=
  let so := fst t in let s := snd t in
  o_parcel (so_c so) = f_parcel F /\ o_ice (so_c so) = f_ice F /\ o_exact (so_c so) = f_exact F /\ (1 <= o_sstp (so_c so))%nat /\
  (f_ice F = true -> so_coal so = false) /\ accurate so (at_synced s) /\ enough_donors F so s.

(** ** sums *)
Lemma sum_at n a v : (a < n)%nat -> sumR n (fun c => if (a =? c)%nat then v else 0) = v.
Proof.
  induction n as [|n IH]; intros H; [lia|]. cbn. destruct (Nat.eq_dec a n) as [->|Hn].
  - rewrite Nat.eqb_refl. rewrite sumR_0; [lra|]. intros i Hi. destruct (Nat.eqb_spec n i); [lia|reflexivity].
  - rewrite IH by lia. destruct (Nat.eqb_spec a n); [lia|lra].
Qed.
Lemma sum_cells np ijk nc w : (forall i, (i < np)%nat -> (ijk i < nc)%nat) -> sumR nc (cellsum np ijk w) = sumR np w.
Proof.
  induction np as [|k IH]; intros H.
  - cbn. apply sumR_0. reflexivity.
  - cbn [sumR]. rewrite <- IH by (intros; apply H; lia).
    transitivity (sumR nc (fun c => cellsum k ijk w c + (if (ijk k =? c)%nat then w k else 0))).
    + apply sumR_ext. intros c _. unfold cellsum. reflexivity.
    + rewrite sumR_plus. f_equal. apply sum_at, H. lia.
Qed.
Lemma liquid_intrinsic : intrinsic liquid.
Proof. intros s s' H _ _ _ _. unfold liquid. now rewrite H. Qed.
Lemma water_intrinsic F : intrinsic (water F).
Proof. intros s s' H1 _ H2 H3 H4. unfold water, liquid, ice. now rewrite H1, H2, H3, H4. Qed.
Lemma dry_intrinsic : intrinsic dry.
Proof. intros s s' _ H _ _ _. unfold dry. now rewrite H. Qed.
Lemma one_intrinsic : intrinsic one.
Proof. intros s s' _ _ _ _ _. reflexivity. Qed.

(** equal amounts of super-droplets with equal sizes *)
Lemma amount_same w W W' : intrinsic w -> p_np (w_P W') = p_np (w_P W) ->
  (forall i, (i < p_np (w_P W))%nat -> p_n (w_P W') i = p_n (w_P W) i /\ p_rw2 (w_P W') i = p_rw2 (w_P W) i /\ p_rd3 (w_P W') i = p_rd3 (w_P W) i /\
     p_ia (w_P W') i = p_ia (w_P W) i /\ p_ic (w_P W') i = p_ic (w_P W) i /\ p_irho (w_P W') i = p_irho (w_P W) i) ->
  amount w W' = amount w W.
Proof.
  intros Hw Hn H. unfold amount. rewrite Hn. apply sumR_ext. intros i Hi. destruct (H i Hi) as (-> & H2 & H3 & H4 & H5 & H6). f_equal.
  apply Hw; assumption.
Qed.

(** total water as the sum over cells *)
Lemma global_water F o W : o_parcel o = f_parcel F -> o_ice o = f_ice F -> state_ok F W ->
  vapour F W + amount (water F) W =
  sumR (e_nc (w_E W)) (fun c => air_in (f_parcel F) (e_rhod (w_E W)) (e_dv (w_E W)) c * total_water o (cst_of W) c).
Proof.
  intros Hp Hi (_ & _ & Hd & Hr & _ & Hph). set (P := w_P W) in *. set (E := w_E W) in *.
  transitivity (sumR (e_nc E) (fun c => air_in (f_parcel F) (e_rhod E) (e_dv E) c * e_rv E c +
     cellsum (p_np P) (p_ijk P) (fun i => N2R (p_n P i) * water F (bsd_of W i)) c)).
  - rewrite sumR_plus. unfold vapour, amount. fold E P. f_equal. symmetry. apply sum_cells. intros i H. apply Hr, H.
  - apply sumR_ext. intros c Hc. destruct (Hd c Hc) as [D1 D2]. unfold total_water, q_liq, q_ice. rewrite Hp, Hi.
    set (m := air_in (f_parcel F) (e_rhod E) (e_dv E) c).
    assert (Hm : 0 < m) by (unfold m, air_in; destruct (f_parcel F); [lra|nra]).
    change (s_E (cst_of W)) with E. change (s_P (cst_of W)) with P. fold m.
    assert (Q : cellsum (p_np P) (p_ijk P) (fun i => N2R (p_n P i) * water F (bsd_of W i)) c =
                liq_in P c + (if f_ice F then ice_in P c else 0)).
    { unfold water. transitivity (cellsum (p_np P) (p_ijk P) (fun i => N2R (p_n P i) * liquid (bsd_of W i) +
                       N2R (p_n P i) * (if f_ice F then ice (bsd_of W i) else 0)) c).
      - apply cellsum_ext. intros. ring.
      - rewrite cellsum_plus. f_equal. destruct (f_ice F) eqn:EF.
        + unfold ice_in. apply cellsum_ext. intros i Hi' _. unfold ice, bsd_of. cbn [b_a b_c b_rho]. fold P.
          destruct (Hph eq_refl i) as [(_ & A & B & _)|(_ & A & _)].
          * rewrite A. destruct (Rlt_dec 0 0); [lra|]. ring.
          * destruct (Rlt_dec 0 (p_ia P i)); [ring|contradiction].
        + unfold cellsum. apply sumR_0. intros i _. destruct (_ =? _)%nat; ring. }
    rewrite Q. destruct (f_ice F); field; lra.
Qed.

(** ** the parts of a step *)
(** condensation changes neither cells, numbers, dry sizes, nor the density *)
Lemma after_rd3 o g lD lK sijk sid k l : p_rd3 (s_P (l_st (percell_loop o g lD lK sijk sid k l))) = p_rd3 (s_P (l_st l)).
Proof.
  induction k as [|k IH]; [reflexivity|]. cbn [percell_loop]. rewrite <- IH. set (L := percell_loop _ _ _ _ _ _ _ _).
  unfold percell_substep. cbn [l_st s_P]. destruct (sstp_percell_frame o k (l_st L)) as (F & _).
  unfold apply_sgs_supersat. rewrite F. destruct (o_ice o), (o_turb o); reflexivity.
Qed.
Lemma pafter_rd3 o lD lK dv sijk sid d k PS : p_rd3 (fst (perparticle_loop o lD lK dv sijk sid d k PS)) = p_rd3 (fst PS).
Proof.
  induction k as [|k IH]; [reflexivity|]. cbn [perparticle_loop]. rewrite <- IH. destruct (perparticle_loop _ _ _ _ _ _ _ k _) as [P S].
  unfold perparticle_substep, apply_sgs_supersat. destruct (o_turb o); reflexivity.
Qed.
Lemma cond_frame o allow g sijk sid st st' : cond_part o allow g sijk sid st st' -> (1 <= o_sstp o)%nat ->
  (forall i, 0 <= p_rw2 (s_P st) i) ->
  same_pop (s_P st) (s_P st') /\ p_rd3 (s_P st') = p_rd3 (s_P st) /\ e_nc (s_E st') = e_nc (s_E st) /\
  (forall c, e_rhod (s_E st') c = e_rhod (s_E st) c) /\
  (forall c, e_dv (s_E st') c = e_dv (s_E st) c \/ (o_parcel o = true /\ e_dv (s_E st') c = 1 / e_rhod (s_E st) c)) /\
  (o_parcel o = false -> forall c, e_dv (s_E st') c = e_dv (s_E st) c) /\
  (forall i, 0 <= p_rw2 (s_P st') i).
Proof.
  intros H Hs Hr. destruct (use_perparticle o) eqn:U.
  - assert (K : exists P S E, st' = sstp_save o allow (mk_cst P E S) /\ same_pop (s_P st) P /\ p_rd3 P = p_rd3 (s_P st) /\
        (forall i, 0 <= p_rw2 P i) /\ e_nc E = e_nc (s_E st) /\ e_rhod E = e_rhod (s_E st) /\ e_dv E = e_dv (s_E st)).
    { assert (Q : forall st P S, (P, S) = (if o_adaptive o
                 then adaptive_pass o (mfp_D (s_E st)) (mfp_K (s_E st)) (e_dv (s_E st)) (deltas o st) (s_P st, s_S st)
                 else perparticle_loop o (mfp_D (s_E st)) (mfp_K (s_E st)) (e_dv (s_E st)) sijk sid (deltas o st) (o_sstp o) (s_P st, s_S st)) ->
               (forall i, 0 <= p_rw2 (s_P st) i) -> same_pop (s_P st) P /\ p_rd3 P = p_rd3 (s_P st) /\ (forall i, 0 <= p_rw2 P i)).
      { clear st H Hr st'. intros st P S HPS Hr. destruct (o_adaptive o).
        - unfold adaptive_pass in HPS. injection HPS as -> _. cbn [set_ssp set_rw2 p_rd3 p_rw2].
          split; [repeat split; reflexivity|]. split; [reflexivity|]. intros i.
          destruct (C23_fraction o (mfp_D (s_E st)) (mfp_K (s_E st)) (e_dv (s_E st)) (s_P st) (s_S st) (deltas o st) i Hs (Hr i)) as (F & _ & _ & _ & N & _).
          exact N.
        - destruct (pafter_frame o sijk sid st (o_sstp o)) as (F1 & _ & _ & _ & F5).
          pose proof (pafter_rd3 o (mfp_D (s_E st)) (mfp_K (s_E st)) (e_dv (s_E st)) sijk sid (deltas o st) (o_sstp o) (s_P st, s_S st)) as F6.
          unfold pafter in F1, F5. rewrite <- HPS in F1, F5, F6. cbn [fst] in *. split; [exact F1|]. split; [exact F6|]. apply F5, Hr. }
      destruct H as [st Hu'|st P S Hu' Hm' lD lK HPS drw dice|st P S rv' th' Hu' Hm' lD lK HPS U1 U2]; [congruence| |].
      - destruct (Q st P S HPS Hr) as (Q1 & Q2 & Q3). exists P, S. eexists. split; [reflexivity|]. unfold update_th_rv. cbn [set_rvth e_nc e_rhod e_dv].
        repeat split; try apply Q1; auto.
      - destruct (Q st P S HPS Hr) as (Q1 & Q2 & Q3). exists P, S. eexists. split; [reflexivity|]. cbn [set_rvth e_nc e_rhod e_dv].
        repeat split; try apply Q1; auto. }
    destruct K as (P & S & E & -> & K1 & K2 & K3 & K4 & K5 & K6).
    destruct (sstp_save_PE o allow (mk_cst P E S)) as [-> ->]. cbn [s_P s_E]. rewrite K4, K5, K6. auto 10.
  - pose proof (C21_percell o allow g sijk sid st st' U Hs H) as C. cbv zeta in C.
    rewrite (cond_part_percell _ _ _ _ _ _ _ U H) in *.
    destruct (sstp_save_PE o allow (after o g sijk sid st (o_sstp o))) as [EP EE]. rewrite EP, EE.
    destruct (after_frame o g sijk sid st (o_sstp o)) as (F1 & F2 & F3 & F4 & F5 & F6).
    assert (RH : forall c, e_rhod (s_E (after o g sijk sid st (o_sstp o))) c = e_rhod (s_E st) c).
    { intros c. destruct (C c) as (_ & _ & _ & R). rewrite EE in R. exact R. }
    split; [exact F1|]. split; [unfold after; rewrite after_rd3; reflexivity|]. split; [exact F2|]. split; [exact RH|]. split; [|split].
    + intros c. destruct (o_parcel o) eqn:Ep; [right|left; rewrite F3 by reflexivity; reflexivity]. split; [reflexivity|].
      rewrite <- RH. destruct (o_sstp o) as [|k] eqn:Es; [lia|].
      unfold after at 1. cbn [percell_loop]. set (L := percell_loop _ _ _ _ _ _ k _). unfold percell_substep. cbn [l_st s_E].
      unfold update_th_rv, hskpng_Tpr. cbn [set_rvth e_dv]. rewrite Ep. reflexivity.
    + intros Hp c. rewrite F3 by exact Hp. reflexivity.
    + apply F6, Hr.
Qed.

Section Parts.
Variable F : setup.
Hypothesis HF : setup_ok F.

(** the balance of a part of a step: nothing comes in or goes out *)
Definition closed (W W' : world) : Prop :=
  state_ok F W' /\ vapour F W' + amount (water F) W' = vapour F W + amount (water F) W /\ amount dry W' = amount dry W /\ w_pud W' = w_pud W.

Lemma sync_part so W W' : sync_in so W W' -> state_ok F W ->
  state_ok F W' /\ w_P W' = w_P W /\ w_S W' = w_S W /\ w_pud W' = w_pud W /\ amount (water F) W' = amount (water F) W /\
  amount dry W' = amount dry W /\ amount one W' = amount one W.
Proof.
  intros (rv & th & rhod & H1 & H2 & ->) (O1 & O2 & O3 & O4 & O5 & O6). split; [|repeat split; reflexivity].
  unfold state_ok. cbn [with_E w_P w_E e_nc e_rhod e_dv]. split; [exact O1|]. split; [exact O2|]. split.
  - intros c Hc. split; [apply H2, Hc|apply O3, Hc].
  - auto.
Qed.

Lemma nucl_part so W W' : nucl F so W W' -> o_parcel (so_c so) = f_parcel F -> o_ice (so_c so) = f_ice F -> state_ok F W ->
  closed W W' /\ amount one W' = amount one W /\ p_np (w_P W') = p_np (w_P W) /\ w_S W' = w_S W /\ e_rhod (w_E W') = e_rhod (w_E W) /\
  p_ijk (w_P W') = p_ijk (w_P W).
Proof.
  intros H Hp Hi HW. unfold nucl in H. destruct (f_ice F && so_nucl so) eqn:E; [|subst W'; split; [split; [exact HW|auto]|auto 10]].
  apply andb_true_iff in E. destruct E as [EI _]. destruct H as (g & sijk & sid & Hs & ->).
  pose proof HW as (O1 & O2 & O3 & O4 & O5 & O6). set (o := so_c so) in *. set (st := cst_of W).
  assert (OK : pop_ok o sijk sid st).
  { split; [exact Hs|]. split; [intros i Hl; apply O4, Hl|]. split; [intros i; apply O5|exact O3]. }
  destruct (C24_pass o (so_io so) g sijk sid st OK ltac:(congruence) (O6 EI)) as (A & B & C).
  set (st' := ice_nucl_melt o (so_io so) g sijk sid st) in *.
  assert (HW' : state_ok F (with_cst W st')).
  { unfold state_ok. cbn [with_cst w_P w_E]. split; [exact O1|]. split; [exact O2|]. split; [exact O3|]. split.
    - exact O4.
    - split; [|intros _ i; apply A]. intros i. split; [apply (one_phase_rw2 _ (proj1 (A i)))|]. split; [apply O5|]. rewrite B. apply O5. }
  split; [|repeat split; reflexivity]. split; [exact HW'|]. split; [|split; reflexivity].
  rewrite (global_water F o (with_cst W st') Hp Hi HW'), (global_water F o W Hp Hi HW).
  apply sumR_ext. intros c Hc. f_equal. apply (C c Hc).
Qed.

Lemma cond_step so W W' : cond so W W' -> o_parcel (so_c so) = f_parcel F -> o_ice (so_c so) = f_ice F -> o_exact (so_c so) = f_exact F ->
  (1 <= o_sstp (so_c so))%nat -> accurate so W -> state_ok F W -> closed W W' /\ amount one W' = amount one W.
Proof.
  intros H Hp Hi Hx Hs Ha HW. unfold cond in H. destruct (so_cond so) eqn:E; [|subst W'; split; [split; [exact HW|auto]|reflexivity]].
  destruct H as (g & sijk & sid & st' & Hsort & HC & ->). specialize (Ha E). cbv zeta in Ha. set (o := so_c so) in *.
  pose proof HW as (O1 & O2 & O3 & O4 & O5 & O6).
  assert (OK : pop_ok o sijk sid (cst_of W)).
  { split; [exact Hsort|]. split; [intros i Hl; apply O4, Hl|]. split; [intros i; apply O5|exact O3]. }
  destruct (cond_frame o (so_allow so) g sijk sid (cst_of W) st' HC Hs (fun i => proj1 (O5 i))) as ((S1 & S2 & S3) & F1 & F2 & F3 & F4 & F4' & F5).
  cbn [cst_of s_P s_E] in *.
  assert (HW' : state_ok F (with_cst W st')).
  { unfold state_ok. cbn [with_cst w_P w_E]. rewrite S1, S2, S3, F2. split; [exact O1|]. split; [exact O2|]. split.
    - intros c Hc. destruct (O3 c Hc) as [D1 D2]. rewrite F3. split; [exact D1|]. destruct (F4 c) as [->|[_ ->]]; [exact D2|].
      apply Rdiv_lt_0_compat; lra.
    - split; [exact O4|]. split; [intros i; rewrite F1; split; [apply F5|split; apply O5]|].
      intros EI i. pose proof (O6 EI i) as Hph. destruct HF as (_ & _ & _ & _ & _ & _ & _ & _ & _ & _ & _ & _ & Hex). specialize (Hex EI).
      assert (U : use_perparticle o = false) by (unfold use_perparticle; rewrite Hx, Hex; reflexivity).
      rewrite (cond_part_percell _ _ _ _ _ _ _ U HC). rewrite (proj1 (sstp_save_PE _ _ _)). unfold after. apply loop_phase. exact Hph. }
  assert (TW : forall c, (c < e_nc (w_E W))%nat -> total_water o st' c = total_water o (cst_of W) c).
  { intros c Hc. destruct Ha as [[U St]|[[U M]|(U & M & Ad & Rh)]].
    - exact (C20_percell_water o (so_allow so) g sijk sid (cst_of W) st' U Hs St OK HC c Hc).
    - exact (proj1 (C20_nomix_water_and_heat o (so_allow so) g sijk sid (cst_of W) st' U M Hs OK HC c Hc)).
    - exact (C20_mix_water_partial o (so_allow so) g sijk sid (cst_of W) st' U M Ad Hs OK HC Rh c Hc). }
  split; [|unfold amount; cbn [with_cst w_P bsd_of]; rewrite S1, S3; reflexivity].
  split; [exact HW'|]. split; [|split; [|reflexivity]].
  - rewrite (global_water F o (with_cst W st') Hp Hi HW'), (global_water F o W Hp Hi HW). cbn [with_cst w_E]. rewrite F2.
    apply sumR_ext. intros c Hc. replace (cst_of (with_cst W st')) with st' by (destruct st'; reflexivity). rewrite TW by exact Hc.
    f_equal. unfold air_in. destruct (f_parcel F) eqn:Ep; [reflexivity|]. rewrite F3. rewrite F4' by congruence. reflexivity.
  - unfold amount, dry, bsd_of. cbn [with_cst w_P b_rd3]. rewrite S1, S3, F1. reflexivity.
Qed.

Lemma prepare_part so W W' : prepare so W W' -> o_parcel (so_c so) = f_parcel F -> state_ok F W ->
  closed W W' /\ amount one W' = amount one W /\ e_nc (w_E W') = e_nc (w_E W) /\ (f_parcel F = false -> e_dv (w_E W') = e_dv (w_E W)).
Proof.
  intros (v & ->) Hp HW. pose proof HW as (O1 & O2 & O3 & O4 & O5 & O6). split.
  - split.
    + unfold state_ok. cbn [with_P with_E w_P w_E set_vt p_np p_ijk p_n p_rw2 p_rd3 hskpng_Tpr e_nc e_rhod e_dv].
      split; [exact O1|]. split; [exact O2|]. split; [|auto]. intros c Hc. destruct (O3 c Hc) as [D1 D2]. split; [exact D1|].
      destruct (o_parcel (so_c so)); [apply Rdiv_lt_0_compat; lra|exact D2].
    + split; [|split; reflexivity]. f_equal. unfold vapour. cbn [with_P with_E w_E hskpng_Tpr e_nc e_rhod e_rv e_dv].
      apply sumR_ext. intros c _. unfold air_in. rewrite Hp. destruct (f_parcel F); reflexivity.
  - split; [reflexivity|]. split; [reflexivity|]. intros E. cbn [with_P with_E w_E hskpng_Tpr e_dv]. rewrite Hp, E. reflexivity.
Qed.

(** coalescence *)
Definition sized (s : sd) : Prop := 0 <= CoalModel.rw2 s /\ 0 <= CoalModel.rd3 s /\ (CoalModel.n s < 2 ^ 64)%N.
Lemma wrap64_lt z : (wrap64 z < 2 ^ 64)%N.
Proof.
  unfold wrap64, W64. pose proof (Z.mod_pos_bound z (2 ^ 64) ltac:(reflexivity)) as H. apply N2Z.inj_lt. rewrite Z2N.id by (apply H). exact (proj2 H).
Qed.
Lemma collide_sized c a b : sized a -> sized b -> sized (fst (collide c a b)) /\ sized (snd (collide c a b)).
Proof.
  intros (A1 & A2 & A3) (B1 & B2 & B3). unfold collide, sized. cbn [fst snd CoalModel.rw2 CoalModel.rd3 CoalModel.n]. split.
  - split; [exact A1|]. split; [exact A2|]. apply wrap64_lt.
  - split; [apply Rle_0_sqr|]. split; [|exact B3]. pose proof (Rmult_le_pos _ _ (N2R_nonneg c) A2). lra.
Qed.
Lemma pair_sized kernel dt dv o nc gr sijk cell a b u : sized a -> sized b ->
  let r := collider_pair kernel dt dv o nc gr sijk cell a b u in sized (fst (fst (fst (fst r)))) /\ sized (snd (fst (fst (fst r)))).
Proof.
  intros A B. unfold collider_pair. cbv zeta. set (c1 := if Rltb _ _ then _ else _). clearbody c1.
  destruct (c1 =? 0)%N; [split; assumption|]. destruct (CoalModel.n b <=? CoalModel.n a)%N.
  - set (c := if (0 <? _)%N then _ else _). pose proof (collide_sized c a b A B) as H. destruct (collide c a b). exact H.
  - set (c := if (0 <? _)%N then _ else _). pose proof (collide_sized c b a B A) as H. destruct (collide c b a). cbn in *. tauto.
Qed.
Lemma fold_inv {A B} (f : A -> B -> A) (I : A -> Prop) l : (forall a b, I a -> I (f a b)) -> forall a, I a -> I (fold_left f l a).
Proof. intros H. induction l as [|b l IH]; intros a Ha; [exact Ha|]. apply IH, H, Ha. Qed.
Lemma upd2_sized (a : nat -> sd) i j x y : (forall k, sized (a k)) -> sized x -> sized y -> forall k, sized (upd (upd a i x) j y k).
Proof. intros H Hx Hy k. unfold upd. destruct (k =? j)%nat; [exact Hy|]. destruct (k =? i)%nat; [exact Hx|apply H]. Qed.
Lemma follow_sized o f : In f (follow_ups o) -> forall ca cb a b x y, f ca cb a b = Some (x, y) -> sized a -> sized b -> sized x /\ sized y.
Proof.
  intros H ca cb a b x y E A B. unfold follow_ups in H. repeat rewrite in_app_iff in H.
  assert (K : (exists k, f = summator k) \/ f = weighted_summator \/ f = selector \/ f = invalidator).
  { destruct H as [H|[H|[H|H]]].
    - destruct (chem_switch o); [|destruct H]. apply in_map_iff in H. destruct H as (k & <- & _). left. eauto.
    - destruct (mix_kappa_on o); [|destruct H]. destruct H as [<-|[]]. tauto.
    - destruct (diag_incloud_time o); [|destruct H]. destruct H as [<-|[]]. tauto.
    - destruct (act_sstp o); [|destruct H]. destruct H as [<-|[]]. tauto. }
  destruct K as [(k & ->)|[ -> |[ -> | -> ]]];
    [unfold summator in E|unfold weighted_summator in E|unfold selector in E|unfold invalidator in E];
    (destruct (Rleb ca 0); [discriminate|]; destruct (Reqb cb na_ge_nb); injection E as <- <-; split; assumption).
Qed.
Lemma coal_sized kernel dt dv o nc gn gr sid sijk np sched u01 sds st :
  coal kernel dt dv o nc gn gr sid sijk np sched u01 sds = Some st -> (forall i, sized (sds i)) -> forall i, sized (arr st i).
Proof.
  unfold coal. destruct np; [discriminate|]. intros E H. injection E as <-. cbn [arr].
  assert (K : forall i, sized (arr (fold_left (collider_step kernel dt dv o nc gn gr sid sijk) (sched 0%nat) (CoalModel.mk_cst sds u01 false)) i)).
  { apply (fold_inv _ (fun st => forall i, sized (arr st i))); [|exact H]. intros st i Hs k. unfold collider_step.
    destruct (Nat.odd _); [apply Hs|]. destruct (negb _); [apply Hs|].
    pose proof (pair_sized kernel dt dv o nc gr sijk (CoalModel.sijk sijk i) (arr st (CoalModel.sid sid i)) (arr st (CoalModel.sid sid (S i))) (col st i) (Hs _) (Hs _)) as Q.
    cbv zeta in Q. destruct (collider_pair _ _ _ _ _ _ _ _ _ _ _) as [[[[a' b'] ka] kb] f]. cbn [fst snd arr] in *. apply upd2_sized; tauto. }
  set (st1 := fold_left _ _ _) in *. clearbody st1.
  assert (G : forall fs ka, (forall f, In f fs -> In f (follow_ups o)) -> (forall i, sized (snd ka i)) -> forall i, sized (snd
     (fold_left (fun (ka : nat * (nat -> sd)) f => (S (fst ka), fold_left (follow_step sid f (col st1)) (sched (fst ka)) (snd ka))) fs ka) i)).
  { induction fs as [|f fs IH]; intros ka Hf Hk; [exact Hk|]. cbn [fold_left]. apply IH; [intros; apply Hf; right; assumption|].
    cbn [snd]. apply (fold_inv _ (fun a => forall i, sized (a i))); [|exact Hk]. intros a j Ha. unfold follow_step.
    destruct (f _ _ _ _) as [[x y]|] eqn:Ef; [|exact Ha].
    destruct (follow_sized o f (Hf f (or_introl eq_refl)) _ _ _ _ _ _ Ef (Ha _) (Ha _)). apply upd2_sized; assumption. }
  apply G; [auto|exact K].
Qed.

(** totals of cells *)
Lemma cell_total_sum (P : nat -> nat) np nc (w : sd -> R) sds : (forall i, (i < np)%nat -> (P i < nc)%nat) ->
  sumR nc (cell_total (map P (seq 0 np)) w sds) = sumR np (fun i => w (sds i)).
Proof.
  intros H. rewrite <- (sum_cells np P nc (fun i => w (sds i)) H). apply sumR_ext. intros c _. unfold cell_total, cellsum.
  rewrite map_length, seq_length. apply sumR_ext. intros i Hi. rewrite (nth_indep _ 0%nat (P 0%nat)) by (rewrite map_length, seq_length; exact Hi).
  rewrite map_nth, seq_nth by exact Hi. reflexivity.
Qed.

Definition shrinks (W W' : world) : Prop := amount one W' <= amount one W.
Lemma coal_pass_part W W' : coal_pass F W W' -> f_ice F = false -> state_ok F W -> closed W W' /\ shrinks W W'.
Proof.
  intros (kernel & dt & gn & gr & sijk & sid & sched & u01 & st & v & H) EF HW. cbv zeta in H.
  destruct H as (Hk & Hdt & Hsch & Hsort & Hc & ->). pose proof HW as (O1 & O2 & O3 & O4 & O5 & O6).
  set (P := w_P W) in *. set (E := w_E W) in *. set (ijk := map (p_ijk P) (seq 0 (p_np P))) in *.
  assert (L : length ijk = p_np P) by (unfold ijk; rewrite map_length, seq_length; reflexivity).
  assert (IN : forall c, In c ijk -> (c < e_nc E)%nat).
  { intros c Hi. unfold ijk in Hi. apply in_map_iff in Hi. destruct Hi as (i & <- & Hi). apply in_seq in Hi. apply O4. lia. }
  assert (NE : (0 < length ijk)%nat) by (destruct (length ijk); [discriminate Hc|lia]).
  assert (PIN : pass_inputs kernel dt (e_dv E) (e_nc E) ijk sched (sd_of W)).
  { constructor; auto.
    - intros c Hi. apply O3, IN, Hi.
    - intros i Hi. apply O5.
    - intros i Hi. apply O5. }
  pose proof (C03_conservation kernel dt (e_dv E) (f_co F) (e_nc E) gn gr ijk sid sijk sched u01 (sd_of W) st Hsort PIN Hc) as C.
  assert (SZ : forall i, sized (arr st i)) by (apply (coal_sized _ _ _ _ _ _ _ _ _ _ _ _ _ _ Hc); exact O5).
  set (W1 := with_P (with_sds W (arr st)) (set_vt (w_P (with_sds W (arr st))) v)).
  assert (T : forall w, (forall c, cell_total ijk w (arr st) c = cell_total ijk w (sd_of W) c) ->
                sumR (p_np P) (fun i => w (arr st i)) = sumR (p_np P) (fun i => w (sd_of W i))).
  { intros w Hw. rewrite <- (cell_total_sum (p_ijk P) (p_np P) (e_nc E) w (arr st) O4),
      <- (cell_total_sum (p_ijk P) (p_np P) (e_nc E) w (sd_of W) O4). apply sumR_ext. intros c _. apply Hw. }
  split; [split; [|split; [|split]]|].
  - unfold state_ok, W1. cbn [with_P with_sds w_P w_E set_vt p_np p_ijk p_n p_rw2 p_rd3]. fold P E.
    split; [exact O1|]. split; [exact O2|]. split; [exact O3|]. split; [exact O4|]. split; [exact SZ|]. intros EI. congruence.
  - f_equal. unfold amount, water. rewrite EF. unfold W1. cbn [with_P with_sds w_P set_vt p_np p_n]. fold P.
    transitivity (4 / 3 * PI * 1000 * sumR (p_np P) (fun i => N2R (CoalModel.n (arr st i)) * sqrt (CoalModel.rw2 (arr st i)) ^ 3)).
    { rewrite <- sumR_scal. apply sumR_ext. intros i _. unfold liquid, bsd_of. cbn [b_rw2 w_P with_P with_sds set_vt p_rw2]. ring. }
    rewrite (T (fun s => N2R (CoalModel.n s) * sqrt (CoalModel.rw2 s) ^ 3)) by (intros c; apply (C c)).
    rewrite <- sumR_scal. apply sumR_ext. intros i _. unfold liquid, bsd_of, sd_of. cbn [b_rw2 CoalModel.n CoalModel.rw2]. fold P. ring.
  - unfold amount, W1. cbn [with_P with_sds w_P set_vt p_np p_n]. fold P.
    transitivity (4 / 3 * PI * sumR (p_np P) (fun i => N2R (CoalModel.n (arr st i)) * CoalModel.rd3 (arr st i))).
    { rewrite <- sumR_scal. apply sumR_ext. intros i _. unfold dry, bsd_of. cbn [b_rd3 w_P with_P with_sds set_vt p_rd3]. ring. }
    rewrite (T (fun s => N2R (CoalModel.n s) * CoalModel.rd3 s)) by (intros c; apply (C c)).
    rewrite <- sumR_scal. apply sumR_ext. intros i _. unfold dry, bsd_of, sd_of. cbn [b_rd3 CoalModel.n CoalModel.rd3]. fold P. ring.
  - reflexivity.
  - unfold shrinks, amount, one, W1. cbn [with_P with_sds w_P set_vt p_np p_n]. fold P.
    pose proof (cell_total_sum (p_ijk P) (p_np P) (e_nc E) (fun s => N2R (CoalModel.n s)) (arr st) O4) as Q1.
    pose proof (cell_total_sum (p_ijk P) (p_np P) (e_nc E) (fun s => N2R (CoalModel.n s)) (sd_of W) O4) as Q2. cbn beta in Q1, Q2.
    rewrite (sumR_ext (p_np P) (fun i => N2R (CoalModel.n (arr st i)) * 1) (fun i => N2R (CoalModel.n (arr st i)))) by (intros; ring). rewrite <- Q1.
    rewrite (sumR_ext (p_np P) (fun i => N2R (p_n P i) * 1) (fun i => N2R (CoalModel.n (sd_of W i)))) by (intros; apply Rmult_1_r). rewrite <- Q2.
    apply sumR_le. intros c _. apply (C c).
Qed.
Lemma coalescence_part so W W' : coalescence F so W W' -> (f_ice F = true -> so_coal so = false) -> state_ok F W ->
  closed W W' /\ shrinks W W' /\ (so_coal so = false -> W' = W).
Proof.
  intros H Hi HW. unfold coalescence in H. destruct (so_coal so) eqn:E.
  - assert (EF : f_ice F = false) by (destruct (f_ice F); [discriminate (Hi eq_refl)|reflexivity]). split; [|split; [|discriminate]]; destruct H as (V & rc2 & H & ->).
    all: assert (K : forall k W V, coal_passes F k W V -> state_ok F W -> closed W V /\ shrinks W V).
    1,3: clear - EF HF; induction k as [|k IH]; intros W V H HW; cbn in H;
      [subst V; split; [split; [exact HW|auto]|unfold shrinks; lra]|];
      destruct H as (U & H1 & H2); destruct (coal_pass_part W U H1 EF HW) as [(A1 & A2 & A3 & A4) A5];
      destruct (IH U V H2 A1) as [(B1 & B2 & B3 & B4) B5]; unfold closed, shrinks in *;
      split; [split; [exact B1|split; [lra|split; [lra|congruence]]]|lra].
    + destruct (K _ _ _ H HW) as [(A1 & A2 & A3 & A4) A5]. split; [exact A1|]. auto.
    + destruct (K _ _ _ H HW) as [_ A5]. exact A5.
  - subst W'. split; [split; [exact HW|auto]|]. split; [unfold shrinks; lra|reflexivity].
Qed.

(** from motion to the boundary conditions: cells of super-droplets are not up to date *)
Definition loose (W : world) : Prop :=
  let P := w_P W in let E := w_E W in
  (p_np P <= f_max F)%nat /\ e_nc E = n_cell (f_nx F) (f_ny F) (f_nz F) /\
  (forall c, (c < e_nc E)%nat -> 0 < e_rhod E c /\ 0 < e_dv E c) /\
  (forall i, 0 <= p_rw2 P i /\ 0 <= p_rd3 P i /\ (p_n P i < 2 ^ 64)%N) /\
  (f_ice F = true -> forall i, one_phase (ice_attr P i)).
Definition close_by (W : world) : Prop := forall i, (i < p_np (w_P W))%nat -> near F (w_x W i) (w_y W i) (w_z W i).

Lemma motion_part W W' : motion F W W' -> state_ok F W ->
  loose W' /\ close_by W' /\ (forall w, intrinsic w -> amount w W' = amount w W) /\ vapour F W' = vapour F W /\ w_pud W' = w_pud W.
Proof.
  intros (ssp & dssp & x & y & z & H & ->) (O1 & O2 & O3 & O4 & O5 & O6). split; [|split; [exact H|]].
  - split; [exact O1|]. split; [exact O2|]. split; [exact O3|]. split; [exact O5|exact O6].
  - split; [|split; reflexivity]. intros w Hw. apply amount_same; [exact Hw|reflexivity|]. intros i _. repeat split; reflexivity.
Qed.

Lemma sum_cut n m f : (m <= n)%nat -> sumR n (fun i => if (i <? m)%nat then f i else 0) = sumR m f.
Proof.
  induction n as [|n IH]; intros H; [replace m with 0%nat by lia; reflexivity|]. cbn [sumR].
  destruct (Nat.eq_dec m (S n)) as [->|Hn].
  - cbn [sumR]. destruct (Nat.ltb_spec n (S n)); [|lia]. f_equal. apply sumR_ext. intros i Hi. destruct (Nat.ltb_spec i (S n)); [reflexivity|lia].
  - destruct (Nat.ltb_spec n m); [lia|]. rewrite IH by lia. lra.
Qed.

Lemma sources_part s : sources F (at_moved s) (at_added s) -> loose (at_moved s) -> close_by (at_moved s) ->
  loose (at_added s) /\ close_by (at_added s) /\ (forall w, intrinsic w -> amount w (at_added s) = amount w (at_moved s) + added w s) /\
  vapour F (at_added s) = vapour F (at_moved s) /\ w_pud (at_added s) = w_pud (at_moved s).
Proof.
  set (W := at_moved s). set (V := at_added s). intros H (O1 & O2 & O3 & O5 & O6) HN. unfold sources in H. cbv zeta in H.
  destruct H as ((H1 & H1') & HE & HP & HO & HA & _). split; [|split; [|split]].
  - unfold loose. rewrite HE. split; [exact H1'|]. split; [exact O2|]. split; [exact O3|]. split.
    + intros i. destruct (Nat.lt_ge_cases i (p_np (w_P W))) as [Hi|Hi].
      * destruct (HO i Hi) as ((_ & A) & B & C & _). rewrite B, C. split; [apply O5|]. split; [apply O5|exact A].
      * destruct (HA i Hi) as (A & B & C & _). auto.
    + intros EI i. destruct (Nat.lt_ge_cases i (p_np (w_P W))) as [Hi|Hi].
      * destruct (HO i Hi) as (_ & B & _ & C1 & C2 & C3 & _). unfold ice_attr. rewrite B, C1, C2, C3. apply (O6 EI i).
      * destruct (HA i Hi) as (_ & B & _ & C1 & C2 & C3 & _). left. unfold ice_attr, is_liquid. auto.
  - intros i Hi. destruct (Nat.lt_ge_cases i (p_np (w_P W))) as [Hl|Hl].
    + destruct (HO i Hl) as (_ & _ & _ & _ & _ & _ & -> & -> & ->). apply HN, Hl.
    + apply (HA i Hl).
  - intros w Hw. unfold amount at 2. rewrite <- (sum_cut (p_np (w_P V)) (p_np (w_P W))) by exact H1. unfold added. fold V W.
    rewrite <- sumR_plus. unfold amount. apply sumR_ext. intros i Hi. destruct (Nat.ltb_spec i (p_np (w_P W))) as [Hl|Hl]; [|ring].
    destruct (HO i Hl) as (_ & A1 & A2 & A3 & A4 & A5 & _).
    assert (E : w (bsd_of W i) = w (bsd_of V i)) by (apply Hw; symmetry; assumption). rewrite E. ring.
  - split; [|exact HP]. unfold vapour. rewrite HE. reflexivity.
Qed.

(** what fell out *)
Definition fallen (w : bsd -> R) (W : world) : R :=
  if f_parcel F then 0 else fallen_sum (f_b F) w (map (bsd_of W) (seq 0 (p_np (w_P W)))).
Lemma walls_part s : loose (at_added s) -> close_by (at_added s) ->
  let W := at_added s in let V := walls F W in
  loose V /\ vapour F V = vapour F W /\ (forall w, intrinsic w -> amount w V + fallen w W + escaped F w s = amount w W) /\
  puddle_water V = puddle_water W + fallen (water F) W /\ p_dry_vol (w_pud V) = p_dry_vol (w_pud W) + fallen dry W /\
  p_prt_num (w_pud V) = p_prt_num (w_pud W) + fallen one W /\
  (forall i, (i < p_np (w_P V))%nat -> p_n (w_P V) i <> 0%N ->
     (hskpng_ijk (n_dims (f_b F)) (f_ny F) (f_nz F) (f_dx F) (f_dy F) (f_dz F) (w_x V i) (w_y V i) (w_z V i) < n_cell (f_nx F) (f_ny F) (f_nz F))%nat).
Proof.
  intros HL HN. cbv zeta. set (W := at_added s) in *. pose proof HL as (O1 & O2 & O3 & O5 & O6).
  pose proof HF as (G1 & G2 & G3 & G4 & G5 & G6 & G7 & G8 & G9 & G10 & G11 & G12 & G13).
  set (P := w_P W) in *. set (l := map (bsd_of W) (seq 0 (p_np P))). set (o := f_b F) in *.
  assert (LL : length l = p_np P) by (unfold l; rewrite map_length, seq_length; reflexivity).
  assert (NL : forall i d, (i < p_np P)%nat -> nth i l d = bsd_of W i).
  { intros i d Hi. unfold l. rewrite (nth_indep _ d (bsd_of W 0%nat)) by (rewrite map_length, seq_length; exact Hi).
    rewrite map_nth, seq_nth by exact Hi. reflexivity. }
  assert (IL : forall b, In b l -> exists i, (i < p_np P)%nat /\ b = bsd_of W i).
  { intros b Hb. unfold l in Hb. apply in_map_iff in Hb. destruct Hb as (i & <- & Hi). apply in_seq in Hi. exists i. split; [lia|reflexivity]. }
  assert (LB : length (fst (fst (bcnd o l (w_pud W)))) = length l).
  { destruct (Nat.eq_dec (n_dims o) 0) as [E0|E0]; [unfold bcnd; rewrite E0; reflexivity|].
    apply (C09_exactly_those_outside_are_removed o l (w_pud W) (bsd_of W 0%nat) E0 (proj2 G10)). }
  assert (BN : forall i, b_n (nth i (fst (fst (bcnd o l (w_pud W)))) (bsd_of W i)) = p_n P i \/
                         b_n (nth i (fst (fst (bcnd o l (w_pud W)))) (bsd_of W i)) = 0%N).
  { intros i. destruct (Nat.lt_ge_cases i (p_np P)) as [Hi|Hi]; [|left; rewrite nth_overflow by lia; reflexivity].
    destruct (Nat.eq_dec (n_dims o) 0) as [E0|E0]; [left; unfold bcnd; rewrite E0; cbn [Nat.eqb fst]; rewrite NL by exact Hi; reflexivity|].
    rewrite (proj1 (proj2 (C09_exactly_those_outside_are_removed o l (w_pud W) (bsd_of W i) E0 (proj2 G10)) i ltac:(lia))), NL by exact Hi.
    destruct (_ || _); auto. }
  assert (FS : forall w, fallen_sum o w l = sumR (p_np P) (fun i => if fell_out o (bsd_of W i) then N2R (p_n P i) * w (bsd_of W i) else 0)).
  { intros w. unfold fallen_sum, l. rewrite map_map, <- sumR_seq. reflexivity. }
  split; [|split; [reflexivity|split; [|]]].
  - unfold loose, walls. cbn [w_P w_E set_mult p_np p_rw2 p_rd3 p_n]. fold P. split; [exact O1|]. split; [exact O2|]. split; [exact O3|].
    split; [|exact O6]. intros i. split; [apply O5|]. split; [apply O5|]. fold l. fold o. destruct (BN i) as [-> | ->]; [apply O5|reflexivity].
  - intros w Hw. unfold fallen, escaped, amount, walls. fold W P l o. cbn [w_P set_mult p_np p_n]. destruct (f_parcel F) eqn:EP.
    + cbn [negb andb]. rewrite (sumR_0 (p_np P) (fun _ => 0)) by reflexivity. rewrite !Rplus_0_r. apply sumR_ext. intros i Hi.
      set (V := mk_world _ _ _ _ _ _ _ _). replace (w (bsd_of V i)) with (w (bsd_of W i)) by (apply Hw; reflexivity). clearbody V.
      unfold f_parcel in EP. fold o in EP. unfold bcnd. rewrite EP. cbn [fst]. rewrite NL by exact Hi. reflexivity.
    + assert (E0 : n_dims o <> 0%nat) by (intros E; unfold f_parcel in EP; fold o in EP; rewrite E in EP; discriminate).
      rewrite FS, <- !sumR_plus. apply sumR_ext. intros i Hi. cbn [negb andb].
      destruct (proj2 (C09_exactly_those_outside_are_removed o l (w_pud W) (bsd_of W i) E0 (proj2 G10)) i ltac:(lia)) as [Q _].
      rewrite NL in Q by exact Hi. rewrite Q.
      set (V := mk_world _ _ _ _ _ _ _ _). replace (w (bsd_of V i)) with (w (bsd_of W i)) by (apply Hw; reflexivity). clearbody V.
      change (b_n (bsd_of W i)) with (p_n P i). unfold fell_out.
      assert (TB : left_top o (bsd_of W i) = true -> left_bottom o (bsd_of W i) = true -> False).
      { unfold left_top, left_bottom. intros A B. apply andb_true_iff in A, B. destruct A as [_ A], B as [_ B].
        rewrite Rleb_true in A. rewrite Rltb_true in B. lra. }
      destruct (left_sideways o (bsd_of W i)), (left_top o (bsd_of W i)), (left_bottom o (bsd_of W i)); cbn [negb orb andb];
        try (exfalso; apply TB; reflexivity); try (replace (N2R 0) with 0 by reflexivity); ring.
  - assert (PU : puddle_water (walls F W) = puddle_water W + fallen (water F) W /\
                 p_dry_vol (w_pud (walls F W)) = p_dry_vol (w_pud W) + fallen dry W /\
                 p_prt_num (w_pud (walls F W)) = p_prt_num (w_pud W) + fallen one W).
    { unfold fallen, puddle_water, walls. cbn [w_pud]. fold P l o. destruct (f_parcel F) eqn:EP.
      - unfold f_parcel in EP. fold o in EP. unfold bcnd. rewrite EP. cbn [fst snd]. repeat split; lra.
      - assert (E0 : n_dims o <> 0%nat) by (intros E; unfold f_parcel in EP; fold o in EP; rewrite E in EP; discriminate).
        assert (POS : forall b, In b l -> 0 <= b_rw2 b /\ 0 <= b_rd3 b).
        { intros b Hb. destruct (IL b Hb) as (i & _ & ->). split; apply O5. }
        destruct (C09_puddle_exact o l (w_pud W) E0 (proj2 G10) POS) as (A1 & A2 & A3 & _ & A5 & _). rewrite A1, A2, A3, A5.
        split; [|split; reflexivity]. rewrite G12. rewrite !FS. unfold water.
        destruct (f_ice F).
        + rewrite (sumR_ext _ (fun x => if fell_out o (bsd_of W x) then N2R (p_n P x) * (liquid (bsd_of W x) + ice (bsd_of W x)) else 0)
             (fun x => 1000 * (if fell_out o (bsd_of W x) then N2R (p_n P x) * (4 / 3 * PI * sqrt (b_rw2 (bsd_of W x)) ^ 3) else 0) +
                       (if fell_out o (bsd_of W x) then N2R (p_n P x) * (4 / 3 * PI * b_a (bsd_of W x) ^ 2 * b_c (bsd_of W x) * b_rho (bsd_of W x)) else 0))).
          * rewrite sumR_plus, sumR_scal. ring.
          * intros i _. unfold liquid, ice. destruct (fell_out o (bsd_of W i)); ring.
        + rewrite (sumR_ext _ (fun x => if fell_out o (bsd_of W x) then N2R (p_n P x) * (liquid (bsd_of W x) + 0) else 0)
             (fun x => 1000 * (if fell_out o (bsd_of W x) then N2R (p_n P x) * (4 / 3 * PI * sqrt (b_rw2 (bsd_of W x)) ^ 3) else 0))).
          * rewrite sumR_scal. ring.
          * intros i _. unfold liquid. destruct (fell_out o (bsd_of W i)); ring. }
    destruct PU as (PU1 & PU2 & PU3). split; [exact PU1|]. split; [exact PU2|]. split; [exact PU3|].
    intros i Hi Hn. unfold walls in *. cbn [w_P w_x w_y w_z set_mult p_np p_n] in *. fold P l o in Hi, Hn |- *.
    refine (proj2 (C10_after_boundary_conditions o l (w_pud W) (f_nx F) (f_ny F) (f_nz F) (f_dx F) (f_dy F) (f_dz F) G1 G2 G3 G4 G5 G6 G7 G8 G9 G10 G11 _ _ _ Hn)).
    + intros b Hb. destruct (IL b Hb) as (j & Hj & ->). exact (HN j Hj).
    + apply nth_In. lia.
Qed.

(** the end of a step: every super-droplet kept has the attributes of one that had droplets *)
Lemma survivors_np nvec nchem q p' : survivors nvec nchem q p' -> (np p' <= np q)%nat.
Proof.
  intros (keep & HS & Hin & -> & _). rewrite <- (seq_length (np q) 0). apply NoDup_incl_length.
  - clear - HS. induction HS as [|a l HS IH HA]; constructor; [|exact IH]. intros Hi. rewrite Forall_forall in HA. specialize (HA a Hi). lia.
  - intros i Hi. apply in_seq. apply Hin in Hi. lia.
Qed.
Lemma origin gar garn nmax nvec nchem pcm tmp sid sched opt p p' :
  rcyc_inputs nmax p tmp sid sched -> clean_up gar garn nmax nvec nchem pcm tmp sid sched opt p = Some p' ->
  (np p' <= np p)%nat /\
  forall k, (k < np p')%nat -> mult p' k <> 0%N ->
    exists j, (j < np p)%nat /\ mult p j <> 0%N /\ (mult p' k <= mult p j)%N /\ attrs nvec nchem p' k = attrs nvec nchem p j.
Proof.
  intros HI H. unfold clean_up in H. destruct opt.
  - destruct (C05_recycling_splits_and_removes gar garn nmax nvec nchem pcm tmp sid sched p HI) as (p2 & q & splits & E & (S1 & S2 & S3 & S4) & HP & _).
    rewrite H in E. injection E as <-.
    assert (Q : forall k, (k < np p)%nat -> mult q k <> 0%N ->
      exists j, (j < np p)%nat /\ mult p j <> 0%N /\ (mult q k <= mult p j)%N /\ attrs nvec nchem q k = attrs nvec nchem p j).
    { intros k Hk Hn. destruct (in_dec Nat.eq_dec k (flat_map (fun s => [fst s; snd s]) splits)) as [Hi|Hi].
      - apply in_flat_map in Hi. destruct Hi as ([c d] & Hcd & Hi). destruct (S3 c d Hcd) as (A1 & A2 & A3 & A4 & A5 & A6 & A7 & A8).
        cbn [fst snd] in Hi. exists d. split; [exact A2|]. split; [lia|].
        destruct Hi as [<-|[<-|[]]]; [rewrite A6|rewrite A5]; (split; [|assumption]).
        + lia.
        + pose proof (N.div_le_upper_bound (mult p d) 2 (mult p d) ltac:(lia) ltac:(lia)). lia.
      - destruct (S4 k Hk Hi) as [A B]. exists k. rewrite A in Hn. split; [exact Hk|]. split; [exact Hn|]. split; [lia|]. apply B, Hn. }
    destruct HP as [->|HS].
    + split; [lia|]. intros k Hk. apply Q. lia.
    + split; [rewrite <- S1; apply (survivors_np _ _ _ _ HS)|]. destruct HS as (keep & _ & K1 & K2 & K3). intros k Hk Hn. destruct (K3 k Hk) as [A B].
      assert (I : In (nth k keep 0%nat) keep) by (apply nth_In; lia). apply K1 in I.
      destruct (Q (nth k keep 0%nat) ltac:(lia) (proj2 I)) as (j & J1 & J2 & J3 & J4). exists j. rewrite A, B. auto.
  - destruct HI as (HI & _). destruct (remove_n0_survivors gar garn nmax nvec nchem p HI) as (p2 & E & HS & HL). rewrite H in E. injection E as <-.
    split; [exact HL|]. destruct HS as (keep & _ & K1 & K2 & K3). intros k Hk Hn. destruct (K3 k Hk) as [A B].
    assert (I : In (nth k keep 0%nat) keep) by (apply nth_In; lia). apply K1 in I.
    exists (nth k keep 0%nat). rewrite A, B. split; [apply I|]. split; [apply I|]. split; [lia|reflexivity].
Qed.

Lemma nth_attrs nvec p i v : (v < nvec)%nat -> nth v (attrs nvec 0 p i) 0 = vec p v i.
Proof.
  intros H. unfold attrs. rewrite app_nil_r. rewrite (nth_indep _ 0 (vec p 0%nat i)) by (rewrite map_length, seq_length; exact H).
  change (vec p 0%nat i) with ((fun v => vec p v i) 0%nat). rewrite map_nth, seq_nth by exact H. reflexivity.
Qed.
Definition decode (l : list R) : bsd := mk_bsd 0 0 0 0 (nth 1 l 0) (nth 0 l 0) (nth 10 l 0) (nth 11 l 0) (nth 12 l 0) (fun _ => 0).

Lemma tidy_part so V W' : tidy F so V W' -> loose V ->
  (so_rcyc so = true -> pure_const_multi (f_co F) = true \/ has_one (pop_of V) \/ (2 * number_of_zeros (pop_of V) <= p_np (w_P V))%nat) ->
  (forall i, (i < p_np (w_P V))%nat -> p_n (w_P V) i <> 0%N ->
     (hskpng_ijk (n_dims (f_b F)) (f_ny F) (f_nz F) (f_dx F) (f_dy F) (f_dz F) (w_x V i) (w_y V i) (w_z V i) < n_cell (f_nx F) (f_ny F) (f_nz F))%nat) ->
  state_ok F W' /\ (forall w, intrinsic w -> amount w W' = amount w V) /\ vapour F W' = vapour F V /\ w_pud W' = w_pud V /\
  forall i, (i < p_np (w_P W'))%nat -> p_n (w_P W') i <> 0%N.
Proof.
  intros (gar & garn & tmp & sid & sched & p' & Hsort & Hsch & Hc & ->) (O1 & O2 & O3 & O5 & O6) Hd Hij.
  set (p := pop_of V) in *.
  assert (RI : rcyc_inputs (f_max F) p tmp sid sched) by (split; [exact O1|split; [exact Hsort|exact Hsch]]).
  assert (NZ : forall k, (k < np p')%nat -> mult p' k <> 0%N).
  { apply (proj2 (C06_no_zero_left_iff_partial _ _ _ _ _ _ _ _ _ _ _ _ RI Hc)). destruct (so_rcyc so); [|auto].
    destruct (Hd eq_refl) as [A|[A|A]]; auto. }
  destruct (origin _ _ _ _ _ _ _ _ _ _ _ _ RI Hc) as [NP OR].
  assert (V14 : (14 <= n_vec F)%nat) by (unfold n_vec; destruct (f_exact F); lia).
  assert (AT : forall k, (k < np p')%nat -> exists j, (j < p_np (w_P V))%nat /\ p_n (w_P V) j <> 0%N /\ (mult p' k <= p_n (w_P V) j)%N /\
                forall v, (v < 14)%nat -> vec p' v k = vec_of V v j).
  { intros k Hk. destruct (OR k Hk (NZ k Hk)) as (j & J1 & J2 & J3 & J4). exists j. split; [exact J1|]. split; [exact J2|]. split; [exact J3|].
    intros v Hv. rewrite <- (nth_attrs (n_vec F) p' k v) by lia. rewrite J4, nth_attrs by lia. reflexivity. }
  split; [|split; [|split; [|split]]].
  - unfold state_ok, with_pop. cbn [w_P w_E p_np p_ijk p_n p_rw2 p_rd3]. split; [pose proof (Nat.le_trans _ _ _ NP O1); assumption|].
    split; [exact O2|]. split; [exact O3|]. split; [|split].
    + intros k Hk. destruct (AT k Hk) as (j & J1 & J2 & J3 & J4). rewrite !J4 by lia. cbn [vec_of]. rewrite O2. apply (Hij j J1 J2).
    + intros k. destruct (Nat.ltb_spec k (np p')) as [Hk|Hk]; [|repeat split; try lra; reflexivity].
      destruct (AT k Hk) as (j & J1 & J2 & J3 & J4). rewrite !J4 by lia. cbn [vec_of]. destruct (O5 j) as (A & B & C).
      split; [exact A|]. split; [exact B|]. lia.
    + intros EI k. unfold ice_attr. cbn [p_rw2 p_ia p_ic p_irho].
      destruct (Nat.ltb_spec k (np p')) as [Hk|Hk]; [|left; unfold is_liquid; repeat split; lra].
      destruct (AT k Hk) as (j & J1 & J2 & J3 & J4). rewrite !J4 by lia. cbn [vec_of]. apply (O6 EI j).
  - intros w Hw. destruct (C05_totals_conserved gar garn (f_max F) (n_vec F) 0 (pure_const_multi (f_co F)) tmp sid sched (so_rcyc so) p
        (fun l => w (decode l)) RI) as (p2 & E & T). rewrite Hc in E. injection E as <-. unfold total in T. unfold amount.
    transitivity (sumR (np p') (fun i => N2R (mult p' i) * w (decode (attrs (n_vec F) 0 p' i)))).
    + unfold with_pop. cbn [w_P p_np p_n]. apply sumR_ext. intros i Hi. destruct (Nat.ltb_spec i (np p')); [|lia]. f_equal.
      apply Hw; unfold bsd_of, decode; cbn [w_P b_rw2 b_rd3 b_a b_c b_rho p_rw2 p_rd3 p_ia p_ic p_irho];
        rewrite nth_attrs by lia; destruct (Nat.ltb_spec i (np p')); try lia; reflexivity.
    + rewrite T. unfold p, pop_of. cbn [np mult]. apply sumR_ext. intros i Hi. f_equal.
      apply Hw; unfold bsd_of, decode; cbn [b_rw2 b_rd3 b_a b_c b_rho]; rewrite nth_attrs by lia; reflexivity.
  - reflexivity.
  - reflexivity.
  - intros i Hi. unfold with_pop in *. cbn [w_P p_np p_n] in *. destruct (Nat.ltb_spec i (np p')); [|lia]. apply NZ, Hi.
Qed.

(** a whole step *)
Lemma step_part so s : step F so s -> step_ok F (so, s) -> state_ok F (at_start s) ->
  state_ok F (at_end s) /\
  vapour F (at_end s) + amount (water F) (at_end s) + puddle_water (at_end s) + escaped F (water F) s =
    vapour F (at_start s) + amount (water F) (at_start s) + puddle_water (at_start s) + from_host F s + added (water F) s /\
  amount dry (at_end s) + p_dry_vol (w_pud (at_end s)) + escaped F dry s =
    amount dry (at_start s) + p_dry_vol (w_pud (at_start s)) + added dry s /\
  amount one (at_end s) + p_prt_num (w_pud (at_end s)) + escaped F one s <=
    amount one (at_start s) + p_prt_num (w_pud (at_start s)) + added one s /\
  (so_coal so = false -> amount one (at_end s) + p_prt_num (w_pud (at_end s)) + escaped F one s =
    amount one (at_start s) + p_prt_num (w_pud (at_start s)) + added one s) /\
  forall i, (i < p_np (w_P (at_end s)))%nat -> p_n (w_P (at_end s)) i <> 0%N.
Proof.
  intros (W2 & W3 & W4 & W5 & H1 & H2 & H3 & H4 & H5 & H6 & H7 & H8) (K1 & K2 & K3 & K4 & K5 & K6 & K7) HW. cbn [fst snd] in *.
  destruct (sync_part so _ _ H1 HW) as (A1 & A2 & A3 & A4 & A5 & A6 & A7).
  destruct (nucl_part so _ _ H2 K1 K2 A1) as ((B1 & B2 & B3 & B4) & B5 & B6 & B7 & B8 & B9).
  assert (AC : accurate so W2).
  { intros Hc. destruct (K6 Hc) as [Q|[Q|(Q1 & Q2 & Q3 & Q4)]]; [left; exact Q|right; left; exact Q|right; right].
    split; [exact Q1|]. split; [exact Q2|]. split; [exact Q3|]. intros i Hi. rewrite B7, B8, B9. apply Q4. rewrite <- B6. exact Hi. }
  destruct (cond_step so _ _ H3 K1 K2 K3 K4 AC B1) as ((C1 & C2 & C3 & C4) & C5).
  destruct (prepare_part so _ _ H4 K1 C1) as ((D1 & D2 & D3 & D4) & D5 & _).
  destruct (coalescence_part so _ _ H5 K5 D1) as ((E1 & E2 & E3 & E4) & E5 & E6). unfold shrinks in E5.
  destruct (motion_part _ _ H6 E1) as (G1 & G2 & G3 & G4 & G5).
  destruct (sources_part s H7 G1 G2) as (I1 & I2 & I3 & I4 & I5).
  destruct (walls_part s I1 I2) as (J1 & J2 & J3 & J4 & J5 & J6 & J7).
  destruct (tidy_part so _ _ H8 J1 K7 J7) as (L1 & L2 & L3 & L4 & L5).
  pose proof (G3 _ (water_intrinsic F)) as Gw. pose proof (G3 _ dry_intrinsic) as Gd. pose proof (G3 _ one_intrinsic) as Go.
  pose proof (I3 _ (water_intrinsic F)) as Iw. pose proof (I3 _ dry_intrinsic) as Id. pose proof (I3 _ one_intrinsic) as Io.
  pose proof (J3 _ (water_intrinsic F)) as Jw. pose proof (J3 _ dry_intrinsic) as Jd. pose proof (J3 _ one_intrinsic) as Jo.
  pose proof (L2 _ (water_intrinsic F)) as Lw. pose proof (L2 _ dry_intrinsic) as Ld. pose proof (L2 _ one_intrinsic) as Lo.
  assert (PW : w_pud (at_added s) = w_pud (at_start s)) by congruence.
  assert (PE : puddle_water (at_added s) = puddle_water (at_start s)) by (unfold puddle_water; rewrite PW; reflexivity).
  assert (PE2 : puddle_water (at_end s) = puddle_water (walls F (at_added s))) by (unfold puddle_water; rewrite L4; reflexivity).
  split; [exact L1|]. unfold from_host. rewrite L4, J5, J6, PW.
  set (Wa := at_added s) in *. set (Wm := at_moved s) in *. set (Ws := at_start s) in *. set (Wy := at_synced s) in *. set (We := at_end s) in *.
  split; [lra|]. split; [lra|]. split; [lra|]. split; [|exact L5].
  intros Hc. rewrite (E6 Hc) in *. lra.
Qed.
End Parts.

(** ** C81 *)
Lemma run_budget F : setup_ok F -> forall W l W', run F W l W' -> state_ok F W -> Forall (step_ok F) l ->
  state_ok F W' /\
  vapour F W' + amount (water F) W' + puddle_water W' + over (escaped F (water F)) l =
    vapour F W + amount (water F) W + puddle_water W + over (from_host F) l + over (added (water F)) l /\
  amount dry W' + p_dry_vol (w_pud W') + over (escaped F dry) l = amount dry W + p_dry_vol (w_pud W) + over (added dry) l /\
  amount one W' + p_prt_num (w_pud W') + over (escaped F one) l <= amount one W + p_prt_num (w_pud W) + over (added one) l /\
  (Forall (fun t => so_coal (fst t) = false) l ->
   amount one W' + p_prt_num (w_pud W') + over (escaped F one) l = amount one W + p_prt_num (w_pud W) + over (added one) l).
Proof.
  intros HF W l W' H. induction H as [W|so s l W' Hs Hr IH]; intros HW HO.
  - unfold over. cbn. split; [exact HW|]. repeat split; intros; lra.
  - inversion HO as [|? ? HO1 HO2]; subst.
    destruct (step_part F HF so s Hs HO1 HW) as (A1 & A2 & A3 & A4 & A5 & A6).
    destruct (IH A1 HO2) as (B1 & B2 & B3 & B4 & B5).
    assert (OV : forall f, over f ((so, s) :: l) = f s + over f l) by (intros f; reflexivity). rewrite !OV.
    split; [exact B1|]. split; [lra|]. split; [lra|]. split; [lra|].
    intros HC. inversion HC as [|? ? HC1 HC2]; subst. specialize (A5 HC1). specialize (B5 HC2). lra.
Qed.

(** C81, water: over any run, the water in the domain (vapour, liquid and ice) and on the ground changes exactly by what the host model
    did to the vapour field, what sources brought and what left through open side walls and the top *)
Theorem C81_water F W l W' : setup_ok F -> run F W l W' -> state_ok F W -> Forall (step_ok F) l ->
  vapour F W' + amount (water F) W' + puddle_water W' + over (escaped F (water F)) l =
  vapour F W + amount (water F) W + puddle_water W + over (from_host F) l + over (added (water F)) l.
Proof. intros HF H HW HO. apply (run_budget F HF W l W' H HW HO). Qed.
(** C81, aerosol: the same for the volume of dry aerosol *)
Theorem C81_dry_aerosol F W l W' : setup_ok F -> run F W l W' -> state_ok F W -> Forall (step_ok F) l ->
  amount dry W' + p_dry_vol (w_pud W') + over (escaped F dry) l = amount dry W + p_dry_vol (w_pud W) + over (added dry) l.
Proof. intros HF H HW HO. apply (run_budget F HF W l W' H HW HO). Qed.
(** C81, number: only collisions reduce the number of particles; without them it is conserved *)
Theorem C81_number F W l W' : setup_ok F -> run F W l W' -> state_ok F W -> Forall (step_ok F) l ->
  amount one W' + p_prt_num (w_pud W') + over (escaped F one) l <= amount one W + p_prt_num (w_pud W) + over (added one) l /\
  (Forall (fun t => so_coal (fst t) = false) l ->
   amount one W' + p_prt_num (w_pud W') + over (escaped F one) l = amount one W + p_prt_num (w_pud W) + over (added one) l).
Proof. intros HF H HW HO. pose proof (run_budget F HF W l W' H HW HO) as Q. split; apply Q. Qed.
(** C81, state: after any run every super-droplet is in a cell of the grid, sizes are not negative, and with ice every super-droplet is
    either liquid or ice; after at least one step every super-droplet has droplets *)
Theorem C81_state F W l W' : setup_ok F -> run F W l W' -> state_ok F W -> Forall (step_ok F) l ->
  state_ok F W' /\ (l <> [] -> forall i, (i < p_np (w_P W'))%nat -> p_n (w_P W') i <> 0%N).
Proof.
  intros HF H HW HO. split; [apply (run_budget F HF W l W' H HW HO)|]. revert HW HO. induction H as [W|so s l W' Hs Hr IH]; intros HW HO Hl; [congruence|].
  inversion HO as [|? ? HO1 HO2]; subst. destruct (step_part F HF so s Hs HO1 HW) as (A1 & _ & _ & _ & _ & A6).
  destruct l as [|t l]; [inversion Hr; subst; exact A6|]. apply IH; [exact A1|exact HO2|discriminate].
Qed.

(** an instance: a domain of one cell, two super-droplets; in a step with condensation and collisions the second one falls out, and a
    source adds one that leaves sideways *)
Definition ex_b : bopts := mk_bopts 2 0 1 0 1 0 1 true false false false false false false.
Definition ex_F : setup := mk_setup ex_b 1 0 1 1 1 1 false false (CoalModel.mk_copts false 1 0 1 false false false) 10.
Definition ex_so : sopts :=
  mk_sopts (inst_pc 1) true {| i_time_dep := false; i_T_freeze := fun _ => 0; i_rd2_insol := fun _ => 0; i_u01 := fun _ => 0 |}
    false true true 1 false.
Definition ex_W : world :=
  mk_world (mk_parts 2 (fun _ => 0%nat) (fun i => if (i =? 0)%nat then 4%N else 3%N) (fun _ => 1) (fun _ => 1) (fun _ => 1) (fun _ => 0)
              (fun _ => 0) (fun _ => 0) (fun _ => 0) (fun _ => 0) (fun _ => 0) (fun _ => 1))
    (mk_cells 1 (fun _ => 1 / 100) (fun _ => 300) (fun _ => 1) (fun _ => 100000) (fun _ => 300) (fun _ => 1) (fun _ => 1) (fun _ => 1) (fun _ => 1))
    (mk_tmps (fun _ => 1 / 100) (fun _ => 300) (fun _ => 1) (fun _ => 100000)) (fun _ => 1 / 2) (fun _ => 0) (fun _ => 1 / 2) (fun _ => 0)
    (mk_puddle 0 0 0 0 0 0 (fun _ => 0)).
Lemma ex_setup_ok : setup_ok ex_F.
Proof. unfold setup_ok, ex_F, ex_b, grid_dims. cbn. repeat split; try lra; try lia; try discriminate; left; lra. Qed.
Lemma ex_state_ok : state_ok ex_F ex_W.
Proof.
  unfold state_ok, ex_F, ex_W, n_cell, m1. cbn. split; [lia|]. split; [reflexivity|]. split; [intros; lra|]. split; [intros; lia|]. split; [|discriminate].
  intros i. split; [lra|]. split; [lra|]. destruct (i =? 0)%nat; reflexivity.
Qed.
(** a collision does not change the multiplicity of the less numerous of two super-droplets *)
Lemma ex_pair kernel dt dv nc gn gr u01 sds st : (CoalModel.n (sds 1%nat) <= CoalModel.n (sds 0%nat))%N ->
  coal kernel dt dv (f_co ex_F) nc gn gr [0;1]%nat [0;0]%nat 2 (fun _ => [0%nat]) u01 sds = Some st ->
  CoalModel.n (arr st 1%nat) = CoalModel.n (sds 1%nat).
Proof.
  intros Hn H. unfold coal in H. injection H as <-. cbn [f_co ex_F follow_ups chem_switch mix_kappa_on n_dry_distros n_dry_sizes Nat.ltb Nat.leb Nat.add
    diag_incloud_time act_sstp app fold_left snd arr]. unfold collider_step.
  destruct (Nat.odd _); [reflexivity|]. destruct (negb _); [reflexivity|].
  cbn [arr CoalModel.sid nth]. unfold collider_pair. cbv zeta. set (c1 := if Rltb _ _ then _ else _). clearbody c1.
  destruct (c1 =? 0)%N; [reflexivity|]. apply N.leb_le in Hn. rewrite Hn. set (c := if (0 <? _)%N then _ else _). unfold collide. reflexivity.
Qed.
Lemma ex_stage1 : exists W1 W3, sync_in ex_so ex_W W1 /\ accurate ex_so W1 /\ cond ex_so W1 W3 /\ state_ok ex_F W3 /\
  p_np (w_P W3) = 2%nat /\ p_ijk (w_P W3) = (fun _ => 0%nat) /\ p_n (w_P W3) = (fun i => if (i =? 0)%nat then 4%N else 3%N) /\ w_pud W3 = mk_puddle 0 0 0 0 0 0 (fun _ => 0).
Proof.
  pose proof ex_setup_ok as HF. pose proof ex_state_ok as HW.
  set (g := mk_junk (fun _ => 0) (fun _ => 0) (fun _ => 0) (fun _ => 0)).
  set (E0 := mk_cells 1 (fun _ => 1 / 100) (fun _ => 300) (fun _ => 1) (fun _ => 100000) (fun _ => 300) (fun _ => 1) (fun _ => 1) (fun _ => 1) (fun _ => 1)).
  set (W1 := with_E ex_W E0).
  assert (H1 : sync_in ex_so ex_W W1).
  { exists (fun _ => 1 / 100), (fun _ => 300), (fun _ => 1). split; [reflexivity|]. split; [intros; lra|]. reflexivity. }
  destruct (sync_part ex_F ex_so ex_W W1 H1 HW) as (A1 & _).
  (* condensation *)
  set (st := sstp_save (inst_pc 1) true (l_st (percell_loop (inst_pc 1) g (mfp_D E0) (mfp_K E0) [0;0]%nat [0;1]%nat 2 (mk_pcst (cst_of W1) (g_rw g) (g_ice g))))).
  assert (SRT : sort_helper true [0;0]%nat [0;0]%nat [0;1]%nat) by exact ex_sort.
  assert (HC : cond_part (inst_pc 1) true g [0;0]%nat [0;1]%nat (cst_of W1) st) by (apply (cp_percell (inst_pc 1) true g [0;0]%nat [0;1]%nat (cst_of W1)); reflexivity).
  assert (H3 : cond ex_so W1 (with_cst W1 st)).
  { unfold cond. cbn [so_cond ex_so]. exists g, [0;0]%nat, [0;1]%nat, st. split; [exists true; exact SRT|]. split; [exact HC|reflexivity]. }
  destruct (cond_frame (inst_pc 1) true g _ _ _ _ HC ltac:(cbn; lia) (fun i => proj1 (proj1 (proj2 (proj2 (proj2 (proj2 A1)))) i))) as ((S1 & S2 & S3) & _ & C2 & _).
  assert (AC : accurate ex_so W1) by (intros _; left; split; [reflexivity|left; reflexivity]).
  destruct (cond_step ex_F HF ex_so W1 _ H3 eq_refl eq_refl eq_refl ltac:(cbn; lia) AC A1) as ((B1 & _ & _ & B4) & _).
  set (W3 := with_cst W1 st) in *.
  assert (N3 : p_np (w_P W3) = 2%nat) by (cbn [W3 with_cst w_P]; exact S1).
  assert (I3 : p_ijk (w_P W3) = fun _ => 0%nat) by (cbn [W3 with_cst w_P]; exact S2).
  assert (M3 : p_n (w_P W3) = fun i => if (i =? 0)%nat then 4%N else 3%N) by (cbn [W3 with_cst w_P]; exact S3).
  assert (U3 : w_pud W3 = mk_puddle 0 0 0 0 0 0 (fun _ => 0)) by reflexivity.
  exists W1, W3. auto 10.
Qed.
Lemma ex_stage2 W3 : state_ok ex_F W3 -> p_np (w_P W3) = 2%nat -> p_ijk (w_P W3) = (fun _ => 0%nat) ->
  p_n (w_P W3) = (fun i => if (i =? 0)%nat then 4%N else 3%N) -> w_pud W3 = mk_puddle 0 0 0 0 0 0 (fun _ => 0) ->
  exists W4 W6, prepare ex_so W3 W4 /\ coalescence ex_F ex_so W4 W6 /\ state_ok ex_F W6 /\ p_np (w_P W6) = 2%nat /\ p_n (w_P W6) 1%nat = 3%N /\ w_pud W6 = mk_puddle 0 0 0 0 0 0 (fun _ => 0).
Proof.
  intros B1 N3 I3 M3 U3. assert (SRT : sort_helper true [0;0]%nat [0;0]%nat [0;1]%nat) by exact ex_sort.
  set (W4 := with_P (with_E W3 (hskpng_Tpr (so_c ex_so) (w_E W3))) (set_vt (w_P W3) (fun _ => 0))).
  assert (H4 : prepare ex_so W3 W4) by (exists (fun _ => 0); reflexivity).
  destruct (prepare_part ex_F ex_so W3 W4 H4 eq_refl B1) as ((D1 & _ & _ & D4) & _).
  assert (N4 : p_np (w_P W4) = 2%nat) by exact N3. assert (I4 : p_ijk (w_P W4) = fun _ => 0%nat) by exact I3.
  assert (M4 : p_n (w_P W4) = fun i => if (i =? 0)%nat then 4%N else 3%N) by exact M3. clearbody W4.
  destruct (coal (fun _ _ _ => 3) 1 (e_dv (w_E W4)) (f_co ex_F) (e_nc (w_E W4)) (fun _ => 0%nat) (fun _ => 0) [0;1]%nat [0;0]%nat 2
              (fun _ => [0%nat]) (fun _ => 0) (sd_of W4)) as [st|] eqn:EC; [|discriminate EC].
  assert (PAIR : CoalModel.n (arr st 1%nat) = 3%N).
  { assert (Q : forall i, CoalModel.n (sd_of W4 i) = if (i =? 0)%nat then 4%N else 3%N) by (intros i; unfold sd_of; cbn [CoalModel.n]; rewrite M4; reflexivity).
    assert (LE : (CoalModel.n (sd_of W4 1%nat) <= CoalModel.n (sd_of W4 0%nat))%N) by (rewrite !Q; cbn; lia).
    exact (eq_trans (ex_pair _ _ _ _ _ _ _ (sd_of W4) st LE EC) (Q 1%nat)). }
  set (W5 := with_P (with_sds W4 (arr st)) (set_vt (w_P (with_sds W4 (arr st))) (fun _ => 0))).
  assert (H5' : coal_pass ex_F W4 W5).
  { exists (fun _ _ _ => 3), 1, (fun _ => 0%nat), (fun _ => 0), [0;0]%nat, [0;1]%nat, (fun _ => [0%nat]), (fun _ => 0), st, (fun _ => 0).
    cbv zeta. rewrite N4, I4. cbn [seq map length]. split; [intros; lra|]. split; [lra|]. split; [intros; apply Permutation_refl|].
    split; [exact SRT|]. split; [exact EC|reflexivity]. }
  destruct (coal_pass_part ex_F W4 W5 H5' eq_refl D1) as ((F1 & _ & _ & F4) & _).
  set (W6 := with_P W5 (set_rc2 (w_P W5) (fun _ => 1))).
  assert (H5 : coalescence ex_F ex_so W4 W6).
  { unfold coalescence. cbn [so_coal ex_so]. exists W5, (fun _ => 1). split; [|reflexivity]. cbn [coal_passes so_sstp_coal ex_so]. exists W5. auto. }
  destruct (coalescence_part ex_F ex_so W4 W6 H5 ltac:(discriminate) D1) as ((G1 & _ & _ & G4) & _).
  assert (N6 : p_np (w_P W6) = 2%nat) by exact N4. assert (M6 : p_n (w_P W6) 1%nat = 3%N) by exact PAIR.
  exists W4, W6. split; [exact H4|]. split; [exact H5|]. split; [exact G1|]. split; [exact N6|]. split; [exact M6|]. congruence.
Qed.
Lemma ex_stage3 W1 W6 : state_ok ex_F W6 -> p_np (w_P W6) = 2%nat -> p_n (w_P W6) 1%nat = 3%N -> w_pud W6 = mk_puddle 0 0 0 0 0 0 (fun _ => 0) ->
  exists W7 W8 W9, motion ex_F W6 W7 /\ sources ex_F W7 W8 /\
    (forall i, (p_np (w_P W7) <= i < p_np (w_P W8))%nat -> p_rd3 (w_P W8) i = 1 /\ p_rw2 (w_P W8) i = 1) /\
    walls ex_F W8 = W9 /\ loose ex_F W9 /\
    (forall e, added one (mk_ss ex_W W1 W7 W8 e) = 2 /\ escaped ex_F one (mk_ss ex_W W1 W7 W8 e) = 2) /\ p_prt_num (w_pud W9) = 3 /\
    exists tmp sid, sort_by_key_result (map (fun i => N.to_nat (p_n (w_P W9) i)) (seq 0 (p_np (w_P W9)))) (seq 0 (p_np (w_P W9))) tmp sid.
Proof.
  intros G1 N6 M6 U6. pose proof ex_setup_ok as HF.
  set (W7 := with_pos (with_P W6 (set_turb (w_P W6) (fun _ => 0) (fun _ => 0))) (fun _ => 1 / 2) (fun _ => 0) (fun i => if (i =? 0)%nat then 1 / 2 else -1)).
  assert (H6 : motion ex_F W6 W7).
  { exists (fun _ => 0), (fun _ => 0), (fun _ => 1 / 2), (fun _ => 0), (fun i => if (i =? 0)%nat then 1 / 2 else -1). split; [|reflexivity].
    intros i _. unfold near, ex_F, ex_b. cbn. destruct (i =? 0)%nat; lra. }
  destruct (motion_part ex_F W6 W7 H6 G1) as (I1 & I2 & _ & _ & I5).
  (* a source *)
  set (P8 := mk_parts 3 (p_ijk (w_P W7)) (fun i => if (i <? 2)%nat then p_n (w_P W7) i else 2%N)
                      (fun i => if (i <? 2)%nat then p_rw2 (w_P W7) i else 1) (fun i => if (i <? 2)%nat then p_rd3 (w_P W7) i else 1)
                      (p_kpa (w_P W7)) (fun _ => 0) (fun i => if (i <? 2)%nat then p_ia (w_P W7) i else 0) (fun i => if (i <? 2)%nat then p_ic (w_P W7) i else 0)
                      (fun i => if (i <? 2)%nat then p_irho (w_P W7) i else 0) (fun _ => 0) (fun _ => 0) (fun _ => 1)).
  set (W8 := mk_world P8 (w_E W7) (w_S W7) (fun i => if (i <? 2)%nat then 1 / 2 else 5) (fun _ => 0) (w_z W7) (w_ict W7) (w_pud W7)).
  assert (H7 : sources ex_F W7 W8).
  { unfold sources. cbv zeta. assert (N7 : p_np (w_P W7) = 2%nat) by exact N6. rewrite N7. cbn [W8 w_P P8 p_np w_E w_pud p_n p_rw2 p_rd3 p_ia p_ic p_irho w_x w_y w_z].
    split; [cbn; lia|]. split; [reflexivity|]. split; [reflexivity|]. split; [|split; [|reflexivity]]; intros i Hi.
    - destruct (Nat.ltb_spec i 2); [|lia]. split; [split; [lia|apply I1]|]. repeat split; reflexivity.
    - destruct (Nat.ltb_spec i 2); [lia|]. repeat split; try reflexivity; try lra; unfold ex_F, ex_b; cbn; try lra.
      destruct (i =? 0)%nat; lra. }
  set (s0 := mk_ss ex_W W1 W7 W8 W8).
  destruct (sources_part ex_F s0 H7 I1 I2) as (J1 & J2 & _ & _ & J5).
  destruct (walls_part ex_F HF s0 J1 J2) as (K1 & _ & _ & _ & _ & K6 & K7). cbn [s0 at_added] in K1, K6, K7.
  set (W9 := walls ex_F W8) in *.
  assert (LB1 : left_bottom ex_b (bsd_of W8 1%nat) = true).
  { unfold left_bottom. cbn [has_vertical_walls ex_b n_dims periodic_topbot Nat.ltb Nat.leb negb andb]. apply Rltb_true. cbn. lra. }
  assert (LS : forall i, left_sideways ex_b (bsd_of W8 i) = negb (i <? 2)%nat).
  { intros i. unfold left_sideways. cbn [ex_b n_dims distmem open_side_walls Nat.eqb andb orb bsd_of b_x x0 x1 W8 w_x]. rewrite orb_false_r.
    destruct (i <? 2)%nat; cbn [negb]; [apply orb_false_iff; split; [apply Rltb_false|apply Rleb_false]; lra|apply orb_true_iff; right; apply Rleb_true; lra]. }
  assert (LT : forall i, left_top ex_b (bsd_of W8 i) = false).
  { intros i. unfold left_top. cbn [has_vertical_walls ex_b n_dims periodic_topbot Nat.ltb Nat.leb negb andb bsd_of b_z z1 W8 w_z W7 with_pos].
    apply Rleb_false. destruct (i =? 0)%nat; lra. }
  assert (LB0 : left_bottom ex_b (bsd_of W8 0%nat) = false).
  { unfold left_bottom. cbn [has_vertical_walls ex_b n_dims periodic_topbot Nat.ltb Nat.leb negb andb bsd_of b_z z0 W8 w_z W7 with_pos Nat.eqb].
    apply Rltb_false. lra. }
  assert (LS2 : left_sideways ex_b (bsd_of W8 2%nat) = true) by (rewrite LS; reflexivity).
  assert (ST : exists tmp sid, sort_by_key_result (map (fun i => N.to_nat (p_n (w_P W9) i)) (seq 0 (p_np (w_P W9)))) (seq 0 (p_np (w_P W9))) tmp sid).
  { assert (N9 : p_np (w_P W9) = 3%nat) by reflexivity. rewrite N9. cbn [seq map].
    assert (Z1 : p_n (w_P W9) 1%nat = 0%N /\ p_n (w_P W9) 2%nat = 0%N).
    { destruct (C09_exactly_those_outside_are_removed ex_b (map (bsd_of W8) (seq 0 3)) (w_pud W8) (bsd_of W8 1%nat) ltac:(discriminate) ltac:(cbn; lra)) as (_ & Q).
      destruct (Q 1%nat ltac:(cbn; lia)) as [Q1 _].
      destruct (C09_exactly_those_outside_are_removed ex_b (map (bsd_of W8) (seq 0 3)) (w_pud W8) (bsd_of W8 2%nat) ltac:(discriminate) ltac:(cbn; lra)) as (_ & Q').
      destruct (Q' 2%nat ltac:(cbn; lia)) as [Q2 _]. split.
      - refine (eq_trans Q1 _). cbn [map seq nth]. replace (left_bottom ex_b (bsd_of W8 1%nat)) with true by (symmetry; exact LB1). rewrite orb_true_r. reflexivity.
      - refine (eq_trans Q2 _). cbn [map seq nth]. replace (left_sideways ex_b (bsd_of W8 2%nat)) with true by (symmetry; exact LS2). reflexivity. }
    destruct Z1 as [Z1 Z2]. rewrite Z1, Z2. exists [0; 0; N.to_nat (p_n (w_P W9) 0%nat)]%nat, [1; 2; 0]%nat.
    split; [reflexivity|]. split; [reflexivity|]. split; [|repeat constructor; lia].
    cbn [combine]. set (a := (N.to_nat (p_n (w_P W9) 0%nat), 0%nat)). exact (Permutation_cons_append [(N.to_nat 0, 1%nat); (N.to_nat 0, 2%nat)] a). }
  exists W7, W8, W9. split; [exact H6|]. split; [exact H7|]. split.
  { intros i. rewrite (N6 : p_np (w_P W7) = 2%nat). cbn [W8 w_P P8 p_np p_rd3 p_rw2]. intros Hi. destruct (Nat.ltb_spec i 2); [lia|split; reflexivity]. }
  split; [reflexivity|]. split; [exact K1|]. split; [intros e; split|split; [|exact ST]].
  - unfold added. cbn [at_added at_moved]. rewrite (N6 : p_np (w_P W7) = 2%nat). cbn [W8 w_P P8 p_np sumR p_n].
    unfold one. cbn [Nat.ltb Nat.leb]. unfold N2R at 5. cbn. lra.
  - unfold escaped. cbn [at_added]. unfold f_parcel. cbn [ex_F f_b ex_b n_dims Nat.eqb negb andb W8 w_P P8 p_np sumR p_n].
    rewrite !LS, !LT. cbn [Nat.ltb Nat.leb negb orb]. unfold one, N2R. cbn. lra.
  - rewrite K6. change (w_pud W8) with (w_pud W7). rewrite I5, U6.
    unfold fallen, f_parcel. cbn [ex_F f_b ex_b n_dims Nat.eqb p_prt_num W8 w_P P8 p_np seq map]. fold W8. unfold fallen_sum. cbn [map lsumR fold_right].
    unfold fell_out. fold ex_b. rewrite LB0, LB1, !LS. cbn [Nat.ltb Nat.leb negb andb].
    assert (M8 : b_n (bsd_of W8 1%nat) = 3%N) by exact M6. rewrite M8, andb_false_r. unfold one, N2R. cbn. lra.
Qed.
Theorem C81_instance : exists s W',
  setup_ok ex_F /\ state_ok ex_F ex_W /\ at_start s = ex_W /\ run ex_F ex_W [(ex_so, s)] W' /\ Forall (step_ok ex_F) [(ex_so, s)] /\
  amount one ex_W = 7 /\ over (added one) [(ex_so, s)] = 2 /\ over (escaped ex_F one) [(ex_so, s)] = 2 /\ p_prt_num (w_pud W') = 3.
Proof.
  destruct ex_stage1 as (W1 & W3 & H1 & AC & H3 & B1 & N3 & I3 & M3 & U3).
  destruct (ex_stage2 W3 B1 N3 I3 M3 U3) as (W4 & W6 & H4 & H5 & G1 & N6 & M6 & U6).
  destruct (ex_stage3 W1 W6 G1 N6 M6 U6) as (W7 & W8 & W9 & H6 & H7 & _ & H8 & K1 & AE & PN & tmp & sid & ST).
  destruct (C05_totals_conserved (fun _ => 0) (fun _ => 0%N) (f_max ex_F) (n_vec ex_F) 0 false tmp sid (fun l m => seq 0 m) false (pop_of W9) (fun _ => 0)
     (conj (proj1 K1) (conj ST (fun l m => Permutation_refl (seq 0 m))))) as (p' & EP & _).
  exists (mk_ss ex_W W1 W7 W8 (with_pop ex_F W9 p')), (with_pop ex_F W9 p').
  split; [exact ex_setup_ok|]. split; [exact ex_state_ok|]. split; [reflexivity|]. split; [|split; [|split; [|split; [|split]]]].
  - refine (run_cons ex_F ex_so (mk_ss ex_W W1 W7 W8 (with_pop ex_F W9 p')) [] _ _ (run_nil ex_F _)).
    exists W1, W3, W4, W6. cbn [at_start at_synced at_moved at_added at_end]. split; [exact H1|]. split; [reflexivity|]. split; [exact H3|].
    split; [exact H4|]. split; [exact H5|]. split; [exact H6|]. split; [exact H7|]. rewrite H8.
    exists (fun _ => 0), (fun _ => 0%N), tmp, sid, (fun l m => seq 0 m), p'. split; [exact ST|]. split; [intros; apply Permutation_refl|].
    split; [exact EP|reflexivity].
  - constructor; [|constructor]. unfold step_ok. cbn [fst snd]. repeat (split; [first [reflexivity|discriminate|cbn; lia]|]).
    split; [exact AC|]. intros E. discriminate E.
  - unfold amount, one. cbn [ex_W w_P p_np sumR p_n Nat.eqb N2R]. unfold N2R. cbn. lra.
  - unfold over. cbn [map lsumR fold_right snd]. rewrite (proj1 (AE _)). lra.
  - unfold over. cbn [map lsumR fold_right snd]. rewrite (proj2 (AE _)). lra.
  - exact PN.
Qed.

Print Assumptions C81_water.
Print Assumptions C81_dry_aerosol.
Print Assumptions C81_number.
Print Assumptions C81_state.
Print Assumptions C81_instance.
