(** C92: over whole runs a liquid droplet is never smaller than its dry particle. *)
From Coq Require Import List Arith NArith ZArith Lia Reals Lra Psatz Permutation Sorted Bool.
From Verif Require Import Base BaseProofs HskpngModel HskpngProofs MomsModel MomsProofs CoalModel CoalProofs CoalPairProofs CoalPassProofs CoalProps
  SpaceModel SpaceProofs SpaceProps GridProps RcycModel RcycProofs RcycProps ThermoModel CondModel CondProps CondPassModel CondPassProofs CondPassProps
  CondPassProps2 CondPassProps3 CondPassProps4 FreezeProps StepModel StepProps.
Import ListNotations.
Local Open Scope R_scope.

(** ** specification *)
(** a super-droplet of ice crystals *)
Definition crystal (F : setup) (W : world) (i : nat) : Prop := f_ice F = true /\ 0 < p_ia (w_P W) i.
(** the wet radius of every liquid super-droplet is not smaller than its dry radius (third powers of both) *)
Definition wet_enough (W : world) (i : nat) : Prop := p_rd3 (w_P W) i <= sqrt (p_rw2 (w_P W) i) ^ 3.
Definition never_drier (F : setup) (W : world) : Prop :=
  forall i, (i < p_np (w_P W))%nat -> ~ crystal F W i -> wet_enough W i.
(** what is asked from a step: admissible constants of the root finding, sources create droplets not smaller than their dry particles,
    and a crystal that melts contains at least as much water (by volume of water) as dry aerosol *)
Definition melts_wet (F : setup) (so : sopts) (W : world) : Prop :=
  so_nucl so = true -> forall i, (i < p_np (w_P W))%nat -> crystal F W i -> 273.15 < e_T (w_E W) (p_ijk (w_P W) i) ->
    p_rd3 (w_P W) i <= 910 / 1000 * (p_ia (w_P W) i ^ 2 * p_ic (w_P W) i).
Definition wet_step_ok (F : setup) (t : sopts * step_states) : Prop :=
  let so := fst t in let s := snd t in
  (so_cond so = true -> cfg_ok (o_k (so_c so))) /\
  (forall i, (p_np (w_P (at_moved s)) <= i < p_np (w_P (at_added s)))%nat -> wet_enough (at_added s) i) /\
  melts_wet F so (at_synced s).

(** ** sizes *)
Lemma dry2_cube rd3 w : 0 <= rd3 -> 0 <= w -> (dry2 rd3 <= w <-> rd3 <= sqrt w ^ 3).
Proof.
  intros Hr Hw. destruct (cbrt_cube_nonneg rd3 Hr) as [C0 C3]. unfold dry2. set (c := cbrt rd3) in *. clearbody c.
  pose proof (sqrt_pos w) as S0. pose proof (sqrt_sqrt w Hw) as S2. set (s := sqrt w) in *. clearbody s. rewrite <- S2, <- C3. split; intros H.
  - assert (L : c <= s) by nra. replace (c * c * c) with (c ^ 3) by ring. apply pow_incr. lra.
  - assert (L : c <= s).
    { destruct (Rle_dec c s) as [L|L]; [exact L|]. exfalso. assert (L' : s < c) by lra. clear L.
      assert (s * s <= c * c) by nra. assert (s ^ 3 < c * c * c); [|lra]. replace (s ^ 3) with (s * s * s) by ring.
      apply Rle_lt_trans with (c * c * s); [apply Rmult_le_compat_r; assumption|]. apply Rmult_lt_compat_l; [|exact L'].
      apply Rmult_lt_0_compat; lra. }
    nra.
Qed.
Lemma grow_dry k e dt w rd3 : cfg_ok k -> c_rd3 e = rd3 -> dry2 rd3 <= w -> 0 <= w -> dry2 rd3 <= advance_rw2 k true e dt w.
Proof.
  intros Hk <- H H0. unfold advance_rw2. destruct (Rlt_dec 0 w) as [L|L].
  - apply (C18_substep k (drw2_dt e) (c_rd3 e) dt w Hk L H).
  - rewrite (proj1 (proj2 (C18_variants k (drw2_dt e) (c_rd3 e) dt w))) by lra. exact H.
Qed.
Lemma grow_dry_inc k e dt w rd3 : cfg_ok k -> c_rd3 e = rd3 -> dry2 rd3 <= w -> 0 <= w -> dry2 rd3 <= w + advance_rw2 k false e dt w.
Proof.
  intros Hk <- H H0. unfold advance_rw2. destruct (C18_variants k (drw2_dt e) (c_rd3 e) dt w) as (V1 & _ & V3). destruct (Rlt_dec 0 w) as [L|L].
  - rewrite V1 by exact L. pose proof (proj1 (C18_substep k (drw2_dt e) (c_rd3 e) dt w Hk L H)). lra.
  - rewrite V3 by lra. lra.
Qed.
Lemma dry2_nonneg r : 0 <= dry2 r.
Proof. unfold dry2. apply Rle_0_sqr. Qed.

(** ** condensation *)
Section Percell.
Variables (o : CondPassModel.copts) (g : junk) (lD lK : nat -> R) (sijk sid : list nat).
Hypothesis Hk : cfg_ok (o_k o).
Definition cov (P : parts) (i : nat) : Prop := dry2 (p_rd3 P i) <= p_rw2 P i.
Lemma percell_cov k l i : cov (s_P (l_st l)) i -> cov (s_P (l_st (percell_loop o g lD lK sijk sid k l))) i.
Proof.
  intros H. induction k as [|k IH]; [exact H|]. cbn [percell_loop]. set (L := percell_loop _ _ _ _ _ _ k _) in *. clearbody L.
  unfold percell_substep. cbn [l_st s_P]. destruct (sstp_percell_frame o k (l_st L)) as (Fr & _).
  set (st1 := sstp_percell_step o k (l_st L)) in *. set (P1 := apply_sgs_supersat o (s_P st1)). set (E1 := hskpng_Tpr o (s_E st1)).
  assert (H1 : cov P1 i) by (unfold P1, apply_sgs_supersat; rewrite Fr; destruct (o_turb o); exact IH).
  clearbody P1 E1. clear - H1 Hk.
  assert (H2 : cov (grow_liq o lD lK P1 E1) i).
  { unfold cov, grow_liq. cbn [set_rw2 p_rw2 p_rd3]. apply grow_dry; [exact Hk|reflexivity|exact H1|].
    eapply Rle_trans; [apply dry2_nonneg|exact H1]. }
  destruct (o_ice o); exact H2.
Qed.
End Percell.

Lemma perparticle_cov o lD lK dv sijk sid d k PS i : cfg_ok (o_k o) -> cov (fst PS) i ->
  cov (fst (perparticle_loop o lD lK dv sijk sid d k PS)) i.
Proof.
  intros Hk H. induction k as [|k IH]; [exact H|]. cbn [perparticle_loop]. destruct (perparticle_loop _ _ _ _ _ _ _ k _) as [P S].
  cbn [fst] in IH. unfold perparticle_substep. cbn [fst].
  assert (H1 : cov (apply_sgs_supersat o P) i) by (unfold apply_sgs_supersat; destruct (o_turb o); exact IH).
  set (P1 := apply_sgs_supersat o P) in *. clearbody P1. unfold cov. cbn [set_rw2 p_rw2 p_rd3].
  apply grow_dry; [exact Hk|reflexivity|exact H1|]. eapply Rle_trans; [apply dry2_nonneg|exact H1].
Qed.

Section Adaptive.
Variables (o : CondPassModel.copts) (lD lK : nat -> R) (P : parts) (d : tmps) (i : nat).
Hypothesis Hk : cfg_ok (o_k o).
Hypothesis HP : cov P i.
Let Q (r : adres) : Prop := a_rw2 (r_a r) = p_rw2 P i /\ dry2 (p_rd3 P i) <= p_rw2 P i + r_drw2 r.
Lemma search_cov f : forall try r, Q r -> Q (ad_search o lD lK P d i f try r).
Proof.
  induction f as [|f IH]; intros try r H; [exact H|]. cbn [ad_search]. destruct (try <=? o_sstp o)%nat; [|exact H]. destruct H as [H1 H2].
  set (frac := if (try =? 1)%nat then 1 else - 1 / INR try). set (a1 := ad_calc o (ad_apply o d (p_dssp P i) i frac (r_a r))).
  assert (W1 : a_rw2 a1 = p_rw2 P i) by exact H1.
  set (new := advance_rw2 (o_k o) false _ _ _).
  assert (N : dry2 (p_rd3 P i) <= p_rw2 P i + new).
  { unfold new. rewrite W1. apply grow_dry_inc; [exact Hk|reflexivity|exact HP|]. eapply Rle_trans; [apply dry2_nonneg|exact HP]. }
  clearbody new. destruct (try =? 1)%nat; [apply IH; split; assumption|]. destruct (_ && _); [|apply IH; split; assumption].
  split; cbn [r_a r_drw2]; [exact W1|exact H2].
Qed.
Lemma choose_cov r : Q r -> Q (ad_choose o P d i r).
Proof.
  intros [H1 H2]. unfold ad_choose. set (r1 := if _ && _ then _ else r).
  assert (K : Q r1) by (unfold r1; destruct (_ && _); split; assumption). clearbody r1. destruct K as [K1 K2].
  destruct (r_done r1); [split; assumption|]. split; cbn [r_a r_drw2]; assumption.
Qed.
Lemma loop_cov dv s done drw2 k a : a_rw2 a = p_rw2 P i -> dry2 (p_rd3 P i) <= p_rw2 P i + drw2 ->
  dry2 (p_rd3 P i) <= a_rw2 (ad_loop o lD lK dv P d i s done drw2 k a).
Proof.
  intros H1 H2. induction k as [|k IH]; [cbn [ad_loop]; rewrite H1; exact HP|]. cbn [ad_loop]. unfold ad_substep. cbn [a_rw2].
  destruct (done && (k =? 0)%nat) eqn:E.
  - apply andb_true_iff in E. destruct E as [_ E]. apply Nat.eqb_eq in E. subst k. cbn [a_rw2 ad_loop]. rewrite H1. exact H2.
  - cbn [a_rw2]. set (A := ad_loop o lD lK dv P d i s done drw2 k a) in *. clearbody A.
    apply grow_dry; [exact Hk|reflexivity|exact IH|]. eapply Rle_trans; [apply dry2_nonneg|exact IH].
Qed.
Lemma particle_cov dv S : dry2 (p_rd3 P i) <= a_rw2 (fst (ad_particle o lD lK dv P S d i)).
Proof.
  unfold ad_particle. cbv zeta. cbn [fst]. set (r0 := mk_adres _ _ _ 0 0).
  assert (K0 : Q r0) by (split; [reflexivity|cbn [r_drw2 r0]; rewrite Rplus_0_r; exact HP]).
  pose proof (choose_cov _ (search_cov (o_sstp o + 1) 1 r0 K0)) as [K1 K2]. apply loop_cov; assumption.
Qed.
End Adaptive.

Lemma cond_part_cov o allow g sijk sid st st' i : cond_part o allow g sijk sid st st' -> cfg_ok (o_k o) -> cov (s_P st) i -> cov (s_P st') i.
Proof.
  intros H Hk HC.
  assert (Q : forall st P S, (P, S) = (if o_adaptive o
                 then adaptive_pass o (mfp_D (s_E st)) (mfp_K (s_E st)) (e_dv (s_E st)) (deltas o st) (s_P st, s_S st)
                 else perparticle_loop o (mfp_D (s_E st)) (mfp_K (s_E st)) (e_dv (s_E st)) sijk sid (deltas o st) (o_sstp o) (s_P st, s_S st)) ->
               cov (s_P st) i -> cov P i).
  { clear st H HC st'. intros st P S HPS HC. destruct (o_adaptive o).
    - unfold adaptive_pass in HPS. injection HPS as -> _. unfold cov. cbn [set_ssp set_rw2 p_rd3 p_rw2]. apply particle_cov; assumption.
    - pose proof (perparticle_cov o (mfp_D (s_E st)) (mfp_K (s_E st)) (e_dv (s_E st)) sijk sid (deltas o st) (o_sstp o) (s_P st, s_S st) i Hk HC) as K.
      rewrite <- HPS in K. exact K. }
  destruct H as [st U|st P S U M lD lK HPS drw dice|st P S rv' th' U M lD lK HPS U1 U2]; rewrite (proj1 (sstp_save_PE _ _ _)).
  - apply percell_cov; [exact Hk|exact HC].
  - apply (Q st P S HPS HC).
  - apply (Q st P S HPS HC).
Qed.

(** crystals stay crystals *)
Lemma percell_crystal o g lD lK sijk sid k l i : 0 < p_ia (s_P (l_st l)) i -> 0 < p_ic (s_P (l_st l)) i ->
  0 < p_ia (s_P (l_st (percell_loop o g lD lK sijk sid k l))) i /\ 0 < p_ic (s_P (l_st (percell_loop o g lD lK sijk sid k l))) i.
Proof.
  intros Ha Hc. induction k as [|k IH]; [split; assumption|]. cbn [percell_loop]. set (L := percell_loop _ _ _ _ _ _ k _) in *. clearbody L.
  unfold percell_substep. cbn [l_st s_P]. destruct (sstp_percell_frame o k (l_st L)) as (Fr & _).
  set (st1 := sstp_percell_step o k (l_st L)) in *. set (P1 := apply_sgs_supersat o (s_P st1)). set (E1 := hskpng_Tpr o (s_E st1)).
  assert (H1 : 0 < p_ia P1 i /\ 0 < p_ic P1 i) by (unfold P1, apply_sgs_supersat; rewrite Fr; destruct (o_turb o); exact IH).
  clearbody P1 E1. set (P2 := grow_liq o lD lK P1 E1). assert (H2 : 0 < p_ia P2 i /\ 0 < p_ic P2 i) by exact H1. clearbody P2.
  destruct (o_ice o); [|exact H2]. unfold grow_ice. cbn [set_ice p_ia p_ic].
  match goal with |- 0 < fst (advance_ice_ac ?e ?dt (?a, ?c)) /\ _ => exact (proj2 (dep_one e dt a c) (proj1 H2) (proj2 H2)) end.
Qed.

(** ** the parts of a step *)
Section Parts.
Variable F : setup.
Hypothesis HF : setup_ok F.
(** crystal or wet enough, decided *)
Lemma never_drier_or W : never_drier F W -> forall i, (i < p_np (w_P W))%nat -> crystal F W i \/ wet_enough W i.
Proof.
  intros H i Hi. destruct (bool_dec (f_ice F) true) as [E|E]; [destruct (Rlt_dec 0 (p_ia (w_P W) i)) as [L|L]|].
  - left. split; assumption.
  - right. apply H; [exact Hi|]. intros [_ C]. contradiction.
  - right. apply H; [exact Hi|]. intros [C _]. contradiction.
Qed.
Lemma or_never_drier W : (forall i, (i < p_np (w_P W))%nat -> crystal F W i \/ wet_enough W i) -> never_drier F W.
Proof. intros H i Hi C. destruct (H i Hi); [contradiction|assumption]. Qed.

Lemma nucl_wet so W W' : nucl F so W W' -> state_ok F W -> melts_wet F so W -> never_drier F W -> never_drier F W'.
Proof.
  intros H HW HM HC. unfold nucl in H. destruct (f_ice F && so_nucl so) eqn:E; [|subst W'; exact HC].
  apply andb_true_iff in E. destruct E as [EI EN]. destruct H as (g & sijk & sid & Hs & ->).
  destruct HW as (_ & _ & _ & _ & O5 & O6). specialize (O6 EI). specialize (HM EN).
  apply or_never_drier. intros i Hi. cbn [with_cst w_P] in *. set (st' := ice_nucl_melt (so_c so) (so_io so) g sijk sid (cst_of W)) in *.
  change (p_np (s_P st')) with (p_np (w_P W)) in Hi.
  assert (R3 : p_rd3 (s_P st') i = p_rd3 (w_P W) i) by reflexivity.
  pose proof (nucl_attr (so_c so) (so_io so) g sijk sid (cst_of W) i) as A. fold st' in A. cbn [cst_of s_P s_E] in A.
  unfold crystal, wet_enough. cbn [w_P with_cst]. rewrite R3.
  (* from the new attributes *)
  assert (K : forall y, ice_attr (s_P st') i = y ->
     (is_ice y -> 0 < p_ia (s_P st') i) /\ p_rw2 (s_P st') i = fst (fst (fst y))).
  { intros y <-. unfold ice_attr. cbn [fst is_ice]. split; [intros (_ & B & _); exact B|reflexivity]. }
  clearbody st'. destruct (K _ A) as [K1 K2]. rewrite K2. clear K K2.
  enough (is_ice (nucl_melt_one (so_c so) (so_io so) (w_P W) (w_E W) i) \/
          p_rd3 (w_P W) i <= sqrt (fst (fst (fst (nucl_melt_one (so_c so) (so_io so) (w_P W) (w_E W) i)))) ^ 3) as Z;
    [destruct Z as [Z|Z]; [left; split; [exact EI|apply K1, Z]|right; exact Z]|].
  clear K1 A. unfold nucl_melt_one. cbv zeta. set (T := e_T (w_E W) (p_ijk (w_P W) i)) in *.
  set (x := ice_attr (w_P W) i). assert (HX : one_phase x) by apply O6.
  set (y := if i_time_dep (so_io so) then _ else _).
  (* freezing *)
  assert (Y : y = x \/ (is_liquid x /\ is_ice y /\ y = freeze x)).
  { unfold y, time_dep_freeze, singular_freeze. destruct x as [[[w a] c] rho] eqn:EX.
    assert (G : forall b, (if Rltb 0 w && b then freeze (w, a, c, rho) else (w, a, c, rho)) = (w, a, c, rho) \/
       (is_liquid (w, a, c, rho) /\ is_ice (if Rltb 0 w && b then freeze (w, a, c, rho) else (w, a, c, rho)) /\
        (if Rltb 0 w && b then freeze (w, a, c, rho) else (w, a, c, rho)) = freeze (w, a, c, rho))).
    { intros b. destruct (Rltb 0 w) eqn:Ew; [|left; reflexivity]. destruct b; [|left; reflexivity]. cbn [andb]. apply Rltb_true in Ew.
      destruct HX as [HX|HX]; [|exfalso; destruct HX; lra]. right. split; [exact HX|]. split; [|reflexivity].
      apply (freeze_facts _ HX). exact Ew. }
    destruct (i_time_dep (so_io so)); [apply G|]. rewrite <- !andb_assoc. apply G. }
  clearbody y. destruct (Rlt_dec 273.15 T) as [LT|LT].
  - destruct Y as [->|(YL & YI & ->)].
    + (* the crystal was there *)
      destruct (never_drier_or W HC i Hi) as [[_ CI]|CW].
      * assert (IX : is_ice x) by (destruct HX as [HX|HX]; [exfalso; unfold x, ice_attr, is_liquid in HX; lra|exact HX]).
        right. specialize (HM i Hi (conj EI CI) LT). unfold x, ice_attr in IX |- *. destruct IX as (_ & I2 & I3 & I4).
        unfold melt. replace (Rltb 0 (p_ia (w_P W) i * p_ic (w_P W) i)) with true by (symmetry; apply Rltb_true, Rmult_lt_0_compat; assumption).
        replace (Rltb (27315 / 100) T) with true by (symmetry; apply Rltb_true; lra). cbn [andb fst].
        rewrite melt_radius by assumption. unfold rho_i, rho_w. replace (p_ia (w_P W) i * p_ia (w_P W) i) with (p_ia (w_P W) i ^ 2) by ring. lra.
      * destruct HX as [HX|HX].
        -- right. rewrite melt_not by (left; exact HX). exact CW.
        -- assert (CI : 0 < p_ia (w_P W) i) by (unfold x, ice_attr, is_ice in HX; tauto).
           right. specialize (HM i Hi (conj EI CI) LT). unfold x, ice_attr in HX |- *. destruct HX as (_ & I2 & I3 & I4).
           unfold melt. replace (Rltb 0 (p_ia (w_P W) i * p_ic (w_P W) i)) with true by (symmetry; apply Rltb_true, Rmult_lt_0_compat; assumption).
           replace (Rltb (27315 / 100) T) with true by (symmetry; apply Rltb_true; lra). cbn [andb fst].
           rewrite melt_radius by assumption. unfold rho_i, rho_w. replace (p_ia (w_P W) i * p_ia (w_P W) i) with (p_ia (w_P W) i ^ 2) by ring. lra.
    + (* it freezes and melts at once: its radius is as before *)
      right. destruct (never_drier_or W HC i Hi) as [[_ CI]|CW]; [exfalso; unfold x, ice_attr, is_liquid in YL; lra|].
      destruct (Rlt_dec 0 (p_rw2 (w_P W) i)) as [Lw|Lw].
      * destruct (freeze_facts x YL Lw) as (_ & FW & _). destruct (melt_facts _ YI T LT) as [ML MW]. rewrite FW in MW.
        destruct (melt T (freeze x)) as [[[w' a'] c'] rho']. destruct ML as (_ & -> & -> & ->). unfold x, ice_attr, is_liquid in YL. cbn [fst].
        unfold x, ice_attr, water_of in MW. destruct YL as (_ & Y2 & Y3 & Y4). rewrite Y2, Y3, Y4 in MW. unfold wet_enough in CW.
        unfold drop_mass, spheroid_mass in MW. pose proof PI_RGT_0. assert (sqrt w' ^ 3 = sqrt (p_rw2 (w_P W) i) ^ 3); [|lra].
        apply Rmult_eq_reg_l with (4 / 3 * PI * 1000); [|lra]. lra.
      * exfalso. unfold x, ice_attr, freeze, is_ice in YI. destruct YI as (_ & Z & _). unfold x, ice_attr, is_liquid in YL.
        assert (W0 : p_rw2 (w_P W) i = 0) by lra. rewrite W0 in Z. unfold cpow in Z at 1. destruct (Rlt_dec 0 0) as [|]; [lra|].
        destruct (Req_EM_T (1 / 2) 0); lra.
  - rewrite melt_not by (right; lra). destruct Y as [->|(YL & YI & _)]; [|left; exact YI].
    destruct (never_drier_or W HC i Hi) as [[_ CI]|CW]; [|right; exact CW].
    left. destruct HX as [HX|HX]; [exfalso; unfold x, ice_attr, is_liquid in HX; lra|exact HX].
Qed.

Lemma cond_wet so W W' : cond so W W' -> o_exact (so_c so) = f_exact F -> (1 <= o_sstp (so_c so))%nat -> (so_cond so = true -> cfg_ok (o_k (so_c so))) ->
  state_ok F W -> never_drier F W -> never_drier F W'.
Proof.
  intros H Hx Hs Hk (O1 & O2 & O3 & O4 & O5 & O6) HC. unfold cond in H. destruct (so_cond so) eqn:E; [|subst W'; exact HC].
  destruct H as (g & sijk & sid & st' & Hsort & Hc & ->). specialize (Hk eq_refl).
  destruct (cond_frame _ _ _ _ _ _ _ Hc Hs (fun i => proj1 (O5 i))) as ((S1 & S2 & S3) & F1 & _ & _ & _ & _ & F5). cbn [cst_of s_P s_E] in *.
  apply or_never_drier. intros i Hi. unfold crystal, wet_enough. cbn [with_cst w_P] in *. rewrite S1 in Hi.
  destruct (never_drier_or W HC i Hi) as [[EI CI]|CW].
  - left. split; [exact EI|]. pose proof (O6 EI i) as Hph. destruct HF as (_ & _ & _ & _ & _ & _ & _ & _ & _ & _ & _ & _ & Hex). specialize (Hex EI).
    assert (U : use_perparticle (so_c so) = false) by (unfold use_perparticle; rewrite Hx, Hex; reflexivity).
    rewrite (cond_part_percell _ _ _ _ _ _ _ U Hc). rewrite (proj1 (sstp_save_PE _ _ _)). unfold after. apply percell_crystal; [exact CI|].
    cbn [l_st s_P cst_of]. destruct Hph as [Hph|Hph]; [exfalso; unfold ice_attr, is_liquid in Hph; lra|apply Hph].
  - right. rewrite F1. apply (dry2_cube _ _ (proj1 (proj2 (O5 i))) (F5 i)). rewrite <- F1.
    apply (cond_part_cov _ _ _ _ _ _ _ i Hc Hk). unfold cov. cbn [cst_of s_P]. apply (dry2_cube _ _ (proj1 (proj2 (O5 i))) (proj1 (O5 i))). exact CW.
Qed.

(** collisions *)
Definition swet (s : sd) : Prop := 0 <= CoalModel.rw2 s /\ 0 <= CoalModel.rd3 s /\ CoalModel.rd3 s <= sqrt (CoalModel.rw2 s) ^ 3.
Lemma collide_wet c a b : swet a -> swet b -> swet (fst (collide c a b)) /\ swet (snd (collide c a b)).
Proof.
  intros (A1 & A2 & A3) (B1 & B2 & B3). unfold collide, swet. cbn [fst snd CoalModel.rw2 CoalModel.rd3]. split; [auto|].
  destruct (wet_radius c (CoalModel.rw2 a) (CoalModel.rw2 b) A1 B1) as [W1 W2]. split; [exact W1|].
  pose proof (N2R_nonneg c) as Hc. pose proof (Rmult_le_pos _ _ Hc A2). split; [lra|]. rewrite W2.
  pose proof (Rmult_le_compat_l _ _ _ Hc A3). lra.
Qed.
Lemma pair_wet kernel dt dv o nc gr sijk cell a b u : swet a -> swet b ->
  let r := collider_pair kernel dt dv o nc gr sijk cell a b u in swet (fst (fst (fst (fst r)))) /\ swet (snd (fst (fst (fst r)))).
Proof.
  intros A B. unfold collider_pair. cbv zeta. set (c1 := if Rltb _ _ then _ else _). clearbody c1.
  destruct (c1 =? 0)%N; [split; assumption|]. destruct (CoalModel.n b <=? CoalModel.n a)%N.
  - set (c := if (0 <? _)%N then _ else _). pose proof (collide_wet c a b A B) as H. destruct (collide c a b). exact H.
  - set (c := if (0 <? _)%N then _ else _). pose proof (collide_wet c b a B A) as H. destruct (collide c b a). cbn in *. tauto.
Qed.
Lemma follow_wet o f : In f (follow_ups o) -> forall ca cb a b x y, f ca cb a b = Some (x, y) -> swet a -> swet b -> swet x /\ swet y.
Proof.
  intros H ca cb a b x y E A B. unfold follow_ups in H. repeat rewrite in_app_iff in H.
  assert (K : (exists k, f = summator k) \/ f = weighted_summator \/ f = selector \/ f = invalidator).
  { destruct H as [H|[H|[H|H]]].
    - destruct (chem_switch o); [|destruct H]. apply in_map_iff in H. destruct H as (k & <- & _). left. eauto.
    - destruct (mix_kappa_on o); [|destruct H]. destruct H as [<-|[]]. tauto.
    - destruct (diag_incloud_time o); [|destruct H]. destruct H as [<-|[]]. tauto.
    - destruct (act_sstp o); [|destruct H]. destruct H as [<-|[]]. tauto. }
  destruct K as [(k & ->)|[ -> |[ -> | -> ]]];
    [unfold summator in E|unfold weighted_summator in E|unfold selector in E|unfold invalidator in E];
    (destruct (Rleb ca 0); [discriminate|]; destruct (Reqb cb na_ge_nb); injection E as <- <-; split; assumption).
Qed.
Lemma fold_inv_in {A B} (f : A -> B -> A) (I : A -> Prop) l : (forall a b, In b l -> I a -> I (f a b)) -> forall a, I a -> I (fold_left f l a).
Proof.
  induction l as [|b l IH]; intros H a Ha; [exact Ha|]. cbn [fold_left]. apply IH; [intros; apply H; [right|]; assumption|].
  apply H; [left; reflexivity|exact Ha].
Qed.
Lemma upd2_wet (a : nat -> sd) n i j x y : (forall k, (k < n)%nat -> swet (a k)) -> swet x -> swet y -> forall k, (k < n)%nat -> swet (upd (upd a i x) j y k).
Proof. intros H Hx Hy k Hk. unfold upd. destruct (k =? j)%nat; [exact Hy|]. destruct (k =? i)%nat; [exact Hx|apply H, Hk]. Qed.
Lemma coal_wet kernel dt dv o nc gn gr sid sijk np sched u01 sds st :
  coal kernel dt dv o nc gn gr sid sijk np sched u01 sds = Some st ->
  (forall k, Permutation (sched k) (seq 0 (np - 1))) -> (forall i, (i < np)%nat -> (CoalModel.sid sid i < np)%nat) ->
  (forall i, (i < np)%nat -> swet (sds i)) -> forall i, (i < np)%nat -> swet (arr st i).
Proof.
  unfold coal. destruct np as [|np']; [discriminate|]. intros E Hsch Hsid H. injection E as <-. cbn [arr]. set (np := S np') in *.
  assert (IS : forall k j, In j (sched k) -> (j < np)%nat /\ (S j < np)%nat).
  { intros k j Hj. apply (Permutation_in _ (Hsch k)) in Hj. apply in_seq in Hj. lia. }
  assert (K : forall i, (i < np)%nat -> swet (arr (fold_left (collider_step kernel dt dv o nc gn gr sid sijk) (sched 0%nat) (CoalModel.mk_cst sds u01 false)) i)).
  { apply (fold_inv_in _ (fun st => forall i, (i < np)%nat -> swet (arr st i))); [|exact H]. intros st i Hin Hs k Hk. unfold collider_step.
    destruct (IS _ _ Hin) as [I1 I2].
    destruct (Nat.odd _); [apply Hs, Hk|]. destruct (negb _); [apply Hs, Hk|].
    pose proof (pair_wet kernel dt dv o nc gr sijk (CoalModel.sijk sijk i) (arr st (CoalModel.sid sid i)) (arr st (CoalModel.sid sid (S i))) (col st i)
      (Hs _ (Hsid _ I1)) (Hs _ (Hsid _ I2))) as Q.
    cbv zeta in Q. destruct (collider_pair _ _ _ _ _ _ _ _ _ _ _) as [[[[a' b'] ka] kb] f]. cbn [fst snd arr] in *. apply (upd2_wet _ np); tauto. }
  set (st1 := fold_left _ _ _) in *. clearbody st1.
  assert (G : forall fs ka, (forall f, In f fs -> In f (follow_ups o)) -> (forall i, (i < np)%nat -> swet (snd ka i)) -> forall i, (i < np)%nat -> swet (snd
     (fold_left (fun (ka : nat * (nat -> sd)) f => (S (fst ka), fold_left (follow_step sid f (col st1)) (sched (fst ka)) (snd ka))) fs ka) i)).
  { induction fs as [|f fs IH]; intros ka Hf Hk; [exact Hk|]. cbn [fold_left]. apply IH; [intros; apply Hf; right; assumption|].
    cbn [snd]. apply (fold_inv_in _ (fun a => forall i, (i < np)%nat -> swet (a i))); [|exact Hk]. intros a j Hin Ha. unfold follow_step.
    destruct (IS _ _ Hin) as [I1 I2]. destruct (f _ _ _ _) as [[x y]|] eqn:Ef; [|exact Ha].
    destruct (follow_wet o f (Hf f (or_introl eq_refl)) _ _ _ _ _ _ Ef (Ha _ (Hsid _ I1)) (Ha _ (Hsid _ I2))). apply upd2_wet; assumption. }
  apply G; [auto|exact K].
Qed.
Lemma coal_pass_wet W W' : coal_pass F W W' -> f_ice F = false -> state_ok F W -> never_drier F W -> never_drier F W'.
Proof.
  intros (kernel & dt & gn & gr & sijk & sid & sched & u01 & st & v & H) EF (O1 & O2 & O3 & O4 & O5 & O6) HC. cbv zeta in H.
  destruct H as (Hk & Hdt & Hsch & Hsort & Hc & ->). apply sort_helper_spec in Hsort. destruct Hsort as (HP & _ & _).
  rewrite map_length, seq_length in *. set (np := p_np (w_P W)) in *.
  assert (LS : length sid = np) by (rewrite (Permutation_length HP), seq_length; reflexivity).
  assert (SI : forall i, (i < np)%nat -> (CoalModel.sid sid i < np)%nat).
  { intros i Hi. assert (I : In (CoalModel.sid sid i) sid) by (apply nth_In; lia). apply (Permutation_in _ HP) in I. apply in_seq in I. lia. }
  assert (SW : forall i, (i < np)%nat -> swet (sd_of W i)).
  { intros i Hi. destruct (O5 i) as (A & B & _). split; [exact A|]. split; [exact B|]. apply HC; [exact Hi|]. intros [C _]. congruence. }
  intros i Hi _. apply (coal_wet _ _ _ _ _ _ _ _ _ _ _ _ _ _ Hc Hsch SI SW i Hi).
Qed.
Lemma coalescence_wet so W W' : coalescence F so W W' -> (f_ice F = true -> so_coal so = false) -> state_ok F W -> never_drier F W -> never_drier F W'.
Proof.
  intros H Hi HW HC. unfold coalescence in H. destruct (so_coal so) eqn:E; [|subst W'; exact HC].
  assert (EF : f_ice F = false) by (destruct (f_ice F); [discriminate (Hi eq_refl)|reflexivity]). destruct H as (V & rc2 & H & ->).
  assert (K : forall k W V, coal_passes F k W V -> state_ok F W -> never_drier F W -> never_drier F V).
  { clear - EF HF. induction k as [|k IH]; intros W V H HW HC; cbn in H; [subst V; exact HC|]. destruct H as (U & H1 & H2).
    apply (IH U V H2); [apply (coal_pass_part F W U H1 EF HW)|apply (coal_pass_wet W U H1 EF HW HC)]. }
  exact (K _ _ _ H HW HC).
Qed.

Lemma sources_wet s : sources F (at_moved s) (at_added s) ->
  (forall i, (p_np (w_P (at_moved s)) <= i < p_np (w_P (at_added s)))%nat -> wet_enough (at_added s) i) ->
  never_drier F (at_moved s) -> never_drier F (at_added s).
Proof.
  set (W := at_moved s). set (V := at_added s). intros H HN HC. unfold sources in H. cbv zeta in H. destruct H as (_ & _ & _ & HO & _).
  intros i Hi C. destruct (Nat.lt_ge_cases i (p_np (w_P W))) as [Hl|Hl]; [|apply HN; lia].
  destruct (HO i Hl) as (_ & B & D & I1 & _). unfold wet_enough. rewrite B, D. apply HC; [exact Hl|]. intros [C1 C2]. apply C. split; [exact C1|]. rewrite I1. exact C2.
Qed.
Lemma tidy_wet so V W' : tidy F so V W' -> loose F V ->
  (so_rcyc so = true -> pure_const_multi (f_co F) = true \/ has_one (pop_of V) \/ (2 * number_of_zeros (pop_of V) <= p_np (w_P V))%nat) ->
  never_drier F V -> never_drier F W'.
Proof.
  intros (gar & garn & tmp & sid & sched & p' & Hsort & Hsch & Hc & ->) (O1 & O2 & O3 & O5 & O6) Hd HC.
  set (p := pop_of V) in *.
  assert (RI : rcyc_inputs (f_max F) p tmp sid sched) by (split; [exact O1|split; [exact Hsort|exact Hsch]]).
  assert (NZ : forall k, (k < np p')%nat -> mult p' k <> 0%N).
  { apply (proj2 (C06_no_zero_left_iff_partial _ _ _ _ _ _ _ _ _ _ _ _ RI Hc)). destruct (so_rcyc so); [|auto].
    destruct (Hd eq_refl) as [A|[A|A]]; auto. }
  destruct (origin _ _ _ _ _ _ _ _ _ _ _ _ RI Hc) as [NP OR].
  assert (V14 : (14 <= n_vec F)%nat) by (unfold n_vec; destruct (f_exact F); lia).
  intros k Hk C. unfold with_pop in Hk. cbn [w_P p_np] in Hk. destruct (OR k Hk (NZ k Hk)) as (j & J1 & J2 & J3 & J4).
  assert (AT : forall v, (v < 14)%nat -> vec p' v k = vec_of V v j).
  { intros v Hv. rewrite <- (nth_attrs (n_vec F) p' k v) by lia. rewrite J4, nth_attrs by lia. reflexivity. }
  unfold wet_enough. unfold crystal in C. unfold with_pop in *. cbn [w_P p_rd3 p_rw2 p_ia] in *.
  destruct (Nat.ltb_spec k (np p')) as [_|L]; [|lia]. rewrite !AT in * by lia. cbn [vec_of] in *. apply HC; [exact J1|exact C].
Qed.

Lemma step_wet so s : step F so s -> step_ok F (so, s) -> wet_step_ok F (so, s) -> state_ok F (at_start s) -> never_drier F (at_start s) ->
  never_drier F (at_end s).
Proof.
  intros (W2 & W3 & W4 & W5 & H1 & H2 & H3 & H4 & H5 & H6 & H7 & H8) (K1 & K2 & K3 & K4 & K5 & K6 & K7) (X1 & X2 & X3) HW HC. cbn [fst snd] in *.
  destruct (sync_part F so _ _ H1 HW) as (A1 & A2 & A3 & _).
  assert (C1 : never_drier F (at_synced s)).
  { intros i Hi C. unfold wet_enough, crystal in *. rewrite A2 in *. apply HC; [exact Hi|exact C]. }
  destruct (nucl_part F so _ _ H2 K1 K2 A1) as ((B1 & B2 & B3 & B4) & B5 & B6 & B7 & B8 & B9).
  pose proof (nucl_wet so _ _ H2 A1 X3 C1) as C2.
  assert (AC : accurate so W2).
  { intros Hc. destruct (K6 Hc) as [Q|[Q|(Q1 & Q2 & Q3 & Q4)]]; [left; exact Q|right; left; exact Q|right; right].
    split; [exact Q1|]. split; [exact Q2|]. split; [exact Q3|]. intros i Hi. rewrite B7, B8, B9. apply Q4. rewrite <- B6. exact Hi. }
  destruct (cond_step F HF so _ _ H3 K1 K2 K3 K4 AC B1) as ((D1 & _) & _).
  pose proof (cond_wet so _ _ H3 K3 K4 X1 B1 C2) as C3.
  destruct (prepare_part F so _ _ H4 K1 D1) as ((E1 & _) & _).
  assert (C4 : never_drier F W4) by (destruct H4 as (vt & ->); exact C3).
  destruct (coalescence_part F so _ _ H5 K5 E1) as ((G1 & _) & _).
  pose proof (coalescence_wet so _ _ H5 K5 E1 C4) as C5.
  destruct (motion_part F _ _ H6 G1) as (I1 & I2 & _).
  assert (C6 : never_drier F (at_moved s)) by (destruct H6 as (? & ? & ? & ? & ? & _ & E6); rewrite E6; exact C5).
  destruct (sources_part F s H7 I1 I2) as (J1 & J2 & _).
  pose proof (sources_wet s H7 X2 C6) as C7.
  destruct (walls_part F HF s J1 J2) as (L1 & _).
  apply (tidy_wet so _ _ H8 L1 K7). exact C7.
Qed.
End Parts.

(** C92: if every liquid super-droplet starts not smaller than its dry particle, so it is after any run - with condensation in any of the
    substepping modes, freezing, sublimation, collisions, motion, sources, boundary conditions and recycling, in any number of steps *)
Theorem C92_never_drier_partial F W l W' : setup_ok F -> run F W l W' -> state_ok F W -> Forall (step_ok F) l -> Forall (wet_step_ok F) l ->
  never_drier F W -> never_drier F W'.
Proof.
  intros HF H. induction H as [W|so s l W' Hs Hr IH]; intros HW HO HX HC; [exact HC|].
  inversion HO as [|? ? HO1 HO2]; subst. inversion HX as [|? ? HX1 HX2]; subst.
  destruct (step_part F HF so s Hs HO1 HW) as (A1 & _). apply (IH A1 HO2 HX2). apply (step_wet F HF so s Hs HO1 HX1 HW HC).
Qed.

(** ** without the condition on melting the claim is false: a droplet freezes, the crystal sublimates down to the least size of the scheme
    (1 nm) although its aerosol is larger, and when it melts a droplet smaller than its dry particle is left *)
Definition wx_b : bopts := mk_bopts 0 0 1 0 1 0 1 false false false false false true false.
Definition wx_F : setup := mk_setup wx_b 0 0 0 1 1 1 true false (CoalModel.mk_copts false 1 0 1 false false false) 10.
Definition wx_c (dt : R) : CondPassModel.copts :=
  {| o_parcel := true; o_th_dry := false; o_const_p := true; o_ice := true; o_exact := false; o_mix := true; o_adaptive := false;
     o_RH := pv_cc; o_adapt_eps := 1 / 10000; o_adapt_max := 4; o_turb := false; o_RH_max := 44; o_var_rho := false; o_dt := dt;
     o_sstp := 1; o_act := 1; o_k := cfg_double |}.
Definition wx_so (dt : R) (nuc cnd : bool) : sopts :=
  mk_sopts (wx_c dt) true {| i_time_dep := false; i_T_freeze := fun _ => 260; i_rd2_insol := fun _ => 0; i_u01 := fun _ => 0 |}
    nuc cnd false 1 false.
(** in the cell: temperature T, vapour far below saturation *)
Definition wx_E (T : R) : cells :=
  mk_cells 1 (fun _ => 1 / 1000) (fun _ => T_tri) (fun _ => 1) (fun _ => 100000) (fun _ => T) (fun _ => 2) (fun _ => 2) (fun _ => 1) (fun _ => 1).
(** one super-droplet of wet radius 10 micrometres, dry radius 0.1 micrometres *)
Definition wx_P : parts :=
  mk_parts 1 (fun _ => 0%nat) (fun _ => 1%N) (fun _ => 1 / 10 ^ 10) (fun _ => 1 / 10 ^ 21) (fun _ => 1) (fun _ => 0)
    (fun _ => 0) (fun _ => 0) (fun _ => 0) (fun _ => 0) (fun _ => 0) (fun _ => 1).
Definition wx_S : tmps := mk_tmps (fun _ => 1 / 1000) (fun _ => T_tri) (fun _ => 1) (fun _ => 100000).
Definition wx_W : world :=
  mk_world wx_P (wx_E 250) wx_S (fun _ => 1 / 2) (fun _ => 0) (fun _ => 0) (fun _ => 0) (mk_puddle 0 0 0 0 0 0 (fun _ => 0)).
Lemma wx_setup_ok : setup_ok wx_F.
Proof. unfold setup_ok, wx_F, wx_b, grid_dims. cbn. repeat split; try lra; try lia; try discriminate; right; lia. Qed.
Lemma wx_state_ok : state_ok wx_F wx_W.
Proof.
  unfold state_ok, wx_F, wx_W, n_cell, m1. cbn -[pow]. split; [lia|]. split; [reflexivity|]. split; [intros; lra|]. split; [intros; lia|]. split.
  - intros i. split; [lra|]. split; [lra|reflexivity].
  - intros _ i. left. cbn -[pow]. repeat split; lra.
Qed.
(** the one super-droplet *)
Definition one_sd (W : world) (x : iatt) (rd3 : R) : Prop :=
  p_np (w_P W) = 1%nat /\ p_n (w_P W) 0%nat = 1%N /\ p_ijk (w_P W) 0%nat = 0%nat /\ ice_attr (w_P W) 0%nat = x /\ p_rd3 (w_P W) 0%nat = rd3.

(** the second half of a step leaves it alone *)
Lemma wx_tail dt nuc cnd W3 x rd3 : state_ok wx_F W3 -> one_sd W3 x rd3 -> exists W4 W7 W8 W9,
  let so := wx_so dt nuc cnd in
  prepare so W3 W4 /\ coalescence wx_F so W4 W4 /\ motion wx_F W4 W7 /\ sources wx_F W7 W8 /\ tidy wx_F so (walls wx_F W8) W9 /\
  p_np (w_P W8) = p_np (w_P W7) /\ state_ok wx_F W9 /\ one_sd W9 x rd3 /\ p_vt (w_P W9) 0%nat = 0 /\ w_E W9 = hskpng_Tpr (wx_c dt) (w_E W3).
Proof.
  intros HW (N1 & N2 & N3 & N4 & N5). set (so := wx_so dt nuc cnd). pose proof wx_setup_ok as HF.
  set (W4 := with_P (with_E W3 (hskpng_Tpr (so_c so) (w_E W3))) (set_vt (w_P W3) (fun _ => 0))).
  assert (H4 : prepare so W3 W4) by (exists (fun _ => 0); reflexivity).
  destruct (prepare_part wx_F so W3 W4 H4 eq_refl HW) as ((D1 & _) & _).
  set (W7 := with_pos (with_P W4 (set_turb (w_P W4) (fun _ => 0) (fun _ => 0))) (fun _ => 1 / 2) (fun _ => 0) (fun _ => 0)).
  assert (H6 : motion wx_F W4 W7).
  { exists (fun _ => 0), (fun _ => 0), (fun _ => 1 / 2), (fun _ => 0), (fun _ => 0). split; [|reflexivity].
    intros i _. unfold near, wx_F, wx_b. cbn. lra. }
  destruct (motion_part wx_F W4 W7 H6 D1) as (I1 & I2 & _).
  set (P7 := w_P W7). set (P8 := mk_parts 1 (p_ijk P7) (fun i => if (i <? 1)%nat then p_n P7 i else 0%N)
                      (fun i => if (i <? 1)%nat then p_rw2 P7 i else 0) (fun i => if (i <? 1)%nat then p_rd3 P7 i else 0)
                      (p_kpa P7) (p_vt P7) (fun i => if (i <? 1)%nat then p_ia P7 i else 0) (fun i => if (i <? 1)%nat then p_ic P7 i else 0)
                      (fun i => if (i <? 1)%nat then p_irho P7 i else 0) (fun _ => 0) (fun _ => 0) (fun _ => 1)).
  set (W8 := mk_world P8 (w_E W7) (w_S W7) (w_x W7) (w_y W7) (w_z W7) (w_ict W7) (w_pud W7)).
  assert (N7 : p_np P7 = 1%nat) by exact N1.
  assert (H7 : sources wx_F W7 W8).
  { unfold sources. cbv zeta. fold P7. rewrite N7. cbn [W8 w_P P8 p_np w_E w_pud p_n p_rw2 p_rd3 p_ia p_ic p_irho w_x w_y w_z].
    split; [cbn; lia|]. split; [reflexivity|]. split; [reflexivity|]. split; [|split; [|reflexivity]]; intros i Hi.
    - destruct (Nat.ltb_spec i 1); [|lia]. split; [split; [lia|apply I1]|]. repeat split; reflexivity.
    - destruct (Nat.ltb_spec i 1); [lia|]. repeat split; try reflexivity; try lra; unfold wx_F, wx_b; cbn; lra. }
  set (s0 := mk_ss wx_W wx_W W7 W8 W8).
  destruct (sources_part wx_F s0 H7 I1 I2) as (J1 & J2 & _).
  destruct (walls_part wx_F HF s0 J1 J2) as (K1 & _ & _ & _ & _ & _ & K7). cbn [s0 at_added] in K1, K7.
  set (V := walls wx_F W8) in *.
  assert (V1 : p_np (w_P V) = 1%nat) by reflexivity.
  assert (V2 : p_n (w_P V) 0%nat = 1%N) by exact N2.
  assert (V3 : ice_attr (w_P V) 0%nat = x) by exact N4. assert (V4 : p_rd3 (w_P V) 0%nat = rd3) by exact N5.
  assert (V5 : w_E V = hskpng_Tpr (wx_c dt) (w_E W3)) by reflexivity.
  assert (V6 : p_vt (w_P V) 0%nat = 0) by reflexivity.
  assert (VE : V = walls wx_F W8) by reflexivity. clearbody V. clear - VE V6 V1 V2 V3 V4 V5 K1 K7 H4 H6 H7 HF N7. set (p := pop_of V).
  assert (ST : sort_by_key_result (map (fun i => N.to_nat (p_n (w_P V) i)) (seq 0 (p_np (w_P V)))) (seq 0 (p_np (w_P V))) [1]%nat [0]%nat).
  { rewrite V1. cbn [seq map]. rewrite V2. cbn. split; [reflexivity|]. split; [reflexivity|]. split; [reflexivity|repeat constructor]. }
  assert (RI : rcyc_inputs (f_max wx_F) p [1]%nat [0]%nat (fun l m => seq 0 m)).
  { split; [exact (proj1 K1)|]. split; [exact ST|]. intros; apply Permutation_refl. }
  destruct (C05_totals_conserved (fun _ => 0) (fun _ => 0%N) (f_max wx_F) (n_vec wx_F) 0 false [1]%nat [0]%nat (fun l m => seq 0 m) false p (fun _ => 1) RI) as (p' & EP & ET).
  set (W9 := with_pop wx_F V p').
  assert (H8 : tidy wx_F so V W9).
  { exists (fun _ => 0), (fun _ => 0%N), [1]%nat, [0]%nat, (fun l m => seq 0 m), p'. split; [exact ST|]. split; [intros; apply Permutation_refl|].
    split; [exact EP|reflexivity]. }
  destruct (tidy_part wx_F so V W9 H8 K1 ltac:(discriminate) K7) as (L1 & _ & _ & _ & L5).
  destruct (origin _ _ _ _ _ _ _ _ _ _ _ _ RI EP) as [NP OR].
  assert (NP' : (np p' <= 1)%nat) by (change (np p) with (p_np (w_P V)) in NP; rewrite V1 in NP; exact NP).
  assert (NE : np p' = 1%nat).
  { destruct (np p') as [|k] eqn:En; [exfalso|lia]. unfold total in ET. rewrite En in ET. change (np p) with (p_np (w_P V)) in ET. rewrite V1 in ET.
    cbn [sumR] in ET. change (mult p 0%nat) with (p_n (w_P V) 0%nat) in ET. rewrite V2 in ET. unfold N2R in ET. cbn in ET. lra. }
  assert (M0 : mult p' 0%nat <> 0%N).
  { specialize (L5 0%nat). unfold W9, with_pop in L5. cbn [w_P p_np p_n] in L5. rewrite NE in L5. apply L5. lia. }
  destruct (OR 0%nat ltac:(lia) M0) as (j & J1 & J2 & J3 & J4). change (np p) with (p_np (w_P V)) in J1. rewrite V1 in J1. assert (j = 0%nat) by lia. subst j.
  assert (AT : forall v, (v < 14)%nat -> vec p' v 0%nat = vec_of V v 0%nat).
  { intros v Hv. rewrite <- (nth_attrs (n_vec wx_F) p' 0%nat v) by (cbn; lia). rewrite J4, nth_attrs by (cbn; lia). reflexivity. }
  exists W4, W7, W8, W9. cbv zeta. fold so. split; [exact H4|]. split; [reflexivity|]. split; [exact H6|]. split; [exact H7|]. split; [rewrite <- VE; exact H8|].
  split; [symmetry; exact N7|]. split; [exact L1|]. split; [|split; [|exact V5]].
  unfold one_sd, ice_attr, W9, with_pop. cbn [w_P p_np p_n p_ijk p_rw2 p_ia p_ic p_irho p_rd3]. rewrite NE. cbn [Nat.ltb Nat.leb].
  2: { unfold W9, with_pop. cbn [w_P p_vt]. rewrite NE. cbn [Nat.ltb Nat.leb]. rewrite AT by lia. exact V6. }
  split; [reflexivity|]. split; [|split; [reflexivity|split]].
  - change (mult p 0%nat) with (p_n (w_P V) 0%nat) in J3. rewrite V2 in J3. lia.
  - rewrite !AT by lia. exact V3.
  - rewrite !AT by lia. exact V4.
Qed.

(** condensation of one step: from the droplet to the smallest crystal *)
Definition wx_x0 : iatt := (1 / 10 ^ 10, 0, 0, 0).
Lemma wx_frozen : exists a, 1 / 10 ^ 9 < a /\ freeze wx_x0 = (0, a, a, 910).
Proof.
  assert (L : is_liquid wx_x0) by (unfold wx_x0, is_liquid; repeat split; lra).
  assert (L0 : 0 < fst (fst (fst wx_x0))) by (unfold wx_x0; cbn [fst]; lra).
  destruct (freeze_facts wx_x0 L L0) as ((_ & A & _) & M & _).
  exists (cpow (1 / 10 ^ 10) (1 / 2) * cpow (rho_w / rho_i) (1 / 3)). split; [|reflexivity].
  set (r := cpow (1 / 10 ^ 10) (1 / 2) * cpow (rho_w / rho_i) (1 / 3)) in *.
  change (freeze wx_x0) with ((0, r, r, rho_i) : iatt) in M. change (0 < r) in A. clearbody r. unfold wx_x0, water_of, drop_mass, spheroid_mass in M.
  rewrite sqrt_0 in M. replace (1 / 10 ^ 10) with (1 / 10 ^ 5 * (1 / 10 ^ 5)) in M by field. rewrite sqrt_square in M by lra. unfold rho_i, rho_w in M.
  assert (E : r * r * r * 910 = 1 / 10 ^ 12).
  { apply Rmult_eq_reg_l with (4 / 3 * PI); [|pose proof PI_RGT_0; lra].
    replace (4 / 3 * PI * (r * r * r * 910)) with (4 / 3 * PI * r * r * r * 910) by ring. lra. }
  destruct (Rlt_dec (1 / 10 ^ 9) r) as [G|G]; [exact G|]. exfalso. assert (r * r <= 1 / 10 ^ 9 * (1 / 10 ^ 9)) by (apply Rmult_le_compat; lra).
  assert (r * r * r <= 1 / 10 ^ 9 * (1 / 10 ^ 9) * (1 / 10 ^ 9)) by (apply Rmult_le_compat; try lra; apply Rmult_le_pos; lra). lra.
Qed.
(** the surroundings of the crystal while it sublimates: 0.01 C, the vapour of 0.1% of the mass of air *)
Definition wx_env (T : R) : cenv :=
  {| c_rhod := 1; c_rv := 1 / 1000; c_T := T; c_eta := visc T; c_rd3 := 1 / 10 ^ 21; c_kpa := 1; c_vt := 0; c_p := 100000;
     c_RH := p_v 100000 (1 / 1000) / p_vsi T; c_RH_max := 44; c_lambda_D := lambda_D T; c_lambda_K := lambda_K T 100000 |}.
Lemma wx_p_vsi : p_vsi T_tri = p_tri.
Proof.
  unfold p_vsi. replace (T_tri / T_tri) with 1 by (field; unfold T_tri; lra). rewrite ln_1, Rmult_0_r.
  replace (1 / T_tri - 1 / T_tri) with 0 by lra. rewrite Rmult_0_r, Rminus_0_r, exp_0. ring.
Qed.
Lemma wx_env_dry : env_ok (wx_env T_tri) /\ ambient_RH (wx_env T_tri) < 1.
Proof.
  assert (B : 0 < p_v 100000 (1 / 1000) / p_vsi T_tri < 1).
  { rewrite wx_p_vsi. assert (Q : 0 < p_v 100000 (1 / 1000) < 200).
    { unfold p_v. assert (E : 1 / 2 < eps < 1) by (unfold eps, M_v, M_d, M_H, M_OH; lra).
      assert (0 < / (1 / 1000 + eps) < 2).
      { split; [apply Rinv_0_lt_compat; lra|]. rewrite <- (Rinv_inv 2). apply Rinv_lt_contravar; [|lra].
        apply Rmult_lt_0_compat; lra. }
      unfold Rdiv at 1 3. nra. }
    unfold p_tri. split.
    - apply Rdiv_lt_0_compat; lra.
    - apply Rmult_lt_reg_r with (61173 / 100); [lra|]. unfold Rdiv at 1. rewrite Rmult_assoc, Rinv_l by lra. lra. }
  assert (A : ambient_RH (wx_env T_tri) < 1 /\ 0 < ambient_RH (wx_env T_tri)).
  { unfold ambient_RH. cbn [wx_env c_RH c_RH_max]. rewrite Rmin_left by lra. lra. }
  split; [|apply A]. unfold env_ok. cbn [wx_env c_rhod c_rv c_T c_eta c_lambda_D c_lambda_K].
  split; [lra|]. split; [lra|]. split; [unfold T_tri; lra|]. split.
  - unfold visc. replace (T_tri / T_tri) with 1 by (field; unfold T_tri; lra). rewrite sqrt_1. unfold T_tri. lra.
  - split; [apply A|]. split.
    + unfold lambda_D, D_0, T_tri. apply Rmult_le_pos; [lra|]. apply Rlt_le, Rinv_0_lt_compat, sqrt_lt_R0. 
      assert (0 < R_v) by (unfold R_v, kaBoNA, M_v, M_H, M_OH; lra). lra.
    + unfold lambda_K, K_0, T_tri. apply Rmult_le_pos; [lra|]. apply Rlt_le, Rinv_0_lt_compat, sqrt_lt_R0.
      assert (0 < R_d) by (unfold R_d, kaBoNA, M_d; lra). lra.
Qed.
Lemma wx_rate a : 1 / 10 ^ 9 < a -> drw2_dt_ice (wx_env T_tri) (a * a) / (2 * a) < 0.
Proof.
  intros Ha. destruct wx_env_dry as [E R]. pose proof (C52_ice (wx_env T_tri) 1 a a E ltac:(cbn; lra) ltac:(lra)) as H.
  unfold advance_ice_ac in H. replace (Rleb a 0) with false in H by (symmetry; apply Rleb_false; lra). cbn [orb] in H.
  destruct H as (_ & H). destruct (H ltac:(lra) ltac:(lra)) as (_ & _ & _ & _ & K). destruct (K R Ha Ha) as [K1 _].
  rewrite cmax_Rmax in K1. set (q := drw2_dt_ice _ _ / _) in *. clearbody q. pose proof (Rmax_l (a + 1 * q) (1 / 1000000000)). lra.
Qed.

(** whole steps *)
Definition wx_reset (E : cells) : cells :=
  mk_cells (e_nc E) (fun _ => 1 / 1000) (fun _ => T_tri) (e_rhod E) (e_p E) (e_T E) (e_RH E) (e_RHi E) (e_eta E) (e_dv E).
Definition wx_air (W : world) : Prop := e_nc (w_E W) = 1%nat /\ e_rhod (w_E W) 0%nat = 1 /\ e_p (w_E W) 0%nat = 100000.
Lemma wx_cpow_1 y : cpow 1 y = 1.
Proof. unfold cpow. destruct (Rlt_dec 0 1) as [_|]; [|lra]. unfold Rpower. rewrite ln_1, Rmult_0_r. apply exp_0. Qed.
Lemma wx_exner : exner 100000 = 1.
Proof. unfold exner. replace (100000 / p_1000) with 1 by (unfold p_1000; lra). apply wx_cpow_1. Qed.
Definition wx_ok (t : sopts * step_states) : Prop :=
  step_ok wx_F t /\ (so_cond (fst t) = true -> cfg_ok (o_k (so_c (fst t)))) /\
  (forall i, (p_np (w_P (at_moved (snd t))) <= i < p_np (w_P (at_added (snd t))))%nat -> wet_enough (at_added (snd t)) i).
(** what the parts of step_sync give is kept to the end of the step *)
Lemma wx_step dt nuc cnd W W2 W3 x rd3 : let so := wx_so dt nuc cnd in let W1 := with_E W (wx_reset (w_E W)) in
  state_ok wx_F W -> (state_ok wx_F W1 -> nucl wx_F so W1 W2 /\ cond so W2 W3 /\ state_ok wx_F W3 /\ one_sd W3 x rd3 /\ wx_air W3) ->
  exists s, at_start s = W /\ step wx_F so s /\ wx_ok (so, s) /\ state_ok wx_F (at_end s) /\ one_sd (at_end s) x rd3 /\ p_vt (w_P (at_end s)) 0%nat = 0 /\
    wx_air (at_end s) /\ (nuc = false -> cnd = false -> e_T (w_E (at_end s)) 0%nat = T_tri).
Proof.
  intros so W1 HW H. assert (H1 : sync_in so W W1).
  { exists (fun _ => 1 / 1000), (fun _ => T_tri), (e_rhod (w_E W)). split; [reflexivity|]. split; [|reflexivity]. intros c Hc. apply HW, Hc. }
  destruct (sync_part wx_F so W W1 H1 HW) as (A1 & _). destruct (H A1) as (H2 & H3 & B1 & B2 & B3).
  destruct (wx_tail dt nuc cnd W3 x rd3 B1 B2) as (W4 & W7 & W8 & W9 & T). fold so in T. cbv zeta in T.
  destruct T as (T1 & T2 & T3 & T4 & T5 & T6 & T7 & T8 & T9 & T10).
  exists (mk_ss W W1 W7 W8 W9). cbn [at_start at_end]. split; [reflexivity|]. split; [|split; [|split; [exact T7|split; [exact T8|split; [exact T9|split]]]]].
  - exists W2, W3, W4, W4. cbn [at_start at_synced at_moved at_added at_end]. auto 10.
  - split; [|split].
    + unfold step_ok. cbn [fst snd]. split; [reflexivity|]. split; [reflexivity|]. split; [reflexivity|]. split; [cbn; lia|]. split; [reflexivity|].
      split; [|discriminate]. intros _. left. split; [reflexivity|]. right; left; reflexivity.
    + intros _. exact cfg_double_ok.
    + cbn [fst snd at_moved at_added]. intros i Hi. lia.
  - destruct B3 as (E1 & E2 & E3). unfold wx_air. rewrite T10. cbn [hskpng_Tpr e_nc e_rhod e_p]. auto.
  - intros -> ->. cbn in H2, H3. subst W2 W3. rewrite T10. cbn [hskpng_Tpr e_T]. unfold T_of. cbn [wx_c o_th_dry].
    destruct B3 as (_ & _ & E3). rewrite E3. cbn [W1 with_E w_E wx_reset e_th]. rewrite wx_exner. ring.
Qed.
Lemma wx_sort W : p_np (w_P W) = 1%nat -> p_ijk (w_P W) 0%nat = 0%nat -> sorted W [0%nat] [0%nat].
Proof.
  intros H1 H2. exists true. rewrite H1. cbn [seq map]. rewrite H2. unfold sort_helper. exists [1%nat], [1%nat], [0%nat].
  split; [reflexivity|]. split; (split; [reflexivity|]; split; [reflexivity|]; split; [reflexivity|repeat constructor]).
Qed.

Definition wx_all_liquid (W : world) : Prop := forall i, ~ crystal wx_F W i.
(** the steps *)
Lemma wx_freeze dt a : freeze wx_x0 = (0, a, a, 910) -> exists s, at_start s = wx_W /\ step wx_F (wx_so dt true false) s /\ wx_ok (wx_so dt true false, s) /\
  state_ok wx_F (at_end s) /\ one_sd (at_end s) (0, a, a, 910) (1 / 10 ^ 21) /\ p_vt (w_P (at_end s)) 0%nat = 0 /\ wx_air (at_end s).
Proof.
  intros Hf. set (so := wx_so dt true false). set (W1 := with_E wx_W (wx_reset (w_E wx_W))).
  set (g := fun _ : nat => 0). set (st := ice_nucl_melt (so_c so) (so_io so) g [0%nat] [0%nat] (cst_of W1)).
  destruct (wx_step dt true false wx_W (with_cst W1 st) (with_cst W1 st) (0, a, a, 910) (1 / 10 ^ 21) wx_state_ok) as (s & S1 & S2 & S3 & S4 & S5 & S6 & S7 & _).
  - intros HW1. fold so W1.
    assert (N : nucl wx_F so W1 (with_cst W1 st)).
    { unfold nucl. cbn [wx_F f_ice so so_nucl wx_so andb]. exists g, [0%nat], [0%nat]. split; [apply wx_sort; reflexivity|reflexivity]. }
    split; [exact N|]. split; [reflexivity|]. destruct (nucl_part wx_F so W1 _ N eq_refl eq_refl HW1) as ((B1 & _) & _). split; [exact B1|].
    split; [|split; [reflexivity|split; reflexivity]]. split; [reflexivity|]. split; [reflexivity|]. split; [reflexivity|]. split; [|reflexivity].
    cbn [with_cst w_P]. unfold st. rewrite nucl_attr. unfold nucl_melt_one. cbv zeta. cbn [so wx_so so_io i_time_dep i_T_freeze].
    change (ice_attr (s_P (cst_of W1)) 0) with wx_x0. change (e_T (s_E (cst_of W1)) (p_ijk (s_P (cst_of W1)) 0)) with 250.
    change (e_RH (s_E (cst_of W1)) (p_ijk (s_P (cst_of W1)) 0)) with 2.
    assert (SF : singular_freeze 260 250 2 wx_x0 = freeze wx_x0).
    { unfold singular_freeze, wx_x0. replace (Rltb 0 (1 / 10 ^ 10)) with true by (symmetry; apply Rltb_true; lra).
      replace (Rleb 250 260) with true by (symmetry; apply Rleb_true; lra). replace (Rleb 1 2) with true by (symmetry; apply Rleb_true; lra). reflexivity. }
    rewrite SF, Hf. apply melt_not. right. lra.
  - exists s. auto 10.
Qed.
Lemma wx_idle dt W x : state_ok wx_F W -> one_sd W x (1 / 10 ^ 21) -> wx_air W ->
  exists s, at_start s = W /\ step wx_F (wx_so dt false false) s /\ wx_ok (wx_so dt false false, s) /\
  state_ok wx_F (at_end s) /\ one_sd (at_end s) x (1 / 10 ^ 21) /\ p_vt (w_P (at_end s)) 0%nat = 0 /\ wx_air (at_end s) /\ e_T (w_E (at_end s)) 0%nat = T_tri.
Proof.
  intros HW HS HA. set (W1 := with_E W (wx_reset (w_E W))).
  destruct (wx_step dt false false W W1 W1 x (1 / 10 ^ 21) HW) as (s & S1 & S2 & S3 & S4 & S5 & S6 & S7 & S8).
  - intros HW1. fold W1. split; [reflexivity|]. split; [reflexivity|]. split; [exact HW1|]. split; [exact HS|exact HA].
  - exists s. auto 10.
Qed.
Lemma wx_melt dt W : state_ok wx_F W -> one_sd W (0, 1 / 10 ^ 9, 1 / 10 ^ 9, 910) (1 / 10 ^ 21) -> wx_air W -> e_T (w_E W) 0%nat = T_tri ->
  exists s w, at_start s = W /\ step wx_F (wx_so dt true false) s /\ wx_ok (wx_so dt true false, s) /\ sqrt w ^ 3 = 91 / 10 ^ 29 /\
  state_ok wx_F (at_end s) /\ one_sd (at_end s) (w, 0, 0, 0) (1 / 10 ^ 21).
Proof.
  intros HW HS HA HT. set (so := wx_so dt true false). set (W1 := with_E W (wx_reset (w_E W))).
  set (g := fun _ : nat => 0). set (st := ice_nucl_melt (so_c so) (so_io so) g [0%nat] [0%nat] (cst_of W1)).
  set (w := cpow (rho_i / rho_w * (1 / 10 ^ 9)) (2 / 3) * cpow (1 / 10 ^ 9) (4 / 3)).
  destruct HS as (N1 & N2 & N3 & N4 & N5).
  destruct (wx_step dt true false W (with_cst W1 st) (with_cst W1 st) (w, 0, 0, 0) (1 / 10 ^ 21) HW) as (s & S1 & S2 & S3 & S4 & S5 & S6 & S7 & _).
  - intros HW1. fold so W1.
    assert (N : nucl wx_F so W1 (with_cst W1 st)).
    { unfold nucl. cbn [wx_F f_ice so so_nucl wx_so andb]. exists g, [0%nat], [0%nat]. split; [apply wx_sort; assumption|reflexivity]. }
    split; [exact N|]. split; [reflexivity|]. destruct (nucl_part wx_F so W1 _ N eq_refl eq_refl HW1) as ((B1 & _) & _). split; [exact B1|].
    split; [|exact HA]. split; [exact N1|]. split; [exact N2|]. split; [exact N3|]. split; [|exact N5].
    cbn [with_cst w_P]. unfold st. rewrite nucl_attr. unfold nucl_melt_one. cbv zeta. cbn [so wx_so so_io i_time_dep i_T_freeze].
    change (ice_attr (s_P (cst_of W1)) 0) with (ice_attr (w_P W) 0). rewrite N4.
    change (e_T (s_E (cst_of W1)) (p_ijk (s_P (cst_of W1)) 0)) with (e_T (w_E W) (p_ijk (w_P W) 0)). rewrite N3, HT.
    assert (SF : forall T RH, singular_freeze 260 T RH (0, 1 / 10 ^ 9, 1 / 10 ^ 9, 910) = (0, 1 / 10 ^ 9, 1 / 10 ^ 9, 910)).
    { intros T RH. unfold singular_freeze. replace (Rltb 0 0) with false by (symmetry; apply Rltb_false; lra). reflexivity. }
    rewrite SF. unfold melt. replace (Rltb 0 (1 / 10 ^ 9 * (1 / 10 ^ 9))) with true by (symmetry; apply Rltb_true; lra).
    replace (Rltb (27315 / 100) T_tri) with true by (symmetry; apply Rltb_true; unfold T_tri; lra). reflexivity.
  - exists s, w. split; [exact S1|]. split; [exact S2|]. split; [exact S3|]. split; [|auto]. unfold w. rewrite melt_radius by lra. unfold rho_i, rho_w. field.
Qed.
Lemma wx_sublimate a : 1 / 10 ^ 9 < a -> exists dt, forall W, state_ok wx_F W -> one_sd W (0, a, a, 910) (1 / 10 ^ 21) -> wx_air W ->
  p_vt (w_P W) 0%nat = 0 -> e_T (w_E W) 0%nat = T_tri ->
  exists s, at_start s = W /\ step wx_F (wx_so dt false true) s /\ wx_ok (wx_so dt false true, s) /\
  state_ok wx_F (at_end s) /\ one_sd (at_end s) (0, 1 / 10 ^ 9, 1 / 10 ^ 9, 910) (1 / 10 ^ 21) /\ wx_air (at_end s).
Proof.
  intros Ha. pose proof (wx_rate a Ha) as HR. set (q := drw2_dt_ice (wx_env T_tri) (a * a) / (2 * a)) in *.
  exists (a / - q). intros W HW (N1 & N2 & N3 & N4 & N5) HA HV HT. set (dt := a / - q). set (so := wx_so dt false true). set (W1 := with_E W (wx_reset (w_E W))).
  set (g := mk_junk (fun _ => 0) (fun _ => 0) (fun _ => 0) (fun _ => 0)).
  set (l1 := percell_substep (wx_c dt) g (mfp_D (w_E W1)) (mfp_K (w_E W1)) [0%nat] [0%nat] 0 (mk_pcst (cst_of W1) (g_rw g) (g_ice g))).
  set (st := sstp_save (wx_c dt) true (l_st l1)).
  destruct HA as (HA1 & HA2 & HA3). unfold ice_attr in N4. injection N4 as R1 R2 R3 R4.
  destruct (wx_step dt false true W W1 (with_cst W1 st) (0, 1 / 10 ^ 9, 1 / 10 ^ 9, 910) (1 / 10 ^ 21) HW) as (s & S1 & S2 & S3 & S4 & S5 & S6 & S7 & _).
  - intros HW1. fold so W1.
    assert (HC : cond_part (wx_c dt) true g [0%nat] [0%nat] (cst_of W1) st) by (apply (cp_percell (wx_c dt) true g [0%nat] [0%nat] (cst_of W1)); reflexivity).
    assert (CO : cond so W1 (with_cst W1 st)).
    { unfold cond. cbn [so so_cond wx_so]. exists g, [0%nat], [0%nat], st. split; [apply wx_sort; assumption|]. split; [exact HC|reflexivity]. }
    split; [reflexivity|]. split; [exact CO|].
    assert (AC : accurate so W1) by (intros _; left; split; [reflexivity|right; left; reflexivity]).
    destruct (cond_step wx_F wx_setup_ok so W1 _ CO eq_refl eq_refl eq_refl ltac:(cbn; lia) AC HW1) as ((B1 & _) & _). split; [exact B1|].
    assert (ATT : s_P st = s_P (l_st l1) /\ e_nc (s_E st) = 1%nat /\ e_rhod (s_E st) 0%nat = 1 /\ e_p (s_E st) 0%nat = 100000).
    { split; [reflexivity|]. split; [exact HA1|]. split; [exact HA2|exact HA3]. }
    destruct ATT as (T1 & T2 & T3 & T4). split; [|split; [exact T2|split; [exact T3|exact T4]]]. unfold one_sd. cbn [with_cst w_P]. rewrite T1.
    split; [exact N1|]. split; [exact N2|]. split; [exact N3|]. split; [|exact N5].
    unfold l1, percell_substep. cbn [l_st s_P]. unfold sstp_percell_step. cbn [wx_c o_sstp Nat.eqb]. unfold apply_sgs_supersat. cbn [wx_c o_turb o_ice].
    set (E1 := hskpng_Tpr (wx_c dt) (w_E W1)).
    set (P2 := grow_liq (wx_c dt) (mfp_D (w_E W1)) (mfp_K (w_E W1)) (w_P W) E1).
    assert (Q1 : p_rw2 P2 0%nat = 0).
    { unfold P2, grow_liq. cbn [set_rw2 p_rw2]. rewrite R1. unfold advance_rw2, advance_rw2_rate.
      replace (Rleb 0 0) with true by (symmetry; apply Rleb_true; lra). reflexivity. }
    set (env := cell_env (wx_c dt) (mfp_D (w_E W1)) (mfp_K (w_E W1)) P2 E1 (fun i => e_RHi E1 (p_ijk P2 i)) 0).
    assert (QE : drw2_dt_ice env (a * a) = drw2_dt_ice (wx_env T_tri) (a * a)).
    { assert (TE : e_T E1 0%nat = T_tri /\ e_p E1 0%nat = 100000).
      { unfold E1, hskpng_Tpr. cbn [e_T e_p]. unfold T_of, p_of. cbn [wx_c o_th_dry o_const_p l_st cst_of s_E W1 with_E w_E wx_reset e_th e_p].
        rewrite HA3, wx_exner. split; [ring|reflexivity]. }
      destruct TE as [TE PE]. unfold drw2_dt_ice, rdrdt_i, eff_D, eff_K, RH_lim. unfold env, cell_env. cbv zeta.
      cbn [c_rhod c_rv c_T c_eta c_rd3 c_kpa c_vt c_p c_RH c_RH_max c_lambda_D c_lambda_K wx_env].
      change (p_ijk P2 0%nat) with (p_ijk (w_P W) 0%nat). change (p_vt P2 0%nat) with (p_vt (w_P W) 0%nat). rewrite N3, HV, TE.
      change (e_rhod E1 0%nat) with (e_rhod (w_E W) 0%nat). rewrite HA2. change (e_rv E1 0%nat) with (1 / 1000).
      replace (e_eta E1 0%nat) with (visc T_tri) by (rewrite <- TE; reflexivity).
      replace (e_RHi E1 0%nat) with (p_v 100000 (1 / 1000) / p_vsi T_tri) by (rewrite <- TE at 1; rewrite <- PE; reflexivity).
      unfold mfp_D, mfp_K. change (e_T (w_E W1) 0%nat) with (e_T (w_E W) 0%nat). change (e_p (w_E W1) 0%nat) with (e_p (w_E W) 0%nat).
      rewrite HT, HA3. reflexivity. }
    change ((p_rw2 P2 0%nat, fst (advance_ice_ac env (sub_dt (wx_c dt)) (p_ia P2 0%nat, p_ic P2 0%nat)),
      snd (advance_ice_ac env (sub_dt (wx_c dt)) (p_ia P2 0%nat, p_ic P2 0%nat)), p_irho P2 0%nat) = (0, 1 / 10 ^ 9, 1 / 10 ^ 9, 910)).
    change (p_ia P2 0%nat) with (p_ia (w_P W) 0%nat). change (p_ic P2 0%nat) with (p_ic (w_P W) 0%nat). change (p_irho P2 0%nat) with (p_irho (w_P W) 0%nat).
    rewrite Q1, R2, R3, R4. unfold advance_ice_ac. replace (Rleb a 0) with false by (symmetry; apply Rleb_false; lra). cbn [orb fst snd].
    rewrite QE. fold q. unfold sub_dt. cbn [wx_c o_dt o_sstp INR].
    assert (Z : cmax (a + dt / 1 * q) (1 / 1000000000) = 1 / 10 ^ 9).
    { rewrite cmax_Rmax. replace (a + dt / 1 * q) with 0 by (unfold dt; field; lra). rewrite Rmax_right; lra. }
    rewrite Z. reflexivity.
  - exists s. auto 10.
Qed.

Theorem C92_melting_refuted : exists F W l W',
  setup_ok F /\ run F W l W' /\ state_ok F W /\ Forall (step_ok F) l /\
  (* all that C92_never_drier_partial asks from steps, but for the condition on melting *)
  Forall (fun t => (so_cond (fst t) = true -> cfg_ok (o_k (so_c (fst t)))) /\
    (forall i, (p_np (w_P (at_moved (snd t))) <= i < p_np (w_P (at_added (snd t))))%nat -> wet_enough (at_added (snd t)) i)) l /\
  never_drier F W /\ (forall i, (i < p_np (w_P W))%nat -> ~ crystal F W i) /\
  (forall i, (i < p_np (w_P W'))%nat -> ~ crystal F W' i) /\ ~ never_drier F W'.
Proof.
  destruct wx_frozen as (a & Ha & Hf). destruct (wx_sublimate a Ha) as (dt & HS).
  destruct (wx_freeze dt a Hf) as (s1 & A1 & A2 & A3 & A4 & A5 & A6 & A7).
  destruct (wx_idle dt _ _ A4 A5 A7) as (s2 & B1 & B2 & B3 & B4 & B5 & B6 & B7 & B8).
  destruct (HS _ B4 B5 B7 B6 B8) as (s3 & C1 & C2 & C3 & C4 & C5 & C6).
  destruct (wx_idle dt _ _ C4 C5 C6) as (s4 & D1 & D2 & D3 & D4 & D5 & D6 & D7 & D8).
  destruct (wx_melt dt _ D4 D5 D7 D8) as (s5 & w & E1 & E2 & E3 & E4 & E5 & E6).
  set (l := [(wx_so dt true false, s1); (wx_so dt false false, s2); (wx_so dt false true, s3); (wx_so dt false false, s4); (wx_so dt true false, s5)]).
  assert (OK : Forall wx_ok l) by (repeat (constructor; [assumption|]); constructor).
  exists wx_F, wx_W, l, (at_end s5). split; [exact wx_setup_ok|]. split.
  { unfold l. rewrite <- A1. apply run_cons; [exact A2|]. rewrite <- B1. apply run_cons; [exact B2|]. rewrite <- C1. apply run_cons; [exact C2|].
    rewrite <- D1. apply run_cons; [exact D2|]. rewrite <- E1. apply run_cons; [exact E2|]. apply run_nil. }
  split; [exact wx_state_ok|]. split; [eapply Forall_impl; [|exact OK]; intros t H; apply H|]. split; [eapply Forall_impl; [|exact OK]; intros t H; apply H|].
  split; [|split; [|split]].
  - intros i Hi _. unfold wet_enough. cbn [wx_W w_P wx_P p_rd3 p_rw2]. replace (1 / 10 ^ 10) with (1 / 10 ^ 5 * (1 / 10 ^ 5)) by field.
    rewrite sqrt_square by lra. lra.
  - intros i _ [_ C]. cbn [wx_W w_P wx_P p_ia] in C. lra.
  - destruct E6 as (N1 & _ & _ & N4 & _). intros i Hi [_ C]. rewrite N1 in Hi. assert (i = 0%nat) by lia. subst i.
    unfold ice_attr in N4. injection N4 as _ R2 _ _. lra.
  - destruct E6 as (N1 & _ & _ & N4 & N5). unfold ice_attr in N4. injection N4 as R1 R2 _ _. intros H. specialize (H 0%nat ltac:(lia)).
    assert (NC : ~ crystal wx_F (at_end s5) 0) by (intros [_ C]; lra). specialize (H NC). unfold wet_enough in H. rewrite R1, N5, E4 in H. lra.
Qed.

(** an instance of the theorem: the run of C81_instance, with condensation, collisions, a source, walls and removal *)
Theorem C92_instance : exists F W so s W',
  setup_ok F /\ state_ok F W /\ run F W [(so, s)] W' /\ Forall (step_ok F) [(so, s)] /\ Forall (wet_step_ok F) [(so, s)] /\ never_drier F W /\
  p_np (w_P W) = 2%nat /\ so_cond so = true /\ so_coal so = true /\ over (added one) [(so, s)] = 2 /\ never_drier F W'.
Proof.
  destruct ex_stage1 as (W1 & W3 & H1 & AC & H3 & B1 & N3 & I3 & M3 & U3).
  destruct (ex_stage2 W3 B1 N3 I3 M3 U3) as (W4 & W6 & H4 & H5 & G1 & N6 & M6 & U6).
  destruct (ex_stage3 W1 W6 G1 N6 M6 U6) as (W7 & W8 & W9 & H6 & H7 & SZ & H8 & K1 & AE & PN & tmp & sid & ST).
  destruct (C05_totals_conserved (fun _ => 0) (fun _ => 0%N) (f_max ex_F) (n_vec ex_F) 0 false tmp sid (fun l m => seq 0 m) false (pop_of W9) (fun _ => 0)
     (conj (proj1 K1) (conj ST (fun l m => Permutation_refl (seq 0 m))))) as (p' & EP & _).
  set (s := mk_ss ex_W W1 W7 W8 (with_pop ex_F W9 p')).
  assert (RN : run ex_F ex_W [(ex_so, s)] (at_end s)).
  { refine (run_cons ex_F ex_so s [] _ _ (run_nil ex_F _)).
    exists W1, W3, W4, W6. cbn [s at_start at_synced at_moved at_added at_end]. split; [exact H1|]. split; [reflexivity|]. split; [exact H3|].
    split; [exact H4|]. split; [exact H5|]. split; [exact H6|]. split; [exact H7|]. rewrite H8.
    exists (fun _ => 0), (fun _ => 0%N), tmp, sid, (fun l m => seq 0 m), p'. split; [exact ST|]. split; [intros; apply Permutation_refl|].
    split; [exact EP|reflexivity]. }
  assert (OK : Forall (step_ok ex_F) [(ex_so, s)]).
  { constructor; [|constructor]. unfold step_ok. cbn [fst snd]. repeat (split; [first [reflexivity|discriminate|cbn; lia]|]).
    split; [exact AC|]. intros E. discriminate E. }
  assert (WE : forall rd3 rw2, rd3 = 1 -> rw2 = 1 -> rd3 <= sqrt rw2 ^ 3) by (intros rd3 rw2 -> ->; rewrite sqrt_1; lra).
  assert (WO : Forall (wet_step_ok ex_F) [(ex_so, s)]).
  { constructor; [|constructor]. split; [|split].
    - intros _. exact cfg_double_ok.
    - cbn [snd s at_moved at_added]. intros i Hi. destruct (SZ i Hi) as [Z1 Z2]. apply WE; assumption.
    - intros E. discriminate E. }
  assert (ND : never_drier ex_F ex_W) by (intros i _ _; apply WE; reflexivity).
  exists ex_F, ex_W, ex_so, s, (at_end s). split; [exact ex_setup_ok|]. split; [exact ex_state_ok|]. split; [exact RN|]. split; [exact OK|].
  split; [exact WO|]. split; [exact ND|]. split; [reflexivity|]. split; [reflexivity|]. split; [reflexivity|]. split.
  - unfold over. cbn [map lsumR fold_right snd]. unfold s. rewrite (proj1 (AE _)). lra.
  - exact (C92_never_drier_partial ex_F ex_W _ _ ex_setup_ok RN ex_state_ok OK WO ND).
Qed.
Print Assumptions C92_never_drier_partial.
Print Assumptions C92_melting_refuted.
Print Assumptions C92_instance.
