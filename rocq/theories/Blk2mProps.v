(** * C61, C62, C63: the double-moment bulk scheme in one cell *)
From Coq Require Import List Arith NArith ZArith Reals Bool Lia Lra Psatz.
From Verif Require Import Base BaseProofs ThermoModel ThermoProofs CondModel InitModel Blk2mModel.
Import ListNotations.
Open Scope R_scope.

(** ** Specification *)
(** the change of tendencies made by one call *)
Definition change (f : dots2 -> R) (d d' : dots2) : R := f d' - f d.
(** what a forward Euler step gives, when there are no other tendencies *)
Definition after (dt q dot : R) : R := q + dt * dot.
Definition no_dots : dots2 := {| dth := 0; drv := 0; drc := 0; dnc := 0; drr := 0; dnr := 0 |}.
(** a physical cell *)
Definition good_cell (c : cell2) : Prop := 0 < rhod c /\ 0 <= rv c /\ 0 <= rc c /\ 0 <= nc c /\ 0 <= rr c /\ 0 <= nr c.
(** Khairoutdinov and Kogan's autoconversion and accretion *)
Definition kk_autoconversion (o : opts2) (c : cell2) : R := b_A o * Rpower (rc c) (b_b o) * Rpower (rhod c * nc c / 1000000) (b_c o).
Definition kk_accretion (c : cell2) : R := 67 * Rpower (rc c * rr c) (115 / 100).
(** properties of the library functions that matter *)
Definition gamma_like (g : R -> R) : Prop := (forall x, 0 < x -> 0 < g x) /\ (forall x, 0 < x -> g (x + 1) = x * g x) /\ g 1 = 1.
Definition erfc_like (e : R -> R) : Prop := forall x, 0 <= e x <= 2.

(** temperature and pressure for the two ways to give the state of the air: dry potential temperature and density, or
    potential temperature and pressure *)
Definition air (o : opts2) (c : cell2) (T p : R) : Prop :=
  (b_th_dry o = true /\ b_const_p o = false /\ T = dry_T (th c) (rhod c) /\ p = rhod c * (R_d + rv c * R_v) * T) \/
  (b_th_dry o = false /\ b_const_p o = true /\ T = th c * exner p /\ p = pres c).
(** the call [rhs_cellwise2 .. l = (true, l')] made [d] into [d'] in cell [c], number [i] *)
Definition cell_of (l l' : list (cell2 * dots2)) (i : nat) (c : cell2) (d d' : dots2) : Prop :=
  nth_error l i = Some (c, d) /\ nth_error l' i = Some (c, d').

Lemma cmin_le_r a b : cmin a b <= b. Proof. rewrite cmin_Rmin. apply Rmin_r. Qed.
Lemma cmin_le_l a b : cmin a b <= a. Proof. rewrite cmin_Rmin. apply Rmin_l. Qed.
Lemma cmax_ge_r a b : b <= cmax a b. Proof. rewrite cmax_Rmax. apply Rmax_r. Qed.
Lemma cmax_ge_l a b : a <= cmax a b. Proof. rewrite cmax_Rmax. apply Rmax_l. Qed.

Section Cell.
  Variables (tgamma erfc : R -> R) (num_eps : R) (o : opts2) (dt : R) (c : cell2) (T p : R).
  Hypotheses (Hdt : 0 < dt) (Hc : good_cell c) (He : 0 <= num_eps) (HA : 0 <= b_A o).
  Notation fr := (first_rc tgamma erfc num_eps o dt c T p).
  Notation fR := (first_rr tgamma num_eps o dt c T p).
  Notation fn := (first_nc tgamma erfc num_eps o dt c T p).
  Notation fN := (first_nr tgamma num_eps o dt c T p).
  Notation sr := (second_rc tgamma num_eps o dt c T p).
  Notation sR := (second_rr tgamma num_eps o dt c T p).
  Notation sn := (second_nc tgamma num_eps o dt c T p).
  Notation sN := (second_nr num_eps o dt c).
  Notation ac := (acnv_rate num_eps o dt c).
  Notation ar := (accr_rate tgamma num_eps o dt c T p).

  Lemma div_dt q : dt * (- q / dt) = - q. Proof. field. lra. Qed.
  Lemma first_rc_lower : - rc c / dt <= fr. Proof. unfold first_rc. apply cmax_ge_r. Qed.
  Lemma first_rr_lower : - rr c / dt <= fR. Proof. unfold first_rr. apply cmax_ge_r. Qed.
  Lemma rain_rate_neg : rain_rate tgamma num_eps o c T p <= 0.
  Proof. unfold rain_rate. destruct (b_cond o); [|lra]. destruct (_ && _); [apply cmin_le_r|lra]. Qed.
  Lemma quot_nonneg q : 0 <= q -> 0 <= q / dt.
  Proof. intros H. apply Rmult_le_pos; [exact H|left; now apply Rinv_0_lt_compat]. Qed.
  Lemma quot_neg q : 0 <= q -> - q / dt <= 0.
  Proof. intros H. assert (Q := quot_nonneg q H). unfold Rdiv in *. lra. Qed.
  Lemma first_rr_neg : fR <= 0.
  Proof. unfold first_rr. rewrite cmax_Rmax. apply Rmax_lub; [apply rain_rate_neg|apply quot_neg; apply Hc]. Qed.
  Lemma acnv_nonneg : 0 <= ac.
  Proof.
    unfold acnv_rate. destruct (acnv_on _ _ _); [|lra]. rewrite cmin_Rmin. apply Rmin_glb; [|apply quot_nonneg; apply Hc].
    unfold autoconv_rate. apply Rmult_le_pos; [apply Rmult_le_pos; [exact HA|apply cpow_nonneg]|apply cpow_nonneg].
  Qed.
  Lemma acnv_le : ac <= rc c / dt.
  Proof. unfold acnv_rate. destruct (acnv_on _ _ _); [apply cmin_le_r|apply quot_nonneg; apply Hc]. Qed.
  Lemma accr_nonneg : 0 <= ar.
  Proof. unfold accr_rate. destruct (accr_on _ _ _ _ _ _ _); [|lra]. unfold accretion_rate. assert (Q := cpow_nonneg (rc c * rr c) (115 / 100)). lra. Qed.
  Lemma second_rc_bounds : - rc c / dt <= sr <= 0.
  Proof.
    assert (A := acnv_nonneg). assert (A' := acnv_le). assert (B := accr_nonneg). assert (Q := quot_neg (rc c)). assert (HQ : - rc c / dt <= 0) by (apply Q; apply Hc).
    unfold second_rc. destruct (accr_on _ _ _ _ _ _ _).
    - split; [apply cmax_ge_r|]. rewrite cmax_Rmax. apply Rmax_lub; lra.
    - unfold Rdiv in *. lra.
  Qed.
  Lemma second_rc_sum : sr + sR = if accr_on tgamma num_eps o dt c T p then Rmax 0 (ac + ar - rc c / dt) else 0.
  Proof.
    unfold second_rc, second_rr. unfold accr_rate. destruct (accr_on _ _ _ _ _ _ _); [|lra]. rewrite cmax_Rmax.
    set (a := accretion_rate _ _). unfold Rdiv. unfold Rmax. destruct (Rle_dec _ _), (Rle_dec _ _); lra.
  Qed.
  Lemma act_nonneg : 0 <= act_rate erfc o dt c T p.
  Proof. unfold act_rate. destruct (b_acti o); [|lra]. destruct (Rltb _ _); [|lra]. unfold activation_rate. apply cmax_ge_l. Qed.
  Lemma ccnmass_pos : 0 < ccnmass.
  Proof.
    unfold ccnmass. rewrite cpow_pos_eq by lra. assert (0 < Rpower (1 / 1000000) 3) by apply exp_pos. assert (P := PI_RGT_0). unfold rho_w.
    apply Rmult_lt_0_compat; [|lra]. apply Rmult_lt_0_compat; [|assumption]. lra.
  Qed.
End Cell.

(** Whatever the call adds to the tendencies of vapour, cloud and rain water: the sum is never negative, and it is zero unless autoconversion and
    accretion together exceed the cloud water per time step; and the potential temperature changes by the latent heat of what leaves the vapour. *)
Lemma water_cell :
  forall tgamma erfc num_eps o dt c d T p, 0 < dt -> good_cell c -> 0 <= num_eps -> 0 <= b_A o ->
    let d' := dots_of tgamma erfc num_eps o dt c T p d in
    0 <= change drv d d' + change drc d d' + change drr d d' /\
    ((0 < rc c -> 0 < nc c -> 0 < rr c -> b_accr o = true -> (if b_acnv o then kk_autoconversion o c else 0) + kk_accretion c <= rc c / dt) ->
      change drv d d' + change drc d d' + change drr d d' = 0) /\
    change dth d d' = th c / T * (l_v T / c_pd) * - change drv d d'.
Proof.
  intros tgamma erfc num_eps o dt c d T p Hdt Hc He HA d'. unfold change, d', dots_of.
  set (cl := cloud_limiter _ _ _ _ _ _ _ _). assert (S := second_rc_sum tgamma num_eps o dt c T p).
  set (fr := first_rc _ _ _ _ _ _ _ _). set (fR := first_rr _ _ _ _ _ _ _). set (sr := second_rc _ _ _ _ _ _ _) in *. set (sR := second_rr _ _ _ _ _ _ _) in *.
  assert (P : 0 <= sr + sR). { rewrite S. destruct (accr_on _ _ _ _ _ _ _); [apply Rmax_l|lra]. }
  split; [|split].
  - destruct cl; cbn [drv drc drr]; lra.
  - intros H. assert (Z : cl = false -> sr + sR = 0).
    { intros _. rewrite S. destruct (accr_on tgamma num_eps o dt c T p) eqn:E; [|reflexivity].
      assert (E' := E). unfold accr_on in E'. apply andb_prop in E'. destruct E' as (E1 & E2). apply andb_prop in E1. destruct E1 as (E1 & _). apply andb_prop in E1. destruct E1 as (E1 & _).
      apply andb_prop in E2. destruct E2 as (E2 & E4). apply andb_prop in E2. destruct E2 as (E2 & E3). apply Rltb_true in E2. apply Rltb_true in E3. apply Rltb_true in E4.
      unfold rc_eps, nc_eps, rr_eps in *. assert (H1 : 0 < rc c) by lra. assert (H2 : 0 < nc c) by lra. assert (H3 : 0 < rr c) by lra.
      specialize (H H1 H2 H3 E1). rewrite Rmax_left; [reflexivity|].
      assert (B : accr_rate tgamma num_eps o dt c T p = kk_accretion c).
      { unfold accr_rate. rewrite E. unfold accretion_rate, kk_accretion. rewrite cpow_pos_eq by nra. reflexivity. }
      assert (A : acnv_rate num_eps o dt c <= if b_acnv o then kk_autoconversion o c else 0).
      { unfold acnv_rate, acnv_on. destruct (b_acnv o); [|cbn [andb]; lra]. unfold rc_eps, nc_eps. cbn [andb].
        destruct (_ && _).
        - eapply Rle_trans; [apply cmin_le_l|]. unfold autoconv_rate, kk_autoconversion. destruct Hc as (Hr & _).
          rewrite !cpow_pos_eq by nra. right. f_equal. f_equal. lra.
        - unfold kk_autoconversion. apply Rmult_le_pos; [apply Rmult_le_pos; [exact HA|left; apply exp_pos]|left; apply exp_pos]. }
      lra. }
    destruct cl; cbn [drv drc drr]; [lra|]. specialize (Z eq_refl). lra.
  - destruct cl; cbn [dth drv]; unfold d_th_d_rv, Rdiv; ring.
Qed.

(** A forward Euler step from non-negative values leaves rain water and both numbers not negative, and cloud water too unless
    evaporation and collisions act in the same step; evaporation never takes more than there is. *)
Lemma nonneg_cell :
  forall tgamma erfc num_eps o dt c T p, 0 < dt -> good_cell c -> 0 <= num_eps -> 0 <= b_A o ->
    let d' := dots_of tgamma erfc num_eps o dt c T p no_dots in
    0 <= after dt (rr c) (drr d') /\ 0 <= after dt (nr c) (dnr d') /\ 0 <= after dt (nc c) (dnc d') /\
    - rc c / dt - (if b_acnv o || b_accr o then rc c / dt else 0) <= drc d' /\
    (b_acnv o = false -> b_accr o = false -> 0 <= after dt (rc c) (drc d')) /\
    (0 <= cloud_rate tgamma num_eps o c T p -> 0 <= after dt (rc c) (drc d')).
Proof.
  intros tgamma erfc num_eps o dt c T p Hdt Hc He HA d'. unfold d', dots_of, after.
  assert (F1 := first_rc_lower tgamma erfc num_eps o dt c T p). assert (F2 := first_rr_lower tgamma num_eps o dt c T p).
  assert (S1 := second_rc_bounds tgamma num_eps o dt c T p Hdt Hc HA). assert (A := acnv_nonneg num_eps o dt c Hdt Hc HA). assert (B := accr_nonneg tgamma num_eps o dt c T p).
  assert (AN := act_nonneg erfc o dt c T p).
  set (cl := cloud_limiter tgamma erfc num_eps o dt c T p) in *. set (fr := first_rc tgamma erfc num_eps o dt c T p) in *. set (fR := first_rr tgamma num_eps o dt c T p) in *.
  set (sr := second_rc tgamma num_eps o dt c T p) in *.
  assert (G : forall q x, - q / dt <= x -> 0 <= q + dt * x).
  { intros q x H. apply (Rmult_le_compat_l dt) in H; [|lra]. rewrite (div_dt dt Hdt) in H. lra. }
  assert (SR : 0 <= second_rr tgamma num_eps o dt c T p) by (unfold second_rr; lra).
  assert (FN : - nr c / dt <= first_nr tgamma num_eps o dt c T p).
  { unfold first_nr. destruct (rain_limiter _ _ _ _ _ _ _); [lra|apply cmax_ge_r]. }
  assert (SN : 0 <= second_nr num_eps o dt c).
  { unfold second_nr. destruct (acnv_on _ _ _); [|lra]. apply Rmult_le_pos; [exact A|]. left. apply Rinv_0_lt_compat. assert (P := PI_RGT_0). unfold rho_w, drizzle_radius.
    assert (0 < 4 / 3 * PI * 1000) by lra. nra. }
  assert (FC : cl = false -> 0 <= first_nc tgamma erfc num_eps o dt c T p) by (intros E; unfold first_nc; fold cl; rewrite E; exact AN).
  assert (SC : - nc c / dt <= second_nc tgamma num_eps o dt c T p).
  { assert (Q : - nc c / dt <= 0) by (apply quot_neg; [exact Hdt|apply Hc]). unfold second_nc. destruct (b_acnv o || b_accr o); [|exact Q].
    destruct (all_collected _ _ _ _ _ _ _); [lra|]. destruct (_ && _); [|exact Q]. assert (M := cmin_le_r (collision_sink_rate (second_rr tgamma num_eps o dt c T p) (r_drop_c tgamma (rc c) (nc c) (rhod c))) (nc c / dt)). unfold Rdiv in *. lra. }
  assert (QC : 0 <= rc c / dt) by (apply quot_nonneg; [exact Hdt|apply Hc]).
  assert (Off : b_acnv o = false -> b_accr o = false -> sr = 0).
  { intros E1 E2. unfold sr, second_rc, accr_on, acnv_rate, acnv_on. rewrite E1, E2. cbn [andb]. lra. }
  assert (CLE : cl = true -> fr = - rc c / dt) by (intros E; unfold cl, cloud_limiter in E; now apply Reqb_true in E).
  split; [|split; [|split; [|split; [|split]]]].
  - destruct cl; cbn [drr no_dots]; apply G; lra.
  - destruct cl; cbn [dnr no_dots]; apply G; lra.
  - destruct cl eqn:E; cbn [dnc no_dots].
    + unfold first_nc. fold cl. rewrite E. apply G. lra.
    + specialize (FC eq_refl). apply G. lra.
  - destruct cl; cbn [drc no_dots]; destruct (b_acnv o || b_accr o) eqn:E; try lra.
    + apply orb_false_elim in E. destruct E as (E1 & E2). rewrite (Off E1 E2). lra.
  - intros E1 E2. specialize (Off E1 E2). destruct cl; cbn [drc no_dots]; apply G; lra.
  - intros Hcr. assert (Hf : 0 <= fr).
    { unfold fr, first_rc. eapply Rle_trans; [|apply cmax_ge_l]. assert (M := ccnmass_pos). assert (0 <= act_rate erfc o dt c T p * ccnmass) by (apply Rmult_le_pos; lra). lra. }
    destruct cl; cbn [drc no_dots]; apply G; lra.
Qed.

(** ** A whole call *)
Lemma call_cells tgamma erfc num_eps o dt : forall l ok l', rhs_cellwise2 tgamma erfc num_eps o dt l = (ok, l') ->
  (ok = true -> length l' = length l /\ forall i c d, nth_error l i = Some (c, d) ->
     exists T p, air o c T p /\ nth_error l' i = Some (c, dots_of tgamma erfc num_eps o dt c T p d)) /\
  (ok = false -> l' = l /\ b_const_p o = b_th_dry o).
Proof.
  intros l. induction l as [|[c d] r IH]; intros ok l' H; cbn [rhs_cellwise2] in H.
  - injection H as <- <-. split; [|discriminate]. intros _. split; [reflexivity|]. intros i c d E. destruct i; discriminate E.
  - destruct (Tp o c) as [[T p]|] eqn:ET.
    + destruct (rhs_cellwise2 tgamma erfc num_eps o dt r) as [ok1 r1] eqn:Er. injection H as <- <-. specialize (IH ok1 r1 eq_refl). destruct IH as (IH1 & IH2). split.
      * intros Hok. destruct (IH1 Hok) as (L & IH3). split; [cbn [length]; now rewrite L|]. intros [|i] c' d' E; cbn [nth_error] in *.
        { injection E as <- <-. exists T, p. split; [|reflexivity]. unfold Tp in ET. unfold air.
          destruct (b_const_p o), (b_th_dry o); cbn [negb andb] in ET; try discriminate ET; injection ET as <- <-; [right|left]; repeat split; unfold dry_p; ring. }
        apply IH3. exact E.
      * intros Hok. destruct (IH2 Hok) as (_ & E). exfalso. unfold Tp in ET. rewrite E in ET. destruct (b_th_dry o); discriminate ET.
    + injection H as <- <-. split; [discriminate|]. intros _. split; [reflexivity|]. unfold Tp in ET. destruct (b_const_p o), (b_th_dry o); cbn [negb andb] in ET; try discriminate ET; reflexivity.
Qed.
Lemma call_cell tgamma erfc num_eps o dt l l' i c d d' : rhs_cellwise2 tgamma erfc num_eps o dt l = (true, l') -> cell_of l l' i c d d' ->
  exists T p, air o c T p /\ d' = dots_of tgamma erfc num_eps o dt c T p d.
Proof.
  intros H (E1 & E2). destruct (call_cells _ _ _ _ _ _ _ _ H) as (A & _). destruct (A eq_refl) as (_ & B). destruct (B i c d E1) as (T & p & Ha & E).
  rewrite E2 in E. injection E as ->. exists T, p. now split.
Qed.

(** C61. Whatever a call adds to the tendencies of vapour, cloud and rain water in a cell: the sum is never negative, and it is zero unless
    autoconversion and accretion together exceed the cloud water per time step; and the potential temperature changes by the latent heat of
    what leaves the vapour. *)
Theorem C61_water_partial :
  forall tgamma erfc num_eps o dt l l' i c d d', 0 < dt -> 0 <= num_eps -> 0 <= b_A o ->
    rhs_cellwise2 tgamma erfc num_eps o dt l = (true, l') -> cell_of l l' i c d d' -> good_cell c ->
    0 <= change drv d d' + change drc d d' + change drr d d' /\
    ((0 < rc c -> 0 < nc c -> 0 < rr c -> b_accr o = true -> (if b_acnv o then kk_autoconversion o c else 0) + kk_accretion c <= rc c / dt) ->
      change drv d d' + change drc d d' + change drr d d' = 0) /\
    exists T p, air o c T p /\ change dth d d' = th c / T * (l_v T / c_pd) * - change drv d d'.
Proof.
  intros tgamma erfc num_eps o dt l l' i c d d' Hdt He HA H Hi Hc. destruct (call_cell _ _ _ _ _ _ _ _ _ _ _ H Hi) as (T & p & Ha & ->).
  destruct (water_cell tgamma erfc num_eps o dt c d T p Hdt Hc He HA) as (A & B & C). split; [exact A|]. split; [exact B|]. exists T, p. now split.
Qed.
Print Assumptions C61_water_partial.

(** the sign of condensation *)
Lemma r_vs_pos T p : p_vs T < p -> 0 < r_vs T p.
Proof.
  intros H. unfold r_vs. assert (P := p_vs_pos T). apply Rdiv_lt_0_compat; [apply eps_pos|].
  assert (1 < p / p_vs T); [|lra]. apply (Rmult_lt_reg_r (p_vs T)); [exact P|]. unfold Rdiv. rewrite Rmult_assoc, Rinv_l; lra.
Qed.
Lemma c_p_pos r : 0 <= r -> 0 < c_p r.
Proof. intros H. unfold c_p, c_pd, c_pv. apply Rdiv_lt_0_compat; lra. Qed.
Definition psychro (T p r : R) : R := 1 + drv_s_dT T (r_vs T p) * l_v T / c_p r.
Lemma psychro_ge T p r : p_vs T < p -> 0 <= r -> 1 <= psychro T p r.
Proof.
  intros H Hr. unfold psychro, drv_s_dT. assert (A := r_vs_pos T p H). assert (B := c_p_pos r Hr). assert (C := R_v_pos).
  assert (D : 0 <= (l_v T * r_vs T p / R_v / (T * T)) * l_v T / c_p r); [|lra].
  assert (E : (l_v T * r_vs T p / R_v / (T * T)) * l_v T / c_p r = (l_v T * l_v T) * (r_vs T p * / R_v) * / (T * T) * / c_p r) by (unfold Rdiv; ring).
  rewrite E. apply Rmult_le_pos; [|left; now apply Rinv_0_lt_compat]. apply Rmult_le_pos.
  - apply Rmult_le_pos; [apply Rle_0_sqr|]. apply Rmult_le_pos; [lra|left; now apply Rinv_0_lt_compat].
  - destruct (Req_EM_T (T * T) 0) as [Z|Z]; [rewrite Z, Rinv_0; lra|]. left. apply Rinv_0_lt_compat. assert (Q := Rle_0_sqr T). unfold Rsqr in Q. lra.
Qed.
Lemma cond_evap_eq T p r tau : cond_evap_rate T p r tau = (r - r_vs T p) * (/ tau * / psychro T p r).
Proof. unfold cond_evap_rate. fold (psychro T p r). unfold Rdiv. ring. Qed.
Lemma factor_pos T p r tau : p_vs T < p -> 0 <= r -> 0 < tau -> 0 < / tau * / psychro T p r <= / tau.
Proof.
  intros H Hr Ht. assert (P := psychro_ge T p r H Hr). assert (I := Rinv_0_lt_compat tau Ht). assert (J : 0 < / psychro T p r) by (apply Rinv_0_lt_compat; lra). split.
  - apply Rmult_lt_0_compat; assumption.
  - assert (/ psychro T p r <= 1); [|nra]. rewrite <- Rinv_1. apply Rinv_le_contravar; lra.
Qed.
Lemma eta_pos n : 0 <= n -> 0 < eta n.
Proof. intros H. unfold eta. lra. Qed.
Lemma c_md_pos : 0 < c_md.
Proof. unfold c_md, rho_w. assert (P := PI_RGT_0). lra. Qed.
Section Sizes.
  Variable tgamma : R -> R.
  Hypothesis HG : gamma_like tgamma.
  Lemma miu1_pos n : 0 <= n -> 0 < miu_c n + 1.
  Proof. intros H. unfold miu_c. assert (E := eta_pos n H). assert (0 < 1 / (eta n * eta n)); [|lra]. apply Rdiv_lt_0_compat; nra. Qed.
  Lemma lambda_c_pos n q rho : 0 < n -> 0 < q -> 0 < rho -> 0 < lambda_c tgamma n q rho.
  Proof.
    intros Hn Hq Hr. unfold lambda_c. destruct HG as (G1 & _). assert (M := miu1_pos (n * rho) ltac:(nra)). assert (C := c_md_pos).
    assert (0 < tgamma (miu_c (n * rho) + d_md + 1)) by (apply G1; unfold d_md; lra). assert (0 < tgamma (miu_c (n * rho) + 1)) by now apply G1.
    apply cpow_pos. apply Rdiv_lt_0_compat; [apply Rmult_lt_0_compat; [nra|assumption]|nra].
  Qed.
  Lemma lambda_r_pos n q : 0 < n -> 0 < q -> 0 < lambda_r tgamma n q.
  Proof.
    intros Hn Hq. unfold lambda_r. destruct HG as (G1 & _). assert (C := c_md_pos). assert (0 < tgamma (d_md + 1)) by (apply G1; unfold d_md; lra).
    apply cpow_pos. apply Rdiv_lt_0_compat; [|assumption]. apply Rmult_lt_0_compat; [nra|assumption].
  Qed.
  Lemma r_drop_c_pos q n rho : 0 < n -> 0 < q -> 0 < rho -> 0 < r_drop_c tgamma q n rho.
  Proof.
    intros Hn Hq Hr. unfold r_drop_c. replace (Rltb 0 q && Rltb 0 n) with true by (symmetry; apply andb_true_intro; split; apply Rltb_true; lra).
    assert (M := miu1_pos (n * rho) ltac:(nra)). assert (L := lambda_c_pos n q rho Hn Hq Hr). apply Rdiv_lt_0_compat; [|lra]. now apply Rdiv_lt_0_compat.
  Qed.
  Lemma tau_c_pos q n rho : 0 < n -> 0 < q -> 0 < rho -> 0 < tau_relax_c (r_drop_c tgamma q n rho) (rho * n).
  Proof.
    intros Hn Hq Hr. assert (R := r_drop_c_pos q n rho Hn Hq Hr). assert (P := PI_RGT_0). unfold tau_relax_c, D_0. apply Rdiv_lt_0_compat; [lra|].
    apply Rmult_lt_0_compat; [|assumption]. apply Rmult_lt_0_compat; [lra|nra].
  Qed.
  Lemma beta_nonneg r : 0 <= beta_fall r.
  Proof. unfold beta_fall. repeat destruct (Rltb _ _); lra. Qed.
  Lemma tau_r_pos T q n rho : 0 < n -> 0 < q -> 0 < rho -> 0 < tau_relax_r tgamma T rho q n.
  Proof.
    intros Hn Hq Hr. assert (L := lambda_r_pos n q Hn Hq). assert (P := PI_RGT_0). destruct HG as (G1 & _). unfold tau_relax_r, D_0. apply Rdiv_lt_0_compat; [lra|].
    assert (N : 0 < N0_r tgamma n q) by (unfold N0_r; nra).
    assert (B : 0 < tgamma ((b_fall tgamma q n + 5) / 2)) by (apply G1; unfold b_fall, d_md; assert (B := beta_nonneg (r_drop_r tgamma q n)); lra).
    assert (B2 : 0 < tgamma 2) by (apply G1; lra).
    apply Rmult_lt_0_compat.
    - apply Rmult_lt_0_compat; [|assumption]. apply Rmult_lt_0_compat; [lra|nra].
    - assert (X : 0 < f1 / ThermoModel.cpow (lambda_r tgamma n q) 2) by (apply Rdiv_lt_0_compat; [unfold f1; lra|now apply cpow_pos]).
      match goal with |- 0 < _ + ?y => assert (Y : 0 <= y) end; [|lra].
      apply Rmult_le_pos; [|apply cpow_nonneg]. apply Rmult_le_pos; [|lra]. apply Rmult_le_pos; [|apply cpow_nonneg]. apply Rmult_le_pos; [unfold f2; lra|apply sqrt_pos].
  Qed.
  Variables (num_eps : R) (o : opts2) (c : cell2) (T p : R).
  Hypotheses (He : 0 <= num_eps) (Hc : good_cell c) (Hp : p_vs T < p).
  Lemma cloud_rate_sat : r_vs T p <= rv c -> 0 <= cloud_rate tgamma num_eps o c T p.
  Proof.
    intros H. unfold cloud_rate. destruct (b_cond o); [|lra]. destruct (Rltb (rc_eps num_eps) (rc c) && Rltb (nc_eps num_eps) (nc c)) eqn:E; [|lra].
    apply andb_prop in E. destruct E as (E1 & E2). apply Rltb_true in E1. apply Rltb_true in E2. unfold rc_eps, nc_eps in *. destruct Hc as (H1 & H2 & _).
    rewrite cond_evap_eq. apply Rmult_le_pos; [lra|]. left. apply factor_pos; [assumption|assumption|apply tau_c_pos; lra].
  Qed.
  Lemma cloud_rate_sub : rv c <= r_vs T p -> cloud_rate tgamma num_eps o c T p <= 0.
  Proof.
    intros H. unfold cloud_rate. destruct (b_cond o); [|lra]. destruct (Rltb (rc_eps num_eps) (rc c) && Rltb (nc_eps num_eps) (nc c)) eqn:E; [|lra].
    apply andb_prop in E. destruct E as (E1 & E2). apply Rltb_true in E1. apply Rltb_true in E2. unfold rc_eps, nc_eps in *. destruct Hc as (H1 & H2 & _).
    rewrite cond_evap_eq. assert (F := factor_pos T p (rv c) (tau_relax_c (r_drop_c tgamma (rc c) (nc c) (rhod c)) (rhod c * nc c)) Hp H2 ltac:(apply tau_c_pos; lra)). nra.
  Qed.
  Lemma rain_rate_sat : r_vs T p <= rv c -> rain_rate tgamma num_eps o c T p = 0.
  Proof.
    intros H. unfold rain_rate. destruct (b_cond o); [|lra]. destruct (Rltb (rr_eps num_eps) (rr c) && Rltb (nr_eps num_eps) (nr c)) eqn:E; [|lra].
    apply andb_prop in E. destruct E as (E1 & E2). apply Rltb_true in E1. apply Rltb_true in E2. unfold rr_eps, nr_eps in *. destruct Hc as (H1 & H2 & _).
    rewrite cmin_Rmin. apply Rmin_right. rewrite cond_evap_eq. apply Rmult_le_pos; [lra|]. left. apply factor_pos; [assumption|assumption|apply tau_r_pos; lra].
  Qed.
End Sizes.

(** C62. A forward Euler step from non-negative values, with no other tendencies, leaves rain water and both numbers not negative; cloud water too
    when collisions are off or the air is saturated; in general cloud water loses at most twice what there is. *)
Theorem C62_nonnegative_partial :
  forall tgamma erfc num_eps o dt l l' i c d', 0 < dt -> 0 <= num_eps -> 0 <= b_A o ->
    rhs_cellwise2 tgamma erfc num_eps o dt l = (true, l') -> cell_of l l' i c no_dots d' -> good_cell c ->
    0 <= after dt (rr c) (drr d') /\ 0 <= after dt (nr c) (dnr d') /\ 0 <= after dt (nc c) (dnc d') /\
    - rc c <= after dt (rc c) (drc d') /\
    (b_acnv o = false -> b_accr o = false -> 0 <= after dt (rc c) (drc d')) /\
    (gamma_like tgamma -> (forall T p, air o c T p -> p_vs T < p /\ r_vs T p <= rv c) -> 0 <= after dt (rc c) (drc d')).
Proof.
  intros tgamma erfc num_eps o dt l l' i c d' Hdt He HA H Hi Hc. destruct (call_cell _ _ _ _ _ _ _ _ _ _ _ H Hi) as (T & p & Ha & ->).
  destruct (nonneg_cell tgamma erfc num_eps o dt c T p Hdt Hc He HA) as (A & B & C & D & E & F).
  split; [exact A|]. split; [exact B|]. split; [exact C|]. split; [|split; [exact E|]].
  - unfold after in *. set (x := drc _) in *. clearbody x. assert (Q : 0 <= rc c / dt) by (apply quot_nonneg; [exact Hdt|apply Hc]).
    assert (D' : - rc c / dt - rc c / dt <= x) by (destruct (b_acnv o || b_accr o); lra).
    apply (Rmult_le_compat_l dt) in D'; [|lra]. assert (Z := div_dt dt Hdt (rc c)). assert (Z2 : dt * (rc c / dt) = rc c) by (field; lra). lra.
  - intros HG HS. destruct (HS T p Ha) as (HS1 & HS2). apply F. apply cloud_rate_sat; assumption.
Qed.
Print Assumptions C62_nonnegative_partial.
