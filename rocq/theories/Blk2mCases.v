(** * C61 and C62: cases of the double-moment bulk scheme in which water appears and mixing ratios become negative *)
From Coq Require Import List Arith NArith ZArith Reals Bool Lia Lra Psatz.
From Verif Require Import Base BaseProofs ThermoModel ThermoProofs CondModel InitModel Blk2mModel Blk2mProps.
Import ListNotations.
Open Scope R_scope.

(** default options (options.hpp:17-52), for given pressure *)
Definition opts0 : opts2 :=
  {| b_acti := true; b_cond := true; b_acnv := true; b_accr := true; b_sedi := true; b_RH_max := 44; b_A := 1350; b_b := 247 / 100; b_c := - (179 / 100);
     b_modes := [ {| md_rd := 4 / 100000000; md_sd := 14 / 10; md_N := 60000000; md_b := 55 / 100 |} ]; b_th_dry := false; b_const_p := true |}.
(** 1 g/kg of cloud water in 100 droplets per mg and 10 g/kg of rain at 0 C, 1000 hPa *)
Definition cell0 (r : R) : cell2 := {| rhod := 1; pres := 100000; th := T_tri; rv := r; rc := 1 / 1000; nc := 100000000; rr := 1 / 100; nr := 1000 |}.
Definition dt0 : R := 20.

Lemma exner_1000 : exner 100000 = 1.
Proof. unfold exner, p_1000. replace (100000 / 100000) with 1 by lra. apply cpow_1. Qed.
Lemma p_vs_tri : p_vs T_tri = p_tri.
Proof. unfold p_vs. replace (1 / T_tri - 1 / T_tri) with 0 by lra. rewrite Rmult_0_r. unfold Rdiv at 2. rewrite Rinv_r by (unfold T_tri; lra). rewrite ln_1, Rmult_0_r, Rminus_0_r, exp_0. ring. Qed.
Lemma p_vs_tri_lt : p_vs T_tri < 100000.
Proof. rewrite p_vs_tri. unfold p_tri. lra. Qed.
Lemma Tp_0 r : Tp opts0 (cell0 r) = Some (T_tri, 100000).
Proof. unfold Tp. cbn [b_const_p b_th_dry opts0 negb andb th pres cell0]. rewrite exner_1000, Rmult_1_r. reflexivity. Qed.
Lemma Rpower_dec x a b : 0 < x <= 1 -> a <= b -> Rpower x b <= Rpower x a.
Proof.
  intros H Hab. unfold Rpower. assert (L : ln x <= 0) by (rewrite <- ln_1; destruct (Req_EM_T x 1) as [->|N]; [lra|left; apply ln_increasing; lra]).
  assert (b * ln x <= a * ln x) by nra. destruct (Req_EM_T (b * ln x) (a * ln x)) as [-> |N]; [lra|]. left. apply exp_increasing. lra.
Qed.
Lemma Rpower_Z x n : 0 < x -> Rpower x (INR n) = x ^ n. Proof. apply Rpower_pow. Qed.

Section Case0.
  Variables (tgamma erfc : R -> R) (num_eps r : R).
  Hypotheses (He : 0 <= num_eps <= 1 / 1000000).
  Notation c := (cell0 r).
  Lemma above_eps : Rltb (rc_eps num_eps) (rc c) = true /\ Rltb (nc_eps num_eps) (nc c) = true /\ Rltb (rr_eps num_eps) (rr c) = true /\ Rltb (nr_eps num_eps) (nr c) = true.
  Proof. unfold rc_eps, nc_eps, rr_eps, nr_eps. cbn [rc nc rr nr cell0]. repeat split; apply Rltb_true; lra. Qed.
  Lemma acnv_on_0 : acnv_on num_eps opts0 c = true.
  Proof. destruct above_eps as (A & B & _). unfold acnv_on. rewrite A, B. reflexivity. Qed.
  Lemma acnv_small : 0 < acnv_rate num_eps opts0 dt0 c <= 135 / 10000000.
  Proof.
    unfold acnv_rate. rewrite acnv_on_0. rewrite cmin_Rmin. unfold autoconv_rate. cbn [rc nc rhod cell0 b_A b_b b_c opts0].
    rewrite !cpow_pos_eq by lra. set (x := Rpower (1 / 1000) (247 / 100)). set (y := Rpower (1 * 100000000 * (1 / 1000000)) (- (179 / 100))).
    assert (Hx : 0 < x) by apply exp_pos. assert (Hy : 0 < y) by apply exp_pos.
    assert (X : x <= 1 / 1000000).
    { unfold x. apply Rle_trans with (Rpower (1 / 1000) (INR 2)); [apply Rpower_dec; [lra|cbn [INR]; lra]|]. rewrite Rpower_pow by lra. right. field. }
    assert (Y : y <= 1 / 100).
    { unfold y. replace (1 * 100000000 * (1 / 1000000)) with (/ (1 / 100)) by field. replace (- (179 / 100)) with (- (179 / 100)) by lra.
      unfold Rpower. rewrite ln_Rinv by lra. replace (- (179 / 100) * - ln (1 / 100)) with (179 / 100 * ln (1 / 100)) by ring.
      change (Rpower (1 / 100) (179 / 100) <= 1 / 100). apply Rle_trans with (Rpower (1 / 100) (INR 1)); [apply Rpower_dec; [lra|cbn [INR]; lra]|]. rewrite Rpower_pow by lra. right. field. }
    clearbody x y. assert (XY : x * y <= 1 / 1000000 * (1 / 100)) by nra. assert (0 < x * y) by nra. split.
    - apply Rmin_glb_lt; [nra|unfold dt0; lra].
    - eapply Rle_trans; [apply Rmin_l|]. lra.
  Qed.
  Lemma not_all_converted : all_converted num_eps opts0 dt0 c = false.
  Proof.
    unfold all_converted. rewrite acnv_on_0. cbn [andb]. apply Reqb_false. assert (A := acnv_small). set (z := acnv_rate _ _ _ _) in *. clearbody z.
    cbn [rc cell0]. unfold dt0. lra.
  Qed.
  Lemma accretion_big : 67 / 1000000 <= accretion_rate (rc c) (rr c).
  Proof.
    unfold accretion_rate. cbn [rc rr cell0]. rewrite cpow_pos_eq by lra. replace (1 / 1000 * (1 / 100)) with (Rpower (1 / 10) (INR 5)) by (rewrite Rpower_pow by lra; field).
    rewrite Rpower_mult. assert (H : Rpower (1 / 10) (INR 6) <= Rpower (1 / 10) (INR 5 * (115 / 100))) by (apply Rpower_dec; [lra|cbn [INR]; lra]).
    rewrite Rpower_pow in H by lra. replace ((1 / 10) ^ 6) with (1 / 1000000) in H by field. lra.
  Qed.
  Hypothesis Hcl : cloud_limiter tgamma erfc num_eps opts0 dt0 c T_tri 100000 = false.
  Hypothesis Hrl : rain_limiter tgamma num_eps opts0 dt0 c T_tri 100000 = false.
  Lemma accr_on_0 : accr_on tgamma num_eps opts0 dt0 c T_tri 100000 = true.
  Proof. unfold accr_on. rewrite not_all_converted, Hrl. destruct above_eps as (A & B & C & _). rewrite A, B, C. reflexivity. Qed.
  Lemma second_rc_0 : second_rc tgamma num_eps opts0 dt0 c T_tri 100000 = - (5 / 100000).
  Proof.
    unfold second_rc. rewrite accr_on_0. unfold accr_rate. rewrite accr_on_0. rewrite cmax_Rmax. assert (A := acnv_small). assert (B := accretion_big).
    set (x := acnv_rate _ _ _ _) in *. set (y := accretion_rate _ _) in *. clearbody x y. cbn [rc cell0]. unfold dt0. rewrite Rmax_right; lra.
  Qed.
  Lemma second_rr_0 : 67 / 1000000 <= second_rr tgamma num_eps opts0 dt0 c T_tri 100000.
  Proof. unfold second_rr, accr_rate. rewrite accr_on_0. assert (A := acnv_small). assert (B := accretion_big). lra. Qed.
End Case0.
Lemma good_0 r : 0 <= r -> good_cell (cell0 r).
Proof. intros H. unfold good_cell. cbn [rhod rv rc nc rr nr cell0]. lra. Qed.
Lemma call_0 tgamma erfc num_eps r : rhs_cellwise2 tgamma erfc num_eps opts0 dt0 [(cell0 r, no_dots)] =
  (true, [(cell0 r, dots_of tgamma erfc num_eps opts0 dt0 (cell0 r) T_tri 100000 no_dots)]).
Proof. cbn [rhs_cellwise2]. rewrite Tp_0. reflexivity. Qed.

(** C61, the claim that no water appears: in saturated air with 1 g/kg of cloud water and 10 g/kg of rain, a call for 20 s with the default
    processes adds to the rain more water than it takes from the cloud; the difference comes from nowhere *)
Theorem C61_water_created_refuted :
  forall tgamma erfc num_eps, 0 <= num_eps <= 1 / 1000000 ->
    exists r d', good_cell (cell0 r) /\ rhs_cellwise2 tgamma erfc num_eps opts0 20 [(cell0 r, no_dots)] = (true, [(cell0 r, d')]) /\
      drv d' = 0 /\ drc d' = - (5 / 100000) /\ 67 / 1000000 <= drr d' /\ 17 / 1000000 <= drv d' + drc d' + drr d'.
Proof.
  intros tgamma erfc num_eps He. set (r := r_vs T_tri 100000). assert (Hr := r_vs_pos T_tri 100000 p_vs_tri_lt). fold r in Hr.
  exists r. eexists. split; [apply good_0; lra|]. split; [apply call_0|].
  assert (Z : forall tau, cond_evap_rate T_tri 100000 r tau = 0) by (intros tau; rewrite cond_evap_eq; fold r; ring).
  assert (CR : cloud_rate tgamma num_eps opts0 (cell0 r) T_tri 100000 = 0).
  { unfold cloud_rate. cbn [b_cond opts0 rv cell0]. rewrite Z. now destruct (_ && _). }
  assert (RR : rain_rate tgamma num_eps opts0 (cell0 r) T_tri 100000 = 0).
  { unfold rain_rate. cbn [b_cond opts0 rv cell0]. rewrite Z. rewrite cmin_Rmin. rewrite Rmin_left by lra. now destruct (_ && _). }
  assert (AR : act_rate erfc opts0 dt0 (cell0 r) T_tri 100000 = 0).
  { unfold act_rate. cbn [b_acti opts0 rv cell0]. fold r. replace (Rltb r r) with false by (symmetry; apply Rltb_false; lra). reflexivity. }
  assert (F1 : first_rc tgamma erfc num_eps opts0 dt0 (cell0 r) T_tri 100000 = 0).
  { unfold first_rc. rewrite CR, AR, cmax_Rmax. cbn [rc cell0]. unfold dt0. rewrite Rmult_0_l, Rplus_0_l. apply Rmax_left. lra. }
  assert (F2 : first_rr tgamma num_eps opts0 dt0 (cell0 r) T_tri 100000 = 0).
  { unfold first_rr. rewrite RR, cmax_Rmax. cbn [rr cell0]. unfold dt0. apply Rmax_left. lra. }
  assert (CL : cloud_limiter tgamma erfc num_eps opts0 dt0 (cell0 r) T_tri 100000 = false).
  { unfold cloud_limiter. rewrite F1. apply Reqb_false. cbn [rc cell0]. unfold dt0. lra. }
  assert (RL : rain_limiter tgamma num_eps opts0 dt0 (cell0 r) T_tri 100000 = false).
  { unfold rain_limiter. rewrite F2. apply Reqb_false. cbn [rr cell0]. unfold dt0. lra. }
  assert (S1 := second_rc_0 tgamma num_eps r He RL). assert (S2 := second_rr_0 tgamma num_eps r He RL).
  unfold dots_of. rewrite CL, F1, F2. cbn [drv drc drr no_dots]. rewrite S1. lra.
Qed.
Print Assumptions C61_water_created_refuted.

(** C62, the claim that cloud water stays non-negative: in slightly subsaturated air the droplets evaporate a little and collisions take all the
    cloud water that there was before *)
Theorem C62_cloud_negative_refuted :
  forall tgamma erfc num_eps, gamma_like tgamma -> 0 <= num_eps <= 1 / 1000000 ->
    exists r d', good_cell (cell0 r) /\ rhs_cellwise2 tgamma erfc num_eps opts0 20 [(cell0 r, no_dots)] = (true, [(cell0 r, d')]) /\
      after 20 (rc (cell0 r)) (drc d') < 0.
Proof.
  intros tgamma erfc num_eps HG He. set (s := r_vs T_tri 100000). assert (Hs := r_vs_pos T_tri 100000 p_vs_tri_lt). fold s in Hs.
  set (kc := / tau_relax_c (r_drop_c tgamma (1 / 1000) 100000000 1) (1 * 100000000)). set (kr := / tau_relax_r tgamma T_tri 1 (1 / 100) 1000).
  assert (Tc : 0 < tau_relax_c (r_drop_c tgamma (1 / 1000) 100000000 1) (1 * 100000000)) by (apply tau_c_pos; [exact HG|lra|lra|lra]).
  assert (Tr : 0 < tau_relax_r tgamma T_tri 1 (1 / 100) 1000) by (apply tau_r_pos; [exact HG|lra|lra|lra]).
  assert (Kc : 0 < kc) by now apply Rinv_0_lt_compat. assert (Kr : 0 < kr) by now apply Rinv_0_lt_compat.
  set (x := Rmin (s / 2) (Rmin (/ kc / 100000) (/ kr / 100000))).
  assert (Ic := Rinv_0_lt_compat kc Kc). assert (Ir := Rinv_0_lt_compat kr Kr).
  assert (X1 : 0 < x) by (unfold x; repeat apply Rmin_glb_lt; lra).
  assert (X2 : x <= s / 2) by (unfold x; apply Rmin_l).
  assert (X3 : x <= / kc / 100000) by (unfold x; eapply Rle_trans; [apply Rmin_r|apply Rmin_l]).
  assert (X4 : x <= / kr / 100000) by (unfold x; eapply Rle_trans; [apply Rmin_r|apply Rmin_r]).
  assert (Y3 : x * kc <= 1 / 100000). { replace (1 / 100000) with (/ kc / 100000 * kc) by (field; lra). apply Rmult_le_compat_r; lra. }
  assert (Y4 : x * kr <= 1 / 100000). { replace (1 / 100000) with (/ kr / 100000 * kr) by (field; lra). apply Rmult_le_compat_r; lra. }
  exists (s - x). eexists. split; [apply good_0; lra|]. split; [apply call_0|].
  destruct (above_eps num_eps (s - x) He) as (E1 & E2 & E3 & E4).
  assert (CR : - (1 / 100000) <= cloud_rate tgamma num_eps opts0 (cell0 (s - x)) T_tri 100000 < 0).
  { unfold cloud_rate. rewrite E1, E2. cbn [b_cond opts0 andb]. cbn [rc nc rhod rv cell0]. rewrite cond_evap_eq. fold s.
    assert (F := factor_pos T_tri 100000 (s - x) _ p_vs_tri_lt ltac:(lra) Tc). fold kc in F. set (f := _ * / psychro _ _ _) in *. clearbody f. nra. }
  assert (RR : - (1 / 100000) <= rain_rate tgamma num_eps opts0 (cell0 (s - x)) T_tri 100000 <= 0).
  { unfold rain_rate. rewrite E3, E4. cbn [b_cond opts0 andb]. cbn [rr nr rhod rv cell0]. rewrite cond_evap_eq. fold s.
    assert (F := factor_pos T_tri 100000 (s - x) _ p_vs_tri_lt ltac:(lra) Tr). fold kr in F. set (f := _ * / psychro _ _ _) in *. clearbody f. rewrite cmin_Rmin. split; [apply Rmin_glb; nra|apply Rmin_r]. }
  assert (AR : act_rate erfc opts0 dt0 (cell0 (s - x)) T_tri 100000 = 0).
  { unfold act_rate. cbn [b_acti opts0 rv cell0]. fold s. replace (Rltb s (s - x)) with false by (symmetry; apply Rltb_false; lra). reflexivity. }
  set (cr := cloud_rate tgamma num_eps opts0 (cell0 (s - x)) T_tri 100000) in *. set (qr := rain_rate tgamma num_eps opts0 (cell0 (s - x)) T_tri 100000) in *.
  assert (F1 : first_rc tgamma erfc num_eps opts0 dt0 (cell0 (s - x)) T_tri 100000 = cr).
  { unfold first_rc. fold cr. rewrite AR, cmax_Rmax. clearbody cr. cbn [rc cell0]. unfold dt0. rewrite Rmult_0_l, Rplus_0_l. apply Rmax_left. lra. }
  assert (F2 : first_rr tgamma num_eps opts0 dt0 (cell0 (s - x)) T_tri 100000 = qr).
  { unfold first_rr. fold qr. rewrite cmax_Rmax. clearbody qr. cbn [rr cell0]. unfold dt0. apply Rmax_left. lra. }
  clearbody cr qr.
  assert (CL : cloud_limiter tgamma erfc num_eps opts0 dt0 (cell0 (s - x)) T_tri 100000 = false).
  { unfold cloud_limiter. rewrite F1. apply Reqb_false. cbn [rc cell0]. unfold dt0. lra. }
  assert (RL : rain_limiter tgamma num_eps opts0 dt0 (cell0 (s - x)) T_tri 100000 = false).
  { unfold rain_limiter. rewrite F2. apply Reqb_false. cbn [rr cell0]. unfold dt0. lra. }
  assert (S1 := second_rc_0 tgamma num_eps (s - x) He RL).
  unfold dots_of. rewrite CL, F1, F2. cbn [drv drc drr no_dots]. rewrite S1. unfold after. cbn [rc cell0]. lra.
Qed.
Print Assumptions C62_cloud_negative_refuted.

(** C62, the claim that vapour stays non-negative: condensation is not limited by the vapour there is; for every supersaturated cell with cloud
    water some time step takes more *)
Theorem C62_vapour_negative_refuted :
  forall tgamma erfc num_eps o c T p, gamma_like tgamma -> 0 <= num_eps -> b_cond o = true -> good_cell c -> air o c T p -> p_vs T < p ->
    r_vs T p < rv c -> rc_eps num_eps < rc c -> nc_eps num_eps < nc c ->
    exists dt d', 0 < dt /\ rhs_cellwise2 tgamma erfc num_eps o dt [(c, no_dots)] = (true, [(c, d')]) /\ after dt (rv c) (drv d') < 0.
Proof.
  intros tgamma erfc num_eps o c T p HG He Hcond Hc Ha Hp Hs H1 H2.
  assert (K : 0 < cloud_rate tgamma num_eps o c T p).
  { unfold cloud_rate. rewrite Hcond. replace (_ && _) with true by (symmetry; apply andb_true_intro; split; now apply Rltb_true).
    rewrite cond_evap_eq. apply Rmult_lt_0_compat; [lra|]. unfold rc_eps, nc_eps in *. destruct Hc as (G1 & G2 & _).
    apply factor_pos; [assumption|assumption|apply tau_c_pos; [exact HG|lra|lra|exact G1]]. }
  assert (RR := rain_rate_sat tgamma HG num_eps o c T p He Hc Hp ltac:(lra)).
  set (k := cloud_rate tgamma num_eps o c T p) in *. assert (G : 0 <= rv c) by apply Hc. assert (Q : 0 <= rv c / k) by (apply Rmult_le_pos; [exact G|left; now apply Rinv_0_lt_compat]).
  exists (rv c / k + 1). eexists. split; [lra|]. split.
  - cbn [rhs_cellwise2]. assert (E : Tp o c = Some (T, p)).
    { unfold Tp. destruct Ha as [(A1 & A2 & A3 & A4)|(A1 & A2 & A3 & A4)]; rewrite A1, A2; cbn [negb andb]; rewrite A4, A3; [reflexivity|]. rewrite A4. reflexivity. }
    rewrite E. reflexivity.
  - set (dt := rv c / k + 1) in *. assert (D : 0 < dt) by (unfold dt; lra).
    assert (F1 : k <= first_rc tgamma erfc num_eps o dt c T p).
    { unfold first_rc. fold k. eapply Rle_trans; [|apply cmax_ge_l]. assert (M := ccnmass_pos). assert (A := act_nonneg erfc o dt c T p). assert (0 <= act_rate erfc o dt c T p * ccnmass) by (apply Rmult_le_pos; lra). lra. }
    assert (F2 : first_rr tgamma num_eps o dt c T p = 0).
    { unfold first_rr. rewrite RR, cmax_Rmax. apply Rmax_left. apply quot_neg; [exact D|apply Hc]. }
    unfold dots_of. rewrite F2. set (fr := first_rc tgamma erfc num_eps o dt c T p) in *. clearbody fr. unfold after.
    assert (E : rv c < dt * k). { unfold dt. replace ((rv c / k + 1) * k) with (rv c + k) by (field; lra). lra. }
    destruct (cloud_limiter _ _ _ _ _ _ _ _); cbn [drv no_dots]; nra.
Qed.
Print Assumptions C62_vapour_negative_refuted.

(** a cell for which C61_water_partial gives a zero sum: without rain *)
Theorem C61_instance :
  forall tgamma erfc num_eps r, 0 <= num_eps <= 1 / 1000000 -> 0 <= r ->
    let c := {| rhod := 1; pres := 100000; th := T_tri; rv := r; rc := 1 / 1000; nc := 100000000; rr := 0; nr := 0 |} in
    exists d', rhs_cellwise2 tgamma erfc num_eps opts0 20 [(c, no_dots)] = (true, [(c, d')]) /\ good_cell c /\ drv d' + drc d' + drr d' = 0 /\ (r = 0 -> drr d' <= 1 / 20000).
Proof.
  intros tgamma erfc num_eps r He Hr c.
  assert (H : rhs_cellwise2 tgamma erfc num_eps opts0 20 [(c, no_dots)] = (true, [(c, dots_of tgamma erfc num_eps opts0 20 c T_tri 100000 no_dots)])).
  { cbn [rhs_cellwise2]. replace (Tp opts0 c) with (Some (T_tri, 100000)); [reflexivity|]. unfold Tp, c. cbn [b_const_p b_th_dry opts0 negb andb th pres]. rewrite exner_1000, Rmult_1_r. reflexivity. }
  eexists. split; [exact H|]. assert (Hc : good_cell c) by (unfold good_cell, c; cbn [rhod rv rc nc rr nr]; lra). split; [exact Hc|].
  set (d' := dots_of _ _ _ _ _ _ _ _ _) in *.
  destruct (C61_water_partial tgamma erfc num_eps opts0 20 _ _ 0%nat c no_dots d' ltac:(lra) ltac:(lra) ltac:(cbn [b_A opts0]; lra) H ltac:(split; reflexivity) Hc) as (_ & B & _).
  split.
  - unfold change in B. cbn [drv drc drr no_dots] in B. rewrite <- (B ltac:(unfold c; cbn [rr]; lra)). ring.
  - intros ->. unfold d', dots_of. assert (F := first_rr_neg tgamma num_eps opts0 20 c T_tri 100000 ltac:(lra) Hc).
    assert (S : second_rr tgamma num_eps opts0 20 c T_tri 100000 <= 1 / 20000).
    { unfold second_rr. assert (A := acnv_le num_eps opts0 20 c ltac:(lra) Hc). replace (accr_rate tgamma num_eps opts0 20 c T_tri 100000) with 0; [unfold c in *; cbn [rc] in A; lra|].
      unfold accr_rate, accr_on, rr_eps. cbn [rr c]. replace (Rltb (1 / 10000 * num_eps) 0) with false by (symmetry; apply Rltb_false; lra). now rewrite !andb_false_r. }
    set (x := first_rr _ _ _ _ _ _ _) in *. set (y := second_rr _ _ _ _ _ _ _) in *. destruct (cloud_limiter _ _ _ _ _ _ _ _); cbn [drr no_dots]; lra.
Qed.
Print Assumptions C61_instance.
