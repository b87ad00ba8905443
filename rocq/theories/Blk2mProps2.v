(** * C63: processes of the double-moment bulk scheme, one by one *)
From Coq Require Import List Arith NArith ZArith Reals Bool Lia Lra Psatz.
From Verif Require Import Base BaseProofs ThermoModel ThermoProofs CondModel InitModel Blk2mModel Blk2mProps.
Import ListNotations.
Open Scope R_scope.

(** ** Specification *)
(** which processes are on *)
Definition processes (o : opts2) (acti cond acnv accr : bool) : Prop := b_acti o = acti /\ b_cond o = cond /\ b_acnv o = acnv /\ b_accr o = accr.
(** no droplets without water *)
Definition consistent (c : cell2) : Prop := (0 < rc c \/ nc c = 0) /\ (0 < rr c \/ nr c = 0).
(** enough water and drops for a process to act *)
Definition cloudy (num_eps : R) (c : cell2) : Prop := num_eps / 1000 < rc c /\ 10000000 * num_eps < nc c.
Definition rainy (num_eps : R) (c : cell2) : Prop := num_eps / 10000 < rr c /\ 1000000 * num_eps < nr c.
(** aerosol that activates at the supersaturation of the cell, at most the given limit: the fractions of lognormal modes beyond the critical
    dry size (Khvorostyanov and Curry), per kilogram *)
Definition s_crit (T : R) (m : mode) : R := Rpower (md_rd m) (- (3 / 2)) * sqrt (4 * Rpower (kelvin_A T) 3 / 27 / md_b m).
Definition activated (erfc : R -> R) (o : opts2) (c : cell2) (T p : R) : R :=
  lsumR (map (fun m => md_N m / rho_stp *
    (erfc (ln (s_crit T m / Rmin (rv c / r_vs T p - 1) (b_RH_max o - 1)) / (sqrt 2 * (3 / 2 * ln (md_sd m)))) / 2)) (b_modes o)).
Definition good_mode (m : mode) : Prop := 0 < md_rd m /\ 1 < md_sd m /\ 0 <= md_N m.
(** mean radius of cloud droplets: their diameters have a gamma distribution whose relative dispersion grows with concentration
    (Morrison and Grabowski) and whose third moment gives the cloud water *)
Definition dispersion (n : R) : R := 5714 / 10000000 * (n / 1000000) + 2714 / 10000.
Definition mean_droplet_radius (c : cell2) (r : R) : Prop :=
  exists mu lambda, 0 < lambda /\ mu = 1 / dispersion (rhod c * nc c) ^ 2 - 1 /\
    rc c * lambda ^ 3 = PI / 6 * 1000 * nc c * ((mu + 1) * (mu + 2) * (mu + 3)) /\ r = (mu + 1) / lambda / 2.
(** psychrometric correction *)
Definition latent_factor (T p : R) (c : cell2) : R := 1 + l_v T ^ 2 * r_vs T p / (R_v * T ^ 2 * ((c_pd + rv c * c_pv) / (1 + rv c))).
(** mass of a drop *)
Definition drop_mass (r : R) : R := 4 / 3 * PI * r ^ 3 * 1000.

Lemma Rmax_div x t : 0 < t -> Rmax 0 (x / t) = Rmax 0 x / t.
Proof.
  intros H. assert (I := Rinv_0_lt_compat t H). unfold Rdiv. destruct (Rle_dec x 0) as [L|L].
  - rewrite !Rmax_left by nra. ring.
  - rewrite !Rmax_right by nra. reflexivity.
Qed.
Lemma air_unique o c T p T' p' : air o c T p -> air o c T' p' -> T' = T /\ p' = p.
Proof.
  intros [(A1 & A2 & A3 & A4)|(A1 & A2 & A3 & A4)] [(B1 & B2 & B3 & B4)|(B1 & B2 & B3 & B4)]; try congruence; split; congruence.
Qed.
Lemma call_at tgamma erfc num_eps o dt l l' i c d d' T p : rhs_cellwise2 tgamma erfc num_eps o dt l = (true, l') -> cell_of l l' i c d d' -> air o c T p ->
  d' = dots_of tgamma erfc num_eps o dt c T p d.
Proof. intros H Hi Ha. destruct (call_cell _ _ _ _ _ _ _ _ _ _ _ H Hi) as (T' & p' & Ha' & ->). destruct (air_unique _ _ _ _ _ _ Ha Ha') as (-> & ->). reflexivity. Qed.

(** C63, cells: the call fails, changing nothing, exactly when both or none of the two descriptions of air are chosen; otherwise every cell gets
    what it would get on its own *)
Theorem C63_cells :
  forall tgamma erfc num_eps o dt l ok l', rhs_cellwise2 tgamma erfc num_eps o dt l = (ok, l') ->
    (l <> [] -> (ok = true <-> b_const_p o <> b_th_dry o)) /\ (ok = false -> l' = l) /\
    (ok = true -> length l' = length l /\ forall i x, nth_error l i = Some x -> exists y, nth_error l' i = Some y /\ fst y = fst x /\ rhs_cellwise2 tgamma erfc num_eps o dt [x] = (true, [y])).
Proof.
  intros tgamma erfc num_eps o dt l ok l' H. destruct (call_cells _ _ _ _ _ _ _ _ H) as (A & B). split; [|split].
  - intros NE. destruct ok; split; intros E; try reflexivity; try discriminate.
    + destruct l as [|[c d] r]; [contradiction|]. destruct (A eq_refl) as (_ & A'). destruct (A' 0%nat c d eq_refl) as (T & p & [(A1 & A2 & _)|(A1 & A2 & _)] & _); rewrite A1, A2; discriminate.
    + destruct (B eq_refl) as (_ & B'). contradiction.
  - intros E. now destruct (B E).
  - intros E. destruct (A E) as (L & A'). split; [exact L|]. intros i [c d] Hi. destruct (A' i c d Hi) as (T & p & Ha & Hi'). eexists. split; [exact Hi'|]. split; [reflexivity|].
    cbn [rhs_cellwise2]. replace (Tp o c) with (Some (T, p)); [reflexivity|]. unfold Tp. destruct Ha as [(A1 & A2 & A3 & A4)|(A1 & A2 & A3 & A4)]; rewrite A1, A2; cbn [negb andb]; rewrite A4, A3; [reflexivity|]. rewrite A4. reflexivity.
Qed.
Print Assumptions C63_cells.

Section One.
  Variables (tgamma erfc : R -> R) (num_eps : R) (o : opts2) (dt : R) (c : cell2) (T p : R).
  Hypotheses (Hdt : 0 < dt) (Hc : good_cell c) (He : 0 <= num_eps).
  Lemma quot_pos q : 0 < q -> 0 < q / dt.
  Proof. intros H. now apply Rdiv_lt_0_compat. Qed.
  Lemma no_act : b_acti o = false -> act_rate erfc o dt c T p = 0.
  Proof. intros E. unfold act_rate. now rewrite E. Qed.
  Lemma no_cloud : b_cond o = false -> cloud_rate tgamma num_eps o c T p = 0.
  Proof. intros E. unfold cloud_rate. now rewrite E. Qed.
  Lemma no_rain : b_cond o = false -> rain_rate tgamma num_eps o c T p = 0 /\ rain_number_rate tgamma num_eps o c T p = 0.
  Proof. intros E. unfold rain_number_rate, rain_rate. rewrite E. now split. Qed.
  Lemma rain_idle : rain_rate tgamma num_eps o c T p = 0 -> (0 < rr c \/ nr c = 0) ->
    first_rr tgamma num_eps o dt c T p = 0 /\ first_nr tgamma num_eps o dt c T p = 0 /\ (0 < rr c -> rain_limiter tgamma num_eps o dt c T p = false).
  Proof.
    intros Z Cn. destruct Hc as (_ & _ & _ & _ & Hr & Hn).
    assert (F : first_rr tgamma num_eps o dt c T p = 0) by (unfold first_rr; rewrite Z, cmax_Rmax; apply Rmax_left; now apply quot_neg).
    assert (L : 0 < rr c -> rain_limiter tgamma num_eps o dt c T p = false).
    { intros P. unfold rain_limiter. rewrite F. apply Reqb_false. assert (Q := quot_pos _ P). unfold Rdiv in *. lra. }
    split; [exact F|]. split; [|exact L]. unfold first_nr.
    destruct (rain_limiter tgamma num_eps o dt c T p) eqn:E.
    - destruct Cn as [P|P]; [exfalso; specialize (L P); congruence|]. rewrite P. unfold Rdiv. lra.
    - unfold rain_number_rate. destruct (b_cond o).
      + assert (Z' : 0 * nr c / rr c = 0) by (unfold Rdiv; ring). destruct (_ && _); rewrite ?Z, ?Z', cmax_Rmax; apply Rmax_left; now apply quot_neg.
      + rewrite cmax_Rmax. apply Rmax_left. now apply quot_neg.
  Qed.
  Lemma cloud_idle : act_rate erfc o dt c T p = 0 -> cloud_rate tgamma num_eps o c T p = 0 -> (0 < rc c \/ nc c = 0) ->
    first_rc tgamma erfc num_eps o dt c T p = 0 /\ first_nc tgamma erfc num_eps o dt c T p = 0 /\ (0 < rc c -> cloud_limiter tgamma erfc num_eps o dt c T p = false).
  Proof.
    intros Z1 Z2 Cn. destruct Hc as (_ & _ & Hr & Hn & _).
    assert (F : first_rc tgamma erfc num_eps o dt c T p = 0) by (unfold first_rc; rewrite Z1, Z2, Rmult_0_l, Rplus_0_l, cmax_Rmax; apply Rmax_left; now apply quot_neg).
    assert (L : 0 < rc c -> cloud_limiter tgamma erfc num_eps o dt c T p = false).
    { intros P. unfold cloud_limiter. rewrite F. apply Reqb_false. assert (Q := quot_pos _ P). unfold Rdiv in *. lra. }
    split; [exact F|]. split; [|exact L]. unfold first_nc. rewrite Z1.
    destruct (cloud_limiter tgamma erfc num_eps o dt c T p) eqn:E; [|reflexivity].
    destruct Cn as [P|P]; [exfalso; specialize (L P); congruence|]. rewrite P. unfold Rdiv. lra.
  Qed.
  Lemma no_collisions : b_acnv o = false -> b_accr o = false ->
    second_rc tgamma num_eps o dt c T p = 0 /\ second_rr tgamma num_eps o dt c T p = 0 /\ second_nc tgamma num_eps o dt c T p = 0 /\ second_nr num_eps o dt c = 0.
  Proof.
    intros E1 E2. assert (A : acnv_on num_eps o c = false) by (unfold acnv_on; now rewrite E1). assert (B : accr_on tgamma num_eps o dt c T p = false) by (unfold accr_on; now rewrite E2).
    unfold second_rc, second_rr, second_nc, second_nr, accr_rate, acnv_rate. rewrite A, B, E1, E2. cbn [orb]. repeat split; lra.
  Qed.
End One.

(** C63, everything off: tendencies stay as they are *)
Theorem C63_off_partial :
  forall tgamma erfc num_eps o dt l l' i c d d', 0 < dt -> 0 <= num_eps -> processes o false false false false ->
    rhs_cellwise2 tgamma erfc num_eps o dt l = (true, l') -> cell_of l l' i c d d' -> good_cell c -> consistent c -> d' = d.
Proof.
  intros tgamma erfc num_eps o dt l l' i c d d' Hdt He (P1 & P2 & P3 & P4) H Hi Hc (C1 & C2). destruct (call_cell _ _ _ _ _ _ _ _ _ _ _ H Hi) as (T & p & Ha & ->).
  destruct (cloud_idle tgamma erfc num_eps o dt c T p Hdt Hc (no_act _ _ _ _ _ _ P1) (no_cloud _ _ _ _ _ _ P2) C1) as (A1 & A2 & _).
  destruct (no_rain tgamma num_eps o c T p P2) as (R1 & _). destruct (rain_idle tgamma num_eps o dt c T p Hdt Hc R1 C2) as (B1 & B2 & _).
  destruct (no_collisions tgamma num_eps o dt c T p P3 P4) as (D1 & D2 & D3 & D4).
  unfold dots_of. rewrite A1, A2, B1, B2, D1, D2, D3, D4. cbv zeta. destruct d as [x1 x2 x3 x4 x5 x6]. destruct (cloud_limiter _ _ _ _ _ _ _ _); cbn [dth drv drc dnc drr dnr]; f_equal; ring.
Qed.
Print Assumptions C63_off_partial.

(** C63, everything off, droplets without water: they are removed nevertheless *)
Theorem C63_off_refuted :
  forall tgamma erfc num_eps dt, 0 < dt -> 0 <= num_eps ->
    exists o c d', processes o false false false false /\ good_cell c /\ rhs_cellwise2 tgamma erfc num_eps o dt [(c, no_dots)] = (true, [(c, d')]) /\ dnc d' < 0.
Proof.
  intros tgamma erfc num_eps dt Hdt He.
  set (o := {| b_acti := false; b_cond := false; b_acnv := false; b_accr := false; b_sedi := false; b_RH_max := 44; b_A := 1350; b_b := 247 / 100; b_c := - (179 / 100); b_modes := []; b_th_dry := false; b_const_p := true |}).
  set (c := {| rhod := 1; pres := 100000; th := 300; rv := 1 / 100; rc := 0; nc := 100; rr := 0; nr := 0 |}).
  assert (Hc : good_cell c) by (unfold good_cell, c; cbn [rhod rv rc nc rr nr]; lra).
  exists o, c. eexists. split; [repeat split|]. split; [exact Hc|]. split; [reflexivity|].
  set (T := th c * exner (pres c)). set (p := pres c).
  assert (F : first_rc tgamma erfc num_eps o dt c T p = 0).
  { unfold first_rc. rewrite (no_act erfc o dt c T p eq_refl), (no_cloud tgamma num_eps o c T p eq_refl), cmax_Rmax. cbn [rc c]. unfold Rdiv. rewrite Ropp_0, !Rmult_0_l, Rplus_0_l. apply Rmax_left; lra. }
  assert (L : cloud_limiter tgamma erfc num_eps o dt c T p = true).
  { unfold cloud_limiter. rewrite F. apply Reqb_true. cbn [rc c]. unfold Rdiv. lra. }
  unfold dots_of. rewrite L. cbn [dnc no_dots]. unfold first_nc. rewrite L. cbn [nc c]. assert (Q := Rinv_0_lt_compat dt Hdt). unfold Rdiv. nra.
Qed.
Print Assumptions C63_off_refuted.

(** C63, activation alone: nothing in unsaturated air; in supersaturated air the number rises to that of the activated aerosol, at most all of it,
    each new droplet of 1 um taking its water from the vapour *)
Theorem C63_activation :
  forall tgamma erfc num_eps o dt l l' i c d d' T p, 0 < dt -> 0 <= num_eps -> processes o true false false false -> erfc_like erfc -> Forall good_mode (b_modes o) ->
    rhs_cellwise2 tgamma erfc num_eps o dt l = (true, l') -> cell_of l l' i c d d' -> good_cell c -> consistent c ->
    air o c T p -> 0 < kelvin_A T -> 
    0 <= activated erfc o c T p <= lsumR (map md_N (b_modes o)) / rho_stp /\
    change dnc d d' = (if Rlt_dec (r_vs T p) (rv c) then Rmax 0 (activated erfc o c T p - nc c) / dt else 0) /\
    change drc d d' = change dnc d d' * drop_mass (1 / 1000000) /\ change drv d d' = - change drc d d' /\ drr d' = drr d /\ dnr d' = dnr d.
Proof.
  intros tgamma erfc num_eps o dt l l' i c d d' T p Hdt He (P1 & P2 & P3 & P4) HE HM H Hi Hc (C1 & C2) Ha HA.
  rewrite (call_at _ _ _ _ _ _ _ _ _ _ _ _ _ H Hi Ha).
  assert (RS : 0 < rho_stp) by (unfold rho_stp, p_stp, T_stp; assert (Q := R_d_pos); apply Rdiv_lt_0_compat; [apply Rdiv_lt_0_compat; lra|lra]).
  assert (NC : n_ccn erfc o c T p = activated erfc o c T p).
  { unfold n_ccn, activated. assert (G : forall ms a, Forall good_mode ms -> fold_left (fun s m => s + n_c_p erfc p T (rv c) (b_RH_max o) m) ms a = a + lsumR (map (fun m => md_N m / rho_stp *
      (erfc (ln (s_crit T m / Rmin (rv c / r_vs T p - 1) (b_RH_max o - 1)) / (sqrt 2 * (3 / 2 * ln (md_sd m)))) / 2)) ms)).
    { intros ms. induction ms as [|m ms IH]; intros a F; [cbn; lra|]. inversion F as [|x y (M1 & M2 & M3) F']. subst. cbn [fold_left map]. rewrite (IH _ F'). unfold lsumR. cbn [fold_right]. rewrite <- Rplus_assoc. f_equal. f_equal.
      unfold n_c_p, u_, s_0, s_crit, sdev_rd_s, supersat. rewrite !cpow_pos_eq by lra. rewrite cmin_Rmin. replace (- (1 + 1 / 2)) with (- (3 / 2)) by lra. replace (1 + 1 / 2) with (3 / 2) by lra.
      replace (ln (Rpower (md_sd m) (3 / 2))) with (3 / 2 * ln (md_sd m)) by (unfold Rpower; now rewrite ln_exp).
      set (u := ln _). assert (L : 0 < ln (md_sd m)) by (rewrite <- ln_1; apply ln_increasing; lra). assert (S : 0 < sqrt 2) by (apply sqrt_lt_R0; lra).
      replace (u / sqrt 2 / (3 / 2 * ln (md_sd m))) with (u / (sqrt 2 * (3 / 2 * ln (md_sd m)))) by (field; split; lra). unfold Rdiv. ring. }
    rewrite (G _ 0 HM). lra. }
  split; [|].
  { unfold activated. clear - HE HM RS. induction HM as [|m ms (M1 & M2 & M3) F IH]; [cbn; unfold Rdiv; lra|]. cbn [map]. unfold lsumR. cbn [fold_right]. fold (lsumR (map md_N ms)).
    match goal with |- 0 <= _ + ?x <= _ => change x with (lsumR (map (fun m0 => md_N m0 / rho_stp * (erfc (ln (s_crit T m0 / Rmin (rv c / r_vs T p - 1) (b_RH_max o - 1)) / (sqrt 2 * (3 / 2 * ln (md_sd m0)))) / 2)) ms)) end.
    set (e := erfc _). assert (E : 0 <= e <= 2) by apply HE. assert (Q : 0 <= md_N m / rho_stp) by (apply Rmult_le_pos; [exact M3|left; now apply Rinv_0_lt_compat]).
    replace ((md_N m + lsumR (map md_N ms)) / rho_stp) with (md_N m / rho_stp + lsumR (map md_N ms) / rho_stp) by (unfold Rdiv; ring). nra. }
  destruct (no_rain tgamma num_eps o c T p P2) as (R1 & _). destruct (rain_idle tgamma num_eps o dt c T p Hdt Hc R1 C2) as (B1 & B2 & _).
  destruct (no_collisions tgamma num_eps o dt c T p P3 P4) as (D1 & D2 & D3 & D4).
  assert (AR : act_rate erfc o dt c T p = if Rlt_dec (r_vs T p) (rv c) then Rmax 0 (activated erfc o c T p - nc c) / dt else 0).
  { unfold act_rate. rewrite P1. destruct (Rlt_dec (r_vs T p) (rv c)) as [L|L].
    - replace (Rltb _ _) with true by (symmetry; now apply Rltb_true). unfold activation_rate. rewrite NC, cmax_Rmax. set (x := activated _ _ _ _ _ - nc c).
      now rewrite Rmax_div.
    - replace (Rltb _ _) with false by (symmetry; apply Rltb_false; lra). reflexivity. }
  assert (M : ccnmass = drop_mass (1 / 1000000)).
  { unfold ccnmass, drop_mass. rewrite cpow_3 by lra. unfold rho_w. ring. }
  assert (F : first_rc tgamma erfc num_eps o dt c T p = act_rate erfc o dt c T p * ccnmass /\ first_nc tgamma erfc num_eps o dt c T p = act_rate erfc o dt c T p).
  { assert (A0 := act_nonneg erfc o dt c T p). assert (MP := ccnmass_pos). destruct (Req_EM_T (act_rate erfc o dt c T p) 0) as [Z|Z].
    - destruct (cloud_idle tgamma erfc num_eps o dt c T p Hdt Hc Z (no_cloud _ _ _ _ _ _ P2) C1) as (A1 & A2 & _). rewrite A1, A2, Z. split; lra.
    - assert (PA : 0 < act_rate erfc o dt c T p * ccnmass) by (apply Rmult_lt_0_compat; lra). assert (Q : - rc c / dt <= 0) by (apply quot_neg; [exact Hdt|apply Hc]).
      assert (E : first_rc tgamma erfc num_eps o dt c T p = act_rate erfc o dt c T p * ccnmass).
      { unfold first_rc. rewrite (no_cloud _ _ _ _ _ _ P2), Rplus_0_r, cmax_Rmax. apply Rmax_left. lra. }
      split; [exact E|]. unfold first_nc, cloud_limiter. rewrite E. replace (Reqb _ _) with false by (symmetry; apply Reqb_false; lra). reflexivity. }
  destruct F as (F1 & F2). unfold change, dots_of. rewrite F1, F2, B1, B2, D1, D2, D3, D4, AR, M. cbv zeta. set (a := if Rlt_dec _ _ then _ else _).
  destruct (cloud_limiter _ _ _ _ _ _ _ _); cbn [dth drv drc dnc drr dnr]; repeat split; ring.
Qed.
Print Assumptions C63_activation.

Lemma cpow_third x : 0 < x -> ThermoModel.cpow x (1 / 3) ^ 3 = x.
Proof.
  intros H. rewrite cpow_pos_eq by exact H. rewrite <- (Rpower_pow 3) by apply exp_pos. rewrite Rpower_mult. replace (1 / 3 * INR 3) with 1 by (cbn [INR]; lra). now apply Rpower_1.
Qed.
Lemma radius_spec tgamma c : gamma_like tgamma -> 0 < rhod c -> 0 < rc c -> 0 < nc c -> mean_droplet_radius c (r_drop_c tgamma (rc c) (nc c) (rhod c)).
Proof.
  intros HG Hr Hq Hn. assert (HG' := HG). destruct HG' as (G1 & G2 & _). set (mu := miu_c (nc c * rhod c)). assert (M : 0 < mu + 1) by (apply miu1_pos; nra).
  exists mu, (lambda_c tgamma (nc c) (rc c) (rhod c)). split; [now apply lambda_c_pos|]. split; [|split].
  - unfold mu, miu_c, dispersion. replace (eta (nc c * rhod c)) with (5714 / 10000000 * (rhod c * nc c / 1000000) + 2714 / 10000) by (unfold eta, Rdiv; ring). unfold Rdiv. f_equal. f_equal. f_equal. ring.
  - unfold lambda_c. fold mu. unfold d_md. assert (T1 : 0 < tgamma (mu + 1)) by now apply G1.
    assert (E : tgamma (mu + 3 + 1) = (mu + 3) * ((mu + 2) * ((mu + 1) * tgamma (mu + 1)))).
    { rewrite G2 by lra. replace (mu + 3) with (mu + 2 + 1) at 2 by ring. rewrite G2 by lra. replace (mu + 2) with (mu + 1 + 1) at 2 by ring. rewrite (G2 (mu + 1)) by lra. reflexivity. }
    rewrite E. assert (CM := c_md_pos). rewrite cpow_third.
    + unfold c_md, rho_w. field. split; lra.
    + apply Rdiv_lt_0_compat; [|nra]. apply Rmult_lt_0_compat; [nra|]. apply Rmult_lt_0_compat; [lra|]. apply Rmult_lt_0_compat; [lra|]. apply Rmult_lt_0_compat; lra.
  - unfold r_drop_c. replace (Rltb 0 (rc c) && Rltb 0 (nc c)) with true by (symmetry; apply andb_true_intro; split; apply Rltb_true; lra). reflexivity.
Qed.
Lemma latent_eq T p c : 0 < T -> 0 <= rv c -> psychro T p (rv c) = latent_factor T p c.
Proof.
  intros HT Hr. unfold psychro, latent_factor, drv_s_dT, c_p. assert (A := R_v_pos). field. unfold c_pd, c_pv. repeat split; lra.
Qed.
Lemma cloudy_true num_eps c : cloudy num_eps c -> Rltb (rc_eps num_eps) (rc c) && Rltb (nc_eps num_eps) (nc c) = true.
Proof. intros (A & B). apply andb_true_intro. unfold rc_eps, nc_eps. split; apply Rltb_true; lra. Qed.
Lemma cloudy_false num_eps c : ~ cloudy num_eps c -> Rltb (rc_eps num_eps) (rc c) && Rltb (nc_eps num_eps) (nc c) = false.
Proof.
  intros N. destruct (_ && _) eqn:E; [|reflexivity]. exfalso. apply N. apply andb_prop in E. destruct E as (A & B). apply Rltb_true in A. apply Rltb_true in B. unfold rc_eps, nc_eps in *. split; lra.
Qed.

(** C63, condensation and evaporation alone *)
Theorem C63_condensation :
  forall tgamma erfc num_eps o dt l l' i c d d' T p, 0 < dt -> 0 <= num_eps -> processes o false true false false -> gamma_like tgamma ->
    rhs_cellwise2 tgamma erfc num_eps o dt l = (true, l') -> cell_of l l' i c d d' -> good_cell c -> consistent c ->
    air o c T p -> 0 < T -> p_vs T < p ->
    change drv d d' = - (change drc d d' + change drr d d') /\
    (* droplets grow or shrink at the rate of diffusion to drops of the mean radius, evaporating at most all water *)
    (cloudy num_eps c -> exists r, mean_droplet_radius c r /\
      change drc d d' = Rmax ((rv c - r_vs T p) * (4 * PI * (226 / 10000000) * (rhod c * nc c) * r) / latent_factor T p c) (- rc c / dt)) /\
    (~ cloudy num_eps c -> change drc d d' = 0) /\
    (* their number changes only when all of them are gone *)
    change dnc d d' = (if Req_EM_T (change drc d d') (- rc c / dt) then - nc c / dt else 0) /\
    (* rain evaporates in unsaturated air, keeping the mean size, and does not grow *)
    change drr d d' <= 0 /\ (r_vs T p <= rv c -> change drr d d' = 0) /\ (rv c < r_vs T p -> rainy num_eps c -> change drr d d' < 0) /\
    change dnr d d' * rr c = change drr d d' * nr c.
Proof.
  intros tgamma erfc num_eps o dt l l' i c d d' T p Hdt He (P1 & P2 & P3 & P4) HG H Hi Hc (C1 & C2) Ha HT Hp.
  rewrite (call_at _ _ _ _ _ _ _ _ _ _ _ _ _ H Hi Ha). assert (Hc' := Hc). destruct Hc' as (G1 & G2 & G3 & G4 & G5 & G6).
  destruct (no_collisions tgamma num_eps o dt c T p P3 P4) as (D1 & D2 & D3 & D4).
  assert (FR := first_rr_neg tgamma num_eps o dt c T p Hdt Hc).
  set (fr := first_rc tgamma erfc num_eps o dt c T p). set (fR := first_rr tgamma num_eps o dt c T p) in *.
  set (fn := first_nc tgamma erfc num_eps o dt c T p). set (fN := first_nr tgamma num_eps o dt c T p).
  assert (E : let d2 := dots_of tgamma erfc num_eps o dt c T p d in change drc d d2 = fr /\ change drr d d2 = fR /\ change dnc d d2 = fn /\ change dnr d d2 = fN /\ change drv d d2 = - (fr + fR)).
  { cbv zeta. unfold change, dots_of. fold fr fR fn fN. rewrite D1, D2, D3, D4. cbv zeta. destruct (cloud_limiter _ _ _ _ _ _ _ _); cbn [dth drv drc dnc drr dnr]; repeat split; ring. }
  cbv zeta in E. destruct E as (E1 & E2 & E3 & E4 & E5). rewrite E1, E2, E3, E4, E5. clear E1 E2 E3 E4 E5.
  split; [reflexivity|]. split; [|split; [|split; [|split; [exact FR|split; [|split]]]]].
  - intros CL. exists (r_drop_c tgamma (rc c) (nc c) (rhod c)). destruct CL as (CA & CB). split; [apply radius_spec; [exact HG|exact G1|lra|lra]|].
    unfold fr, first_rc. rewrite (no_act _ _ _ _ _ _ P1), Rmult_0_l, Rplus_0_l, cmax_Rmax. f_equal. unfold cloud_rate. rewrite P2, (cloudy_true num_eps c) by (split; assumption).
    rewrite cond_evap_eq, latent_eq by assumption. unfold tau_relax_c, D_0. assert (LF := psychro_ge T p (rv c) Hp G2). rewrite latent_eq in LF by assumption.
    assert (RP : 0 < r_drop_c tgamma (rc c) (nc c) (rhod c)) by (apply r_drop_c_pos; [exact HG|lra|lra|exact G1]). assert (PP := PI_RGT_0). field. repeat split; lra.
  - intros CL. unfold fr, first_rc. rewrite (no_act _ _ _ _ _ _ P1), Rmult_0_l, Rplus_0_l, cmax_Rmax. unfold cloud_rate. rewrite P2, (cloudy_false _ _ CL). apply Rmax_left. now apply quot_neg.
  - unfold fn, first_nc, cloud_limiter. fold fr. rewrite (no_act _ _ _ _ _ _ P1). unfold Reqb. destruct (Req_EM_T fr (- rc c / dt)); reflexivity.
  - intros S. unfold fR, first_rr. rewrite (rain_rate_sat tgamma HG num_eps o c T p He Hc Hp S), cmax_Rmax. apply Rmax_left. now apply quot_neg.
  - intros S (RA & RB). unfold fR, first_rr. rewrite cmax_Rmax. apply Rmax_lub_lt.
    + unfold rain_rate. rewrite P2. replace (_ && _) with true by (symmetry; apply andb_true_intro; unfold rr_eps, nr_eps; split; apply Rltb_true; lra).
      rewrite cmin_Rmin. eapply Rle_lt_trans; [apply Rmin_l|]. rewrite cond_evap_eq.
      assert (F := factor_pos T p (rv c) (tau_relax_r tgamma T (rhod c) (rr c) (nr c)) Hp G2 ltac:(apply tau_r_pos; [exact HG|lra|lra|lra])). nra.
    + assert (Q := quot_pos dt Hdt (rr c) ltac:(lra)). unfold Rdiv in *. lra.
  - unfold fN, first_nr, rain_limiter. fold fR. unfold Reqb. destruct (Req_EM_T fR (- rr c / dt)) as [Q|Q].
    + rewrite Q. unfold Rdiv. ring.
    + assert (Q' : fR = rain_rate tgamma num_eps o c T p).
      { unfold fR, first_rr in *. rewrite cmax_Rmax in *. unfold Rmax in *. destruct (Rle_dec _ _); [exfalso; apply Q; reflexivity|reflexivity]. }
      assert (Q2 : - rr c / dt <= fR) by apply first_rr_lower.
      unfold rain_number_rate. rewrite P2. rewrite <- Q'. destruct (Rltb (rr_eps num_eps) (rr c) && Rltb (nr_eps num_eps) (nr c)) eqn:B.
      * apply andb_prop in B. destruct B as (B1 & B2). apply Rltb_true in B1. unfold rr_eps in B1. assert (RP : 0 < rr c) by lra. rewrite cmax_Rmax, Rmax_left; [field; lra|].
        apply (Rmult_le_reg_r (rr c)); [exact RP|]. replace (fR * nr c / rr c * rr c) with (fR * nr c) by (field; lra). replace (- nr c / dt * rr c) with (- rr c / dt * nr c) by (field; lra). nra.
      * rewrite cmax_Rmax, Rmax_left by (now apply quot_neg). unfold rain_rate in Q'. rewrite P2, B in Q'. rewrite Q'. ring.
Qed.
Print Assumptions C63_condensation.

(** the sink of the number of droplets due to collisions that take [rate] of cloud water *)
Definition number_sink (num_eps dt : R) (c : cell2) (rate sink : R) : Prop :=
  (rc c / dt <= rate -> sink = nc c / dt) /\
  (rate < rc c / dt -> (num_eps / 10000 < rate -> exists r, mean_droplet_radius c r /\ sink = Rmin (rate / drop_mass r) (nc c / dt)) /\ (rate <= num_eps / 10000 -> sink = 0)).

Section Coll.
  Variables (tgamma erfc : R -> R) (num_eps : R) (o : opts2) (dt : R) (c : cell2) (T p : R).
  Hypotheses (Hdt : 0 < dt) (Hc : good_cell c) (He : 0 <= num_eps) (HG : gamma_like tgamma).
  Hypotheses (P1 : b_acti o = false) (P2 : b_cond o = false) (CO : consistent c).
  Lemma first_idle d : let d2 := dots_of tgamma erfc num_eps o dt c T p d in
    dth d2 = dth d /\ drv d2 = drv d /\
    (0 < rc c -> change drc d d2 = second_rc tgamma num_eps o dt c T p /\ change drr d d2 = second_rr tgamma num_eps o dt c T p /\
      change dnc d d2 = second_nc tgamma num_eps o dt c T p /\ change dnr d d2 = second_nr num_eps o dt c).
  Proof.
    destruct CO as (C1 & C2).
    destruct (cloud_idle tgamma erfc num_eps o dt c T p Hdt Hc (no_act _ _ _ _ _ _ P1) (no_cloud _ _ _ _ _ _ P2) C1) as (A1 & A2 & A3).
    destruct (no_rain tgamma num_eps o c T p P2) as (R1 & _). destruct (rain_idle tgamma num_eps o dt c T p Hdt Hc R1 C2) as (B1 & B2 & _).
    unfold change, dots_of. rewrite A1, A2, B1, B2. cbv zeta. split; [|split].
    - destruct (cloud_limiter _ _ _ _ _ _ _ _); cbn [dth]; ring.
    - destruct (cloud_limiter _ _ _ _ _ _ _ _); cbn [drv]; ring.
    - intros P. rewrite (A3 P). cbn [dth drv drc dnc drr dnr]. repeat split; ring.
  Qed.
  Lemma sink_rate r x : 0 < r -> collision_sink_rate x r = x / drop_mass r.
  Proof. intros H. unfold collision_sink_rate, drop_mass, rho_w. f_equal. ring. Qed.
End Coll.

(** C63, autoconversion alone: Khairoutdinov and Kogan's rate, at most all of the cloud water, into drops of 25 um *)
Theorem C63_autoconversion :
  forall tgamma erfc num_eps o dt l l' i c d d', 0 < dt -> 0 <= num_eps -> processes o false false true false -> gamma_like tgamma ->
    rhs_cellwise2 tgamma erfc num_eps o dt l = (true, l') -> cell_of l l' i c d d' -> good_cell c -> consistent c ->
    dth d' = dth d /\ drv d' = drv d /\
    (cloudy num_eps c -> exists rate, rate = Rmin (kk_autoconversion o c) (rc c / dt) /\ change drc d d' = - rate /\ change drr d d' = rate /\
      change dnr d d' = rate / drop_mass (25 / 1000000) /\ number_sink num_eps dt c rate (- change dnc d d')) /\
    (~ cloudy num_eps c -> drc d' = drc d /\ drr d' = drr d /\ dnc d' = dnc d /\ dnr d' = dnr d).
Proof.
  intros tgamma erfc num_eps o dt l l' i c d d' Hdt He (P1 & P2 & P3 & P4) HG H Hi Hc CO. destruct (call_cell _ _ _ _ _ _ _ _ _ _ _ H Hi) as (T & p & Ha & ->).
  assert (Hc' := Hc). destruct Hc' as (G1 & G2 & G3 & G4 & G5 & G6).
  destruct (first_idle tgamma erfc num_eps o dt c T p Hdt Hc P1 P2 CO d) as (I1 & I2 & I3). split; [exact I1|]. split; [exact I2|].
  assert (AO : accr_on tgamma num_eps o dt c T p = false) by (unfold accr_on; now rewrite P4).
  split.
  - intros CL. assert (CL' := CL). destruct CL' as (CA & CB). destruct (I3 ltac:(lra)) as (J1 & J2 & J3 & J4). rewrite J1, J2, J3, J4.
    assert (ON : acnv_on num_eps o c = true) by (unfold acnv_on; now rewrite P3, (cloudy_true _ _ CL)).
    assert (AR : acnv_rate num_eps o dt c = Rmin (kk_autoconversion o c) (rc c / dt)).
    { unfold acnv_rate. rewrite ON, cmin_Rmin. unfold autoconv_rate, kk_autoconversion. rewrite !cpow_pos_eq by nra. f_equal. f_equal. f_equal. lra. }
    exists (Rmin (kk_autoconversion o c) (rc c / dt)). split; [reflexivity|]. unfold second_rc, second_rr, second_nc, second_nr, all_collected, all_converted, accr_rate, second_rr, accr_rate. rewrite AO, ON, P3, AR. cbn [orb andb].
    set (rate := Rmin _ _). assert (RL : rate <= rc c / dt) by apply Rmin_r. clearbody rate. split; [reflexivity|]. split; [ring|]. split.
    + unfold drop_mass, rho_w, drizzle_radius. f_equal. ring.
    + unfold number_sink. rewrite orb_false_r. split.
      * intros L. replace (Reqb rate (rc c / dt)) with true by (symmetry; apply Reqb_true; lra). unfold Rdiv. ring.
      * intros L. replace (Reqb rate (rc c / dt)) with false by (symmetry; apply Reqb_false; lra). unfold nc_eps, rr_eps. rewrite Rplus_0_r. replace (Rltb (10000000 * num_eps) (nc c)) with true by (symmetry; apply Rltb_true; lra). cbn [andb]. split; intros L2.
        { exists (r_drop_c tgamma (rc c) (nc c) (rhod c)). split; [apply radius_spec; [exact HG|lra|lra|lra]|].
          replace (Rltb (1 / 10000 * num_eps) rate) with true by (symmetry; apply Rltb_true; lra). rewrite cmin_Rmin, sink_rate by (apply r_drop_c_pos; [exact HG|lra|lra|lra]). ring. }
        { replace (Rltb (1 / 10000 * num_eps) rate) with false by (symmetry; apply Rltb_false; lra). ring. }
  - intros CL. assert (ON : acnv_on num_eps o c = false) by (unfold acnv_on; now rewrite P3, (cloudy_false _ _ CL)).
    assert (Z : acnv_rate num_eps o dt c = 0) by (unfold acnv_rate; now rewrite ON).
    assert (S : second_rc tgamma num_eps o dt c T p = 0 /\ second_rr tgamma num_eps o dt c T p = 0 /\ second_nc tgamma num_eps o dt c T p = 0 /\ second_nr num_eps o dt c = 0).
    { unfold second_rc, second_rr, second_nc, second_nr, all_collected, all_converted, accr_rate, second_rr, accr_rate. rewrite AO, ON, P3, Z. cbn [orb andb]. rewrite Rplus_0_l.
      replace (Rltb (rr_eps num_eps) 0) with false by (symmetry; apply Rltb_false; unfold rr_eps; lra). rewrite andb_false_r. repeat split; ring. }
    destruct S as (S1 & S2 & S3 & S4). destruct CO as (C1 & C2).
    destruct (cloud_idle tgamma erfc num_eps o dt c T p Hdt Hc (no_act _ _ _ _ _ _ P1) (no_cloud _ _ _ _ _ _ P2) C1) as (A1 & A2 & A3).
    destruct (no_rain tgamma num_eps o c T p P2) as (R1 & _). destruct (rain_idle tgamma num_eps o dt c T p Hdt Hc R1 C2) as (B1 & B2 & _).
    unfold dots_of. rewrite A1, A2, B1, B2, S1, S2, S3, S4. cbv zeta. destruct (cloud_limiter _ _ _ _ _ _ _ _); cbn [drc drr dnc dnr]; repeat split; ring.
Qed.
Print Assumptions C63_autoconversion.

(** C63, accretion alone: the rain gains Khairoutdinov and Kogan's rate, the cloud loses at most what it has; the number of raindrops stays *)
Theorem C63_accretion :
  forall tgamma erfc num_eps o dt l l' i c d d', 0 < dt -> 0 <= num_eps -> processes o false false false true -> gamma_like tgamma ->
    rhs_cellwise2 tgamma erfc num_eps o dt l = (true, l') -> cell_of l l' i c d d' -> good_cell c -> consistent c ->
    dth d' = dth d /\ drv d' = drv d /\ dnr d' = dnr d /\
    (cloudy num_eps c -> num_eps / 10000 < rr c -> change drr d d' = kk_accretion c /\ change drc d d' = - Rmin (kk_accretion c) (rc c / dt) /\
      number_sink num_eps dt c (kk_accretion c) (- change dnc d d')) /\
    (~ (cloudy num_eps c /\ num_eps / 10000 < rr c) -> drc d' = drc d /\ drr d' = drr d /\ dnc d' = dnc d).
Proof.
  intros tgamma erfc num_eps o dt l l' i c d d' Hdt He (P1 & P2 & P3 & P4) HG H Hi Hc CO. destruct (call_cell _ _ _ _ _ _ _ _ _ _ _ H Hi) as (T & p & Ha & ->).
  assert (Hc' := Hc). destruct Hc' as (G1 & G2 & G3 & G4 & G5 & G6).
  destruct (first_idle tgamma erfc num_eps o dt c T p Hdt Hc P1 P2 CO d) as (I1 & I2 & I3). split; [exact I1|]. split; [exact I2|].
  assert (AO : acnv_on num_eps o c = false) by (unfold acnv_on; now rewrite P3).
  assert (AZ : acnv_rate num_eps o dt c = 0) by (unfold acnv_rate; now rewrite AO).
  assert (AC : all_converted num_eps o dt c = false) by (unfold all_converted; now rewrite AO).
  assert (CO' := CO). destruct CO' as (C1 & C2).
  destruct (cloud_idle tgamma erfc num_eps o dt c T p Hdt Hc (no_act _ _ _ _ _ _ P1) (no_cloud _ _ _ _ _ _ P2) C1) as (A1 & A2 & A3).
  destruct (no_rain tgamma num_eps o c T p P2) as (R1 & _). destruct (rain_idle tgamma num_eps o dt c T p Hdt Hc R1 C2) as (B1 & B2 & B3).
  split; [|split].
  - unfold dots_of. rewrite B2. unfold second_nr. rewrite AO. cbv zeta. destruct (cloud_limiter _ _ _ _ _ _ _ _); cbn [dnr]; ring.
  - intros CL HR. assert (CL' := CL). destruct CL' as (CA & CB). destruct (I3 ltac:(lra)) as (J1 & J2 & J3 & J4). rewrite J1, J2, J3.
    assert (ON : accr_on tgamma num_eps o dt c T p = true).
    { unfold accr_on. rewrite P4, AC, (B3 ltac:(lra)), (cloudy_true _ _ CL). unfold rr_eps. replace (Rltb (1 / 10000 * num_eps) (rr c)) with true by (symmetry; apply Rltb_true; lra). reflexivity. }
    assert (AR : accr_rate tgamma num_eps o dt c T p = kk_accretion c).
    { unfold accr_rate. rewrite ON. unfold accretion_rate, kk_accretion. rewrite cpow_pos_eq by nra. reflexivity. }
    assert (S1 : second_rr tgamma num_eps o dt c T p = kk_accretion c) by (unfold second_rr; rewrite AZ, AR; ring).
    assert (S2 : second_rc tgamma num_eps o dt c T p = - Rmin (kk_accretion c) (rc c / dt)).
    { unfold second_rc. rewrite ON, AZ, AR, cmax_Rmax. unfold Rmin, Rmax. unfold Rdiv. destruct (Rle_dec _ _), (Rle_dec _ _); lra. }
    rewrite S1, S2. split; [reflexivity|]. split; [reflexivity|].
    unfold second_nc, all_collected. rewrite AC, ON, S1, S2, P3, P4. cbn [orb andb]. set (rate := kk_accretion c). clearbody rate. unfold number_sink. split.
    + intros L. rewrite Rmin_right by exact L. replace (Reqb (- (rc c / dt)) (- rc c / dt)) with true by (symmetry; apply Reqb_true; unfold Rdiv; ring). unfold Rdiv. ring.
    + intros L. rewrite Rmin_left by lra. replace (Reqb (- rate) (- rc c / dt)) with false by (symmetry; apply Reqb_false; unfold Rdiv in *; lra).
      unfold nc_eps, rr_eps. replace (Rltb (10000000 * num_eps) (nc c)) with true by (symmetry; apply Rltb_true; lra). cbn [andb]. split; intros L2.
      * exists (r_drop_c tgamma (rc c) (nc c) (rhod c)). split; [apply radius_spec; [exact HG|lra|lra|lra]|].
        replace (Rltb (1 / 10000 * num_eps) rate) with true by (symmetry; apply Rltb_true; lra). rewrite cmin_Rmin, sink_rate by (apply r_drop_c_pos; [exact HG|lra|lra|lra]). ring.
      * replace (Rltb (1 / 10000 * num_eps) rate) with false by (symmetry; apply Rltb_false; lra). ring.
  - intros N. assert (ON : accr_on tgamma num_eps o dt c T p = false).
    { destruct (accr_on tgamma num_eps o dt c T p) eqn:E; [|reflexivity]. exfalso. apply N. unfold accr_on in E. apply andb_prop in E. destruct E as (_ & E). apply andb_prop in E. destruct E as (E & E3). apply andb_prop in E. destruct E as (E1 & E2).
      apply Rltb_true in E1. apply Rltb_true in E2. apply Rltb_true in E3. unfold rc_eps, nc_eps, rr_eps in *. repeat split; lra. }
    assert (S : second_rc tgamma num_eps o dt c T p = 0 /\ second_rr tgamma num_eps o dt c T p = 0 /\ second_nc tgamma num_eps o dt c T p = 0).
    { unfold second_rc, second_rr, second_nc, all_collected, accr_rate, second_rr, accr_rate. rewrite AC, ON, AZ. cbn [orb andb]. rewrite Rplus_0_l.
      replace (Rltb (rr_eps num_eps) 0) with false by (symmetry; apply Rltb_false; unfold rr_eps; lra). rewrite andb_false_r. destruct (b_acnv o || b_accr o); repeat split; ring. }
    destruct S as (S1 & S2 & S3). unfold dots_of. rewrite A1, A2, B1, S1, S2, S3. cbv zeta. destruct (cloud_limiter _ _ _ _ _ _ _ _); cbn [drc drr dnc]; repeat split; ring.
Qed.
Print Assumptions C63_accretion.
