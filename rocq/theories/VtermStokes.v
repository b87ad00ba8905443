(** C98, continued: small droplets and Stokes's law; sea level *)
From Coq Require Import List Reals Arith ZArith QArith Qreals Lra Lia Bool.
From Verif Require Import Base BaseProofs ThermoModel ThermoProofs VtermModel VtermPoly VtermOrder.
From Verif Require InitModel MotionModel.
Import ListNotations.
Local Open Scope R_scope.

(** Stokes's law for spheres of water in air *)
Definition stokes (r rhoa eta : R) : R := 2 / 9 * (rho_w - rhoa) * g * r ^ 2 / eta.

(** At sea level (standard pressure, density and viscosity) the factor of altitude of Beard 1977 is 1 at every size. *)
Theorem C98_sea_level :
  forall r, 0 < r -> vt_beard77_fact r p_stp rho_stp eta_0 = 1.
Proof.
  intros r P. assert (S := rho_stp_range). assert (E : eta_0 <> 0) by (unfold eta_0; lra).
  assert (Q : p_stp <> 0) by (unfold p_stp, InitModel.p_stp; lra).
  assert (S1 : sqrt (rho_stp / rho_stp) = 1) by (rewrite <- sqrt_1; f_equal; field; lra).
  assert (S2 : sqrt (p_stp / p_stp * rho_stp / rho_stp) = 1) by (rewrite <- sqrt_1; f_equal; field; lra).
  unfold vt_beard77_fact. cbv zeta. rewrite S1, S2. replace (eta_0 / eta_0) with 1 by (field; exact E).
  destruct (Rleb r (20 / 1000000)); [|field].
  rewrite !Rmult_1_r, Rmult_1_l. assert (L : 0 < l_0 / r) by (unfold l_0; apply Rdiv_lt_0_compat; lra). field.
  assert (Z : 1 + 1255 / 1000 * (l_0 / r) = (r + 1255 / 1000 * l_0) / r) by (field; lra). unfold l_0 in *. lra.
Qed.
Print Assumptions C98_sea_level.

Lemma stokes_x r : 0 < r ->
  let K := 2 / 9 * (rho_w - rho_stp) * g * 100 / 40000 / eta_0 in
  100 * stokes r rho_stp eta_0 = exp (ln K + 2 * ln (2 * 100 * r)).
Proof.
  intros P K. assert (S := rho_stp_range). assert (G := g_pos). assert (W : rho_w = 1000) by reflexivity.
  assert (PK : 0 < K) by (unfold K, eta_0; repeat first [apply Rdiv_lt_0_compat|apply Rmult_lt_0_compat|lra]).
  rewrite exp_plus, exp_ln by exact PK. replace (2 * ln (2 * 100 * r)) with (ln (2 * 100 * r) + ln (2 * 100 * r)) by ring.
  rewrite exp_plus, exp_ln by lra. unfold K, stokes. field. unfold eta_0. lra.
Qed.
Lemma lnK : let K := 2 / 9 * (rho_w - rho_stp) * g * 100 / 40000 / eta_0 in 1260 / 100 <= ln K <= 1262 / 100.
Proof.
  intros K. assert (S := rho_stp_range). assert (W : rho_w = 1000) by reflexivity.
  assert (B : 299400 <= K <= 299500).
  { assert (E : K = (1000 - rho_stp) * (2 / 9 * (981 / 100) * 100 / 40000 * (100000000 / 1818))) by (unfold K, g, eta_0; rewrite W; field).
    rewrite E. lra. }
  split.
  - eapply Rle_trans; [|apply (ln_mono 299400); lra]. apply ln_below; [lra|].
    assert (H := below_exp_ok 14 (1 # 299400) (-1260 # 100) ltac:(vm_compute; reflexivity)).
    replace (Q2R (1 # 299400)) with (/ 299400) in H by q2r. replace (Q2R (-1260 # 100)) with (- (1260 / 100)) in H by q2r. exact H.
  - eapply Rle_trans; [apply (ln_mono K 299500); lra|]. apply ln_above; [lra|].
    assert (H := below_exp_ok 14 (299500 # 1) (1262 # 100) ltac:(vm_compute; reflexivity)).
    replace (Q2R (299500 # 1)) with 299500 in H by q2r. replace (Q2R (1262 # 100)) with (1262 / 100) in H by q2r. exact H.
Qed.

(** Small droplets fall by Stokes's law: with Beard 1976 up to 9.5 um exactly but for the slip correction; with Beard 1977 at
    sea level within 6% from 2 to 20 um; spheres of Khvorostyanov and Curry within 6% as long as the Best number is at most 1,
    in air of at most 2 kg/m3. *)
Theorem C98_stokes :
  forall r, 0 < r ->
    (forall T p rhoa eta, 0 < eta -> r <= 95 / 10000000 ->
       vt_beard76 r T p rhoa eta =
       stokes r rhoa eta * (1 + 1255 / 1000 * (662 / 10000000000 * (eta / eta_0) * (101325 / p) * sqrt (T / (29315 / 100))) / r)) /\
    (2 / 1000000 <= r <= 20 / 1000000 ->
       94 / 100 * stokes r rho_stp eta_0 <= vt_beard77_v0 r <= 106 / 100 * stokes r rho_stp eta_0) /\
    (forall rhoa eta, 0 < rhoa <= 2 -> 0 < eta -> 4 / 3 * (rho_w - rhoa) * rhoa * g * (2 * r) ^ 3 / eta ^ 2 <= 1 ->
       94 / 100 * stokes r rhoa eta <= vt_khvorostyanov r rhoa eta true <= 106 / 100 * stokes r rhoa eta).
Proof.
  intros r P. assert (W : rho_w = 1000) by reflexivity. assert (G := g_pos). split; [|split].
  - intros T p rhoa eta E R. unfold vt_beard76. replace (Rleb r (95 / 10000000)) with true by (symmetry; now apply Rleb_true).
    unfold slip, stokes, p_stp, InitModel.p_stp, eta_0. cbv zeta. set (q := 662 / 10000000000 * _ * _ * _). clearbody q. field. lra.
  - intros [R1 R2]. rewrite v0_s by exact R2. assert (S := stokes_x r P). cbv zeta in S. assert (L := lnK). cbv zeta in L.
    set (K := 2 / 9 * (rho_w - rho_stp) * g * 100 / 40000 / eta_0) in *. clearbody K.
    set (x := ln (2 * 100 * r)) in *.
    assert (X0 := ln_x0). assert (Xh : x <= - (5518 / 1000)) by (apply Rle_trans with (ln (4 / 1000)); [apply ln_mono; lra|lra]).
    assert (Xl : - (785 / 100) <= x).
    { apply Rle_trans with (ln (4 / 10000)); [|apply ln_mono; lra]. apply ln_below; [lra|].
      assert (H := below_exp_ok 12 (2500 # 1) (785 # 100) ltac:(vm_compute; reflexivity)).
      replace (Q2R (2500 # 1)) with (/ (4 / 10000)) in H by q2r. replace (Q2R (785 # 100)) with (- - (785 / 100)) in H by q2r. exact H. }
    (* exponent minus that of Stokes *)
    assert (D : - (3 / 100) <= ev (addp qs [-1261 # 100; -2 # 1]%Q) x <= 45 / 1000).
    { assert (Xr : - (785 / 100) <= x <= - (5518 / 1000)) by lra. clearbody x. clear - Xr. split.
      - by_cover 118%nat (-786 # 100)%Q (1 # 100)%Q (-3 # 100)%Q (addp qs [-1261 # 100; -2 # 1]%Q) x Xr.
        eapply Rle_trans; [|exact H]. q2r.
      - by_cover 118%nat (-786 # 100)%Q (1 # 100)%Q (-45 # 1000)%Q (qneg (addp qs [-1261 # 100; -2 # 1]%Q)) x Xr. rewrite ev_qneg in H.
        apply Ropp_le_cancel. eapply Rle_trans; [|exact H]. q2r. }
    rewrite ev_addp in D. cbn [ev] in D. unfold Q2R at 1 2 3 4 in D. cbn [Qnum Qden] in D.
    replace (stokes r rho_stp eta_0) with (exp (ln K + 2 * x) / 100) by (rewrite <- S; field).
    replace (ev qs x) with (ln K + 2 * x + (ev qs x - 2 * x - ln K)) by ring. rewrite (exp_plus (ln K + 2 * x) (ev qs x - 2 * x - ln K)).
    set (z := ev qs x - 2 * x - ln K). assert (Z : - (4 / 100) <= z <= 55 / 1000) by (unfold z; lra).
    assert (A1 := exp_1 z). assert (A2 := exp_1 (- z)). assert (A3 : exp z * exp (- z) = 1) by (rewrite <- exp_plus, Rplus_opp_r; apply exp_0).
    assert (A4 := exp_pos z). assert (A5 := exp_pos (ln K + 2 * x)).
    assert (A6 : exp z <= 106 / 100) by (clear - A2 A3 A4 Z; nra).
    set (e := exp (ln K + 2 * x)) in *. clearbody e.
    assert (H1 : e * (94 / 100) <= e * exp z) by (apply Rmult_le_compat_l; lra).
    assert (H2 : e * exp z <= e * (106 / 100)) by (apply Rmult_le_compat_l; lra). split; lra.
  - intros rhoa eta [A A'] C X. assert (Ar : 0 < rhoa < rho_w) by lra. rewrite khv_reynolds by assumption.
    assert (PX := best_pos r rhoa eta P Ar C). assert (EX := best_eq r rhoa eta A C). rewrite <- EX in X.
    assert (B := khv_b_range _ PX). assert (S1 := khv_s_1 _ PX). assert (S2 := khv_s_sq _ (Rlt_le _ _ PX)).
    unfold reynolds. fold (khv_s (best r rhoa eta)). set (s := khv_s _) in *. set (b := khv_b _) in *. clearbody s b.
    set (Xv := best r rhoa eta) in *.
    assert (Q : sqrt Xv * sqrt Xv = Xv) by (apply sqrt_sqrt; lra). assert (Q0 := sqrt_lt_R0 _ PX).
    assert (Q1 : sqrt Xv <= 1) by nra.
    assert (Sb : s <= 1045 / 1000) by nra.
    (* (s - 1)^2 (s + 1)^2 = 0.0902^2 X *)
    assert (E : (s - 1) ^ 2 * (s + 1) ^ 2 = (902 / 10000) ^ 2 * Xv).
    { replace ((s - 1) ^ 2 * (s + 1) ^ 2) with ((s * s - 1) ^ 2) by ring. rewrite S2.
      replace ((1 + 902 / 10000 * sqrt Xv - 1) ^ 2) with ((902 / 10000) ^ 2 * (sqrt Xv * sqrt Xv)) by ring. now rewrite Q. }
    assert (ES : stokes r rhoa eta = Xv / 24 * eta / (rhoa * (2 * r))).
    { unfold stokes. rewrite EX. field. lra. }
    rewrite ES. set (h := (s - 1) ^ 2) in *.
    assert (H0 : 0 < h) by (unfold h; apply pow_lt; lra).
    assert (E1 : 4 * h <= (902 / 10000) ^ 2 * Xv) by (rewrite <- E; nra).
    assert (E2 : (902 / 10000) ^ 2 * Xv <= 4183 / 1000 * h) by (rewrite <- E; nra).
    assert (F0 : 1 <= Rpower (rho_w / (rho_w - rhoa)) b <= 101 / 100).
    { assert (L : 0 <= ln (rho_w / (rho_w - rhoa)) <= 3 / 1000).
      { assert (Z : 1 <= rho_w / (rho_w - rhoa) <= 1003 / 1000).
        { split; apply (Rmult_le_reg_r (rho_w - rhoa)); try lra; unfold Rdiv at 1; rewrite ?Rmult_assoc, ?Rinv_l by lra; lra. }
        split; [rewrite <- ln_1; apply ln_mono; lra|]. assert (Y := ln_le_sub1 (rho_w / (rho_w - rhoa)) ltac:(lra)). lra. }
      unfold Rpower. set (l := ln _) in *. assert (Z : 0 <= b * l <= 3 / 1000) by nra.
      assert (A1 := exp_1 (b * l)). assert (A2 := exp_1 (- (b * l))).
      assert (A3 : exp (b * l) * exp (- (b * l)) = 1) by (rewrite <- exp_plus, Rplus_opp_r; apply exp_0).
      assert (A4 := exp_pos (b * l)). split; nra. }
    set (F := Rpower _ b) in *. clearbody F.
    set (k := eta / (rhoa * (2 * r))). assert (Pk : 0 < k) by (unfold k; apply Rdiv_lt_0_compat; [exact C|nra]).
    replace (906 / 100 * (906 / 100) / 4 * h * eta / (rhoa * (2 * r)) * F) with (906 / 100 * (906 / 100) / 4 * h * F * k) by (unfold k, Rdiv; ring).
    replace (Xv / 24 * eta / (rhoa * (2 * r))) with (Xv / 24 * k) by (unfold k, Rdiv; ring).
    rewrite <- !Rmult_assoc. clearbody k h Xv. clear - Pk H0 E1 E2 F0 PX.
    assert (M : h <= h * F <= 101 / 100 * h) by nra.
    split; apply Rmult_le_compat_r; try lra.
Qed.
Print Assumptions C98_stokes.

(** a droplet of 10 um in ordinary air *)
Theorem C98_stokes_instance :
  let eta := 17 / 1000000 in
  94 / 100 * stokes (1 / 100000) 1 eta <= vt_khvorostyanov (1 / 100000) 1 eta true <= 106 / 100 * stokes (1 / 100000) 1 eta /\
  94 / 100 * stokes (1 / 100000) rho_stp eta_0 <= vt_beard77_v0 (1 / 100000).
Proof.
  intros eta. destruct (C98_stokes (1 / 100000) ltac:(lra)) as (_ & A & B). split; [|apply A; lra].
  apply B; unfold eta, rho_w, g; lra.
Qed.
Print Assumptions C98_stokes_instance.
