(** C37: kappa-Koehler equilibrium and critical wet radii. *)
From Coq Require Import Reals Ranalysis5 List NArith ZArith Bool Lra Lia Psatz.
From Verif Require Import Base BaseProofs ThermoModel TomsModel TomsProps CondModel CondProps KoehlerModel.
Import ListNotations.
Local Open Scope R_scope.

(** ** specification *)
(** [rw3] is an equilibrium wet volume: the saturation ratio over the surface of a droplet of wet
    radius [rw] is [RH] *)
Definition equilibrium (rd3 kappa RH T rw3 : R) : Prop :=
  exists rw, 0 < rw /\ rw3 = rw ^ 3 /\ koehler_S rw rd3 kappa T = RH.

Lemma cbrt_pos x : 0 < x -> 0 < cbrt x /\ cbrt x * cbrt x * cbrt x = x.
Proof.
  intros H. destruct (cbrt_cube_nonneg x) as [H1 H2]; [lra|].
  split; [|exact H2]. destruct H1 as [H1|H1]; [exact H1|]. rewrite <- H1 in H2. lra.
Qed.
Lemma cbrt_of_cube r : 0 < r -> cbrt (r ^ 3) = r.
Proof.
  intros H. assert (Hp : 0 < r ^ 3) by (apply pow_lt; exact H).
  destruct (cbrt_pos _ Hp) as [H1 H2]. apply cube_inj; [lra|lra|]. rewrite H2. ring.
Qed.

Lemma minfun_koehler RH rd3 kappa T rw : 0 < rw ->
  rw3_eq_minfun RH rd3 kappa T (rw ^ 3) = RH - koehler_S rw rd3 kappa T.
Proof.
  intros H. unfold rw3_eq_minfun, koehler_S, a_w, klvntrm. rewrite cbrt_of_cube by exact H. reflexivity.
Qed.

Lemma kelvin_A_pos T : 0 < T < 791 -> 0 < kelvin_A T.
Proof.
  intros H. unfold kelvin_A, sg_surf, rho_w. pose proof R_v_pos.
  unfold Rdiv. repeat apply Rmult_lt_0_compat; try (apply Rinv_0_lt_compat; lra); lra.
Qed.

(** C37: without curvature, the equilibrium volume balances the water activity with the humidity *)
Theorem C37_nokelvin rd3 kappa RH : 0 < rd3 -> 0 <= kappa -> 0 <= RH < 1 ->
  rd3 <= rw3_eq_nokelvin rd3 kappa RH /\
  (0 < kappa -> (rw3_eq_nokelvin rd3 kappa RH - rd3) /
                (rw3_eq_nokelvin rd3 kappa RH - rd3 * (1 - kappa)) = RH) /\
  (kappa = 0 -> rw3_eq_nokelvin rd3 kappa RH = rd3).
Proof.
  intros Hd Hk HR.
  assert (E : rw3_eq_nokelvin rd3 kappa RH = rd3 + rd3 * (RH * kappa / (1 - RH))).
  { unfold rw3_eq_nokelvin. field. lra. }
  rewrite E.
  assert (0 <= RH * kappa / (1 - RH)).
  { apply Rmult_le_pos; [nra|left; apply Rinv_0_lt_compat; lra]. }
  split; [nra|split].
  - intros Hk'. field. split; [lra|]. 
    replace (rd3 * RH * kappa - rd3 * RH * kappa + rd3 * kappa) with (rd3 * kappa) by ring.
    nra.
  - intros ->. field. lra.
Qed.

Lemma cont_cbrt x : 0 < x -> continuity_pt cbrt x.
Proof.
  intros Hx.
  apply (continuity_pt_locally_ext (fun y => Rpower y (/ 3)) cbrt x x Hx).
  - intros y Hy. unfold R_dist in Hy. unfold cbrt. destruct Rlt_dec as [H|H]; [reflexivity|].
    exfalso. unfold Rabs in Hy. destruct Rcase_abs in Hy; lra.
  - apply derivable_continuous_pt. eexists. apply derivable_pt_lim_power. exact Hx.
Qed.

Lemma cont_const c x : continuity_pt (fun _ => c) x.
Proof. apply continuity_pt_const. intros ? ?. reflexivity. Qed.
Lemma cont_id x : continuity_pt (fun y => y) x.
Proof. apply derivable_continuous_pt, derivable_pt_id. Qed.

Lemma cont_minfun RH rd3 kappa T x : 0 < rd3 -> 0 < kappa -> rd3 <= x ->
  continuity_pt (rw3_eq_minfun RH rd3 kappa T) x.
Proof.
  intros Hd Hk Hx. unfold rw3_eq_minfun.
  apply continuity_pt_minus; [apply cont_const|].
  apply continuity_pt_mult.
  - unfold a_w. apply continuity_pt_div.
    + apply continuity_pt_minus; [apply cont_id|apply cont_const].
    + apply continuity_pt_minus; [apply cont_id|apply cont_const].
    + nra.
  - unfold klvntrm.
    apply (continuity_pt_comp (fun y => kelvin_A T / cbrt y) exp).
    + apply continuity_pt_div; [apply cont_const|apply cont_cbrt; lra|].
      destruct (cbrt_pos x); lra.
    + apply derivable_continuous_pt, derivable_pt_exp.
Qed.

Lemma minfun_signs RH rd3 kappa T : 0 < rd3 -> 0 < kappa -> 0 < RH < 1 -> 0 < T < 791 ->
  rd3 < rw3_eq_nokelvin rd3 kappa RH /\
  0 < rw3_eq_minfun RH rd3 kappa T rd3 /\
  rw3_eq_minfun RH rd3 kappa T (rw3_eq_nokelvin rd3 kappa RH) < 0.
Proof.
  intros Hd Hk HR HT.
  destruct (C37_nokelvin rd3 kappa RH Hd (Rlt_le _ _ Hk)) as (N1 & N2 & _); [lra|].
  specialize (N2 Hk).
  assert (N3 : rd3 < rw3_eq_nokelvin rd3 kappa RH).
  { destruct N1 as [N1|N1]; [exact N1|]. rewrite <- N1 in N2.
    replace (rd3 - rd3) with 0 in N2 by ring. unfold Rdiv in N2. rewrite Rmult_0_l in N2. lra. }
  split; [exact N3|split].
  - unfold rw3_eq_minfun, a_w. replace (rd3 - rd3) with 0 by ring.
    unfold Rdiv. rewrite !Rmult_0_l. lra.
  - unfold rw3_eq_minfun, a_w. rewrite N2. unfold klvntrm.
    set (x := rw3_eq_nokelvin rd3 kappa RH) in *.
    destruct (cbrt_pos x) as [C1 _]; [lra|].
    pose proof (kelvin_A_pos T HT) as HA.
    assert (1 < exp (kelvin_A T / cbrt x)).
    { rewrite <- exp_0. apply exp_increasing. apply Rdiv_lt_0_compat; assumption. }
    nra.
Qed.

(** derivative of [r ln((r^3 - rd3 (1-kappa)) / (r^3 - rd3))] *)
Lemma d_ln_cube c r : c < r ^ 3 -> derivable_pt_lim (fun x => ln (x ^ 3 - c)) r (3 * r ^ 2 / (r ^ 3 - c)).
Proof.
  intros H.
  replace (3 * r ^ 2 / (r ^ 3 - c)) with (/ (r ^ 3 - c) * (3 * r ^ 2 - 0)) by (field; lra).
  apply (derivable_pt_lim_comp (fun x => x ^ 3 - c) ln).
  - apply derivable_pt_lim_minus; [|apply derivable_pt_lim_const].
    replace (3 * r ^ 2) with (INR 3 * r ^ Init.Nat.pred 3) by (cbn; ring).
    apply derivable_pt_lim_pow.
  - apply derivable_pt_lim_ln. lra.
Qed.

Definition hfun (d kd r : R) : R := r * (ln (r ^ 3 - (d - kd)) - ln (r ^ 3 - d)).
Lemma hfun_deriv d kd r : 0 < kd -> d < r ^ 3 ->
  derivable_pt_lim (hfun d kd) r
    (1 * (ln (r ^ 3 - (d - kd)) - ln (r ^ 3 - d)) +
     r * (3 * r ^ 2 / (r ^ 3 - (d - kd)) - 3 * r ^ 2 / (r ^ 3 - d))).
Proof.
  intros Hk Hr. unfold hfun.
  apply (derivable_pt_lim_mult (fun x => x) (fun r => ln (r ^ 3 - (d - kd)) - ln (r ^ 3 - d))).
  - apply derivable_pt_lim_id.
  - apply derivable_pt_lim_minus; apply d_ln_cube; lra.
Qed.
Lemma ln_le_minus1 y : 0 < y -> ln y <= y - 1.
Proof.
  intros H. pose proof (exp_ineq1_le (ln y)) as E. rewrite exp_ln in E by exact H. lra.
Qed.
Lemma cube_mono a b : 0 < a -> a < b -> a ^ 3 < b ^ 3.
Proof. intros. pose proof (cube_lt a b). cbn. rewrite !Rmult_1_r. nra. Qed.

Lemma ln_div x y : 0 < x -> 0 < y -> ln (x / y) = ln x - ln y.
Proof.
  intros Hx Hy. unfold Rdiv. rewrite ln_mult; [|exact Hx|apply Rinv_0_lt_compat; exact Hy].
  rewrite ln_Rinv by exact Hy. reflexivity.
Qed.

Lemma hfun_decreasing d kappa r1 r2 : 0 < d -> 0 < kappa <= 3 -> 0 < r1 -> d < r1 ^ 3 -> r1 < r2 ->
  hfun d (d * kappa) r2 < hfun d (d * kappa) r1.
Proof.
  intros Hd Hk H0 H1 H12.
  assert (Hkd : 0 < d * kappa) by nra.
  destruct (MVT_cor2 (hfun d (d * kappa))
     (fun r => 1 * (ln (r ^ 3 - (d - d * kappa)) - ln (r ^ 3 - d)) +
               r * (3 * r ^ 2 / (r ^ 3 - (d - d * kappa)) - 3 * r ^ 2 / (r ^ 3 - d))) r1 r2 H12)
    as (c & E & Hc).
  { intros c Hc. apply hfun_deriv; [exact Hkd|].
    destruct (Req_dec r1 c) as [<-|Hn]; [exact H1|].
    pose proof (cube_mono r1 c H0). lra. }
  assert (Hc3 : d < c ^ 3) by (pose proof (cube_mono r1 c H0); lra).
  set (v := c ^ 3 - (d - d * kappa)) in *. set (w := c ^ 3 - d) in *.
  assert (Hw : 0 < w) by (unfold w; lra). assert (Hv : 0 < v) by (unfold v; lra).
  assert (Hvw : v = w + d * kappa) by (unfold v, w; lra).
  assert (HL : ln v - ln w <= d * kappa / w).
  { rewrite <- ln_div by assumption.
    apply Rle_trans with (1 := ln_le_minus1 (v / w) (Rdiv_lt_0_compat _ _ Hv Hw)).
    right. rewrite Hvw. field. lra. }
  assert (HS : c * (3 * c ^ 2 / v - 3 * c ^ 2 / w) = - (d * kappa / w) * (3 * c ^ 3 / v)).
  { rewrite Hvw at 1. rewrite Hvw. field. split; lra. }
  rewrite HS in E.
  assert (H3 : 1 < 3 * c ^ 3 / v).
  { apply (Rmult_lt_reg_r v); [exact Hv|]. unfold Rdiv. rewrite Rmult_assoc, Rinv_l by lra.
    unfold v. nra. }
  assert (Hq : 0 < d * kappa / w) by (apply Rdiv_lt_0_compat; lra).
  set (q := d * kappa / w) in *. set (g := 3 * c ^ 3 / v) in *. set (lv := ln v - ln w) in *.
  clearbody q g lv.
  assert (Hneg : 1 * lv + - q * g < 0) by nra.
  assert (Hprod : (1 * lv + - q * g) * (r2 - r1) < 0) by nra.
  lra.
Qed.

(** C37: below saturation the equilibrium wet volume is unique (kappa up to 3, the physical range
    being up to about 1.3) *)
Theorem C37_unique rd3 kappa RH T x y :
  0 < rd3 -> 0 < kappa <= 3 -> 0 < RH <= 1 -> rd3 < x -> rd3 < y ->
  equilibrium rd3 kappa RH T x -> equilibrium rd3 kappa RH T y -> x = y.
Proof.
  assert (HH : forall r1 r2, 0 < rd3 -> 0 < kappa <= 3 -> 0 < RH <= 1 -> 0 < r1 -> rd3 < r1 ^ 3 -> r1 < r2 ->
     koehler_S r1 rd3 kappa T = RH -> koehler_S r2 rd3 kappa T = RH -> False).
  { intros r1 r2 Hd Hk HR Hr Hdr H12 E1 E2.
    pose proof (hfun_decreasing rd3 kappa r1 r2 Hd Hk Hr Hdr H12) as Hdec.
    assert (HA : forall r, 0 < r -> rd3 < r ^ 3 -> koehler_S r rd3 kappa T = RH ->
                 kelvin_A T = hfun rd3 (rd3 * kappa) r + r * ln RH).
    { intros r H0 H1 E. unfold koehler_S in E. unfold hfun.
      assert (0 < r ^ 3 - (rd3 - rd3 * kappa)) by nra.
      replace (rd3 * (1 - kappa)) with (rd3 - rd3 * kappa) in E by ring.
      rewrite <- E. rewrite ln_mult; [|apply Rdiv_lt_0_compat; lra|apply exp_pos].
      rewrite ln_exp, ln_div by lra. field. lra. }
    assert (Hdr2 : rd3 < r2 ^ 3) by (pose proof (cube_mono r1 r2 Hr H12); lra).
    rewrite (HA r1 Hr Hdr E1) in HA. specialize (HA r2 ltac:(lra) Hdr2 E2).
    assert (ln RH <= 0).
    { rewrite <- ln_1. destruct (Req_dec RH 1) as [->|]; [lra|]. left. apply ln_increasing; lra. }
    nra. }
  intros Hd Hk HR Hx Hy (r1 & P1 & -> & E1) (r2 & P2 & -> & E2).
  destruct (Rtotal_order r1 r2) as [H|[->|H]]; [|reflexivity|]; exfalso.
  - apply (HH r1 r2); assumption.
  - apply (HH r2 r1); assumption.
Qed.

(** C37: the volume returned is between the dry volume and the volume without curvature; a true
    equilibrium volume exists in that range; and (double precision, RH kappa <= 256 (1 - RH)) the
    returned value approximates one to a relative error of 2^-16.  For kappa = 0 it is the dry
    volume. *)
Theorem C37_equilibrium rd3 kappa RH T :
  0 < rd3 -> 0 < kappa -> 0 < RH < 1 -> 0 < T < 791 ->
  let r := rw3_eq fp_double 8 rd3 kappa RH T in
  let top := rw3_eq_nokelvin rd3 kappa RH in
  rd3 < r < top /\
  (exists z, rd3 < z < top /\ equilibrium rd3 kappa RH T z) /\
  (RH * kappa <= 256 * (1 - RH) ->
   exists z, rd3 < z < top /\ equilibrium rd3 kappa RH T z /\ Rabs (r - z) <= / 2 ^ 16 * z).
Proof.
  intros Hd Hk HR HT r top.
  destruct (minfun_signs RH rd3 kappa T Hd Hk HR HT) as (M1 & M2 & M3). fold top in M1, M3.
  set (f := rw3_eq_minfun RH rd3 kappa T) in *.
  assert (Heq : forall z, rd3 <= z <= top -> f z = 0 -> rd3 < z < top /\ equilibrium rd3 kappa RH T z).
  { intros z Hz Fz. split.
    - split.
      + destruct (Req_dec rd3 z) as [E|]; [|lra]. rewrite <- E in Fz. lra.
      + destruct (Req_dec top z) as [E|]; [|lra]. rewrite <- E in Fz. lra.
    - destruct (cbrt_pos z) as [C1 C2]; [lra|].
      assert (Ez : z = (cbrt z) ^ 3) by (rewrite <- C2 at 1; ring).
      exists (cbrt z). split; [exact C1|split; [exact Ez|]].
      pose proof (minfun_koehler RH rd3 kappa T _ C1) as Hm. rewrite <- Ez in Hm.
      unfold f in Fz. lra. }
  assert (Hs : f rd3 * f top <= 0) by nra.
  destruct (C19_root fp_double f rd3 top (8 * 8 / 4) 100 fp_double_ok M1 Hs) as
    (r' & it & evs & E & Hr & _ & _ & _ & O); [split; [discriminate|reflexivity]|].
  assert (Er : r = r').
  { unfold r, rw3_eq. replace (Reqb kappa 0) with false by (symmetry; apply Reqb_false; lra).
    fold f. fold top. unfold toms748_default. rewrite E. reflexivity. }
  split; [|split].
  - rewrite Er. destruct O as [O|(a & b & (O1 & O2 & O3 & O4) & O5 & _)]; [|lra].
    exact (proj1 (Heq r' Hr O)).
  - destruct (root_between f rd3 top M1) as (z & Z1 & Z2).
    + nra.
    + intros x Hx. apply cont_minfun; lra.
    + exists z. apply Heq; assumption.
  - intros Hb.
    destruct (C19_accuracy fp_double f rd3 top (8 * 8 / 4) 100 24) as (r2 & it' & evs' & z & E' & Z1 & Z2 & Z3).
    + apply fp_double_ok.
    + exact Hd.
    + exact M1.
    + exact Hs.
    + reflexivity.
    + discriminate.
    + rewrite toms_default_tol.
      generalize pow24_bound; generalize ((1 / 2 + 2 * feps fp_double) ^ 24); intros q24 H24.
      assert (Htop : top - rd3 <= 256 * rd3).
      { unfold top, rw3_eq_nokelvin.
        replace (rd3 * (1 - RH * (1 - kappa)) / (1 - RH) - rd3) with (rd3 * (RH * kappa / (1 - RH))) by (field; lra).
        assert (RH * kappa / (1 - RH) <= 256).
        { apply (Rmult_le_reg_r (1 - RH)); [lra|]. unfold Rdiv. rewrite Rmult_assoc, Rinv_l by lra. lra. }
        nra. }
      nra.
    + intros x Hx. apply cont_minfun; lra.
    + pose proof (eq_trans (eq_sym E) E') as E2. injection E2 as <- <- <-.
      destruct (Heq z Z1 Z2) as [Q1 Q2].
      exists z. split; [exact Q1|split; [exact Q2|]].
      rewrite toms_default_tol in Z3. rewrite Er. lra.
Qed.

Theorem C37_insoluble p size rd3 RH T : rw3_eq p size rd3 0 RH T = rd3.
Proof. unfold rw3_eq. replace (Reqb 0 0) with true; [reflexivity|symmetry; apply Reqb_true; reflexivity]. Qed.

(** C37, initial wet radius: at least the dry radius, for every humidity (limited by RH_max < 1),
    as required by C18 *)
Lemma two_thirds x : 0 < x -> cpow x (2 / 3) = cbrt x * cbrt x.
Proof.
  intros H. unfold cpow, cbrt. destruct Rlt_dec; [|lra].
  rewrite <- Rpower_plus. f_equal. lra.
Qed.
Lemma cbrt_mono x y : 0 < x -> x <= y -> cbrt x <= cbrt y.
Proof.
  intros Hx Hxy. destruct (cbrt_pos x Hx) as [H1 H2]. destruct (cbrt_pos y) as [H3 H4]; [lra|].
  destruct (Rle_lt_dec (cbrt x) (cbrt y)) as [H|H]; [exact H|].
  pose proof (cube_lt (cbrt y) (cbrt x)). lra.
Qed.
Theorem C37_initial_wet rd3 kappa RH RH_max T :
  0 < rd3 -> 0 <= kappa -> 0 < RH -> 0 < RH_max < 1 -> 0 < T < 791 ->
  let rw2 := rw2_eq fp_double 8 RH_max rd3 kappa RH T in
  0 < rw2 /\ dry2 rd3 <= rw2 /\ (kappa = 0 -> rw2 = dry2 rd3) /\ (0 < kappa -> dry2 rd3 < rw2).
Proof.
  intros Hd Hk HR HRm HT rw2. unfold rw2, rw2_eq.
  set (x := rw3_eq fp_double 8 rd3 kappa (cmin RH RH_max) T).
  assert (Hx : rd3 <= x /\ (kappa = 0 -> x = rd3) /\ (0 < kappa -> rd3 < x)).
  { unfold x. destruct Hk as [Hk|Hk].
    - destruct (C37_equilibrium rd3 kappa (cmin RH RH_max) T Hd Hk) as (H & _);
        [rewrite cmin_Rmin; unfold Rmin; destruct Rle_dec; lra|exact HT|].
      split; [lra|split; [lra|intros; lra]].
    - rewrite <- Hk, C37_insoluble. split; [lra|split; [reflexivity|lra]]. }
  destruct Hx as (X1 & X2 & X3).
  rewrite two_thirds by lra. unfold dry2.
  destruct (cbrt_pos rd3 Hd) as [P1 Q1]. destruct (cbrt_pos x) as [P2 Q2]; [lra|].
  pose proof (cbrt_mono rd3 x Hd X1).
  split; [nra|split; [nra|split]].
  - intros H0. rewrite (X2 H0). reflexivity.
  - intros H0. specialize (X3 H0).
    assert (cbrt rd3 <> cbrt x) by (intros E; rewrite E in Q1; lra). nra.
Qed.

(** ** the critical radius *)

(** The function whose zero is searched has the sign of the derivative of the Koehler curve. *)
Theorem C37_critical_is_stationary rd3 kappa T rw : 0 < rd3 -> 0 < kappa -> 0 < rw -> rd3 <= rw ^ 3 ->
  exists s, derivable_pt_lim (fun r => koehler_S r rd3 kappa T) rw s /\
    (0 < s <-> 0 < rw3_cr_minfun rd3 kappa T (rw ^ 3)) /\
    (s < 0 <-> rw3_cr_minfun rd3 kappa T (rw ^ 3) < 0) /\
    (s = 0 <-> rw3_cr_minfun rd3 kappa T (rw ^ 3) = 0).
Proof.
  intros Hd Hk Hr Hdr.
  set (c := rd3 * (1 - kappa)).
  assert (Hc : 0 < rw ^ 3 - c) by (unfold c; nra).
  set (A := kelvin_A T).
  assert (D3 : forall c, derivable_pt_lim (fun r => r ^ 3 - c) rw (3 * rw ^ 2)).
  { intros c0. replace (3 * rw ^ 2) with (INR 3 * rw ^ Init.Nat.pred 3 - 0) by (cbn; ring).
    apply derivable_pt_lim_minus; [apply derivable_pt_lim_pow|apply derivable_pt_lim_const]. }
  assert (DE : derivable_pt_lim (fun r => exp (A / r)) rw (exp (A / rw) * ((0 * rw - 1 * A) / Rsqr rw))).
  { apply (derivable_pt_lim_comp (fun r => A / r) exp); [|apply derivable_pt_lim_exp].
    apply (derivable_pt_lim_div (fun _ => A) (fun r => r)).
    - apply derivable_pt_lim_const.
    - apply derivable_pt_lim_id.
    - lra. }
  eexists. split.
  - unfold koehler_S. fold c.
    apply (derivable_pt_lim_mult (fun r => (r ^ 3 - rd3) / (r ^ 3 - c)) (fun r => exp (A / r))).
    + apply (derivable_pt_lim_div (fun r => r ^ 3 - rd3) (fun r => r ^ 3 - c)); [apply D3|apply D3|lra].
    + exact DE.
  - cbv beta.
    match goal with |- (0 < ?s <-> _) /\ _ =>
      replace s with (rw3_cr_minfun rd3 kappa T (rw ^ 3) * (exp (A / rw) / (rw ^ 2 * (rw ^ 3 - c) ^ 2))) end.
    2:{ unfold rw3_cr_minfun. rewrite cbrt_of_cube by exact Hr. fold A. unfold Rsqr, c.
        unfold c in Hc. field. split; lra. }
    assert (Hf : 0 < exp (A / rw) / (rw ^ 2 * (rw ^ 3 - c) ^ 2)).
    { apply Rdiv_lt_0_compat; [apply exp_pos|]. apply Rmult_lt_0_compat; apply pow_lt; assumption. }
    set (m := rw3_cr_minfun rd3 kappa T (rw ^ 3)). set (q := exp (A / rw) / (rw ^ 2 * (rw ^ 3 - c) ^ 2)) in *.
    clearbody m q.
    split; [|split]; split; intros H.
    + destruct (Rle_lt_dec m 0); [nra|assumption].
    + nra.
    + destruct (Rle_lt_dec 0 m); [nra|assumption].
    + nra.
    + apply Rmult_integral in H. destruct H; lra.
    + rewrite H. ring.
Qed.

Lemma cr_signs rd3 kappa T : 0 < rd3 -> 0 < kappa -> 0 < T < 791 ->
  14 * kappa * cbrt rd3 < 900000 * kelvin_A T ->
  0 < rw3_cr_minfun rd3 kappa T rd3 /\ rw3_cr_minfun rd3 kappa T (100000000 * rd3) < 0.
Proof.
  intros Hd Hk HT Hs. pose proof (kelvin_A_pos T HT) as HA.
  destruct (cbrt_pos rd3 Hd) as [P1 Q1]. unfold rw3_cr_minfun. split.
  - replace (rd3 - rd3) with 0 by ring. rewrite Rmult_0_r, Rmult_0_l, Rplus_0_l.
    repeat apply Rmult_lt_0_compat; try assumption; lra.
  - assert (HC : cbrt (100000000 * rd3) <= 465 * cbrt rd3).
    { destruct (cbrt_pos (100000000 * rd3)) as [P2 Q2]; [lra|].
      destruct (Rle_lt_dec (cbrt (100000000 * rd3)) (465 * cbrt rd3)) as [H|H]; [exact H|].
      pose proof (cube_lt (465 * cbrt rd3) (cbrt (100000000 * rd3)) ltac:(lra) H) as HH.
      rewrite Q2 in HH.
      replace (465 * cbrt rd3 * (465 * cbrt rd3) * (465 * cbrt rd3)) with
        (465 * 465 * 465 * (cbrt rd3 * cbrt rd3 * cbrt rd3)) in HH by ring.
      rewrite Q1 in HH. lra. }
    set (A := kelvin_A T) in *. clearbody A. set (r := cbrt rd3) in *. clearbody r.
    set (r8 := cbrt (100000000 * rd3)) in *. clearbody r8.
    replace (A * (rd3 - 100000000 * rd3) * ((kappa - 1) * rd3 + 100000000 * rd3)
             + 3 * kappa * rd3 * (100000000 * rd3) * r8)
      with (rd3 * rd3 * (300000000 * kappa * r8 - 99999999 * A * (99999999 + kappa))) by ring.
    assert (H1 : 300000000 * kappa * r8 <= 300000000 * kappa * (465 * r)).
    { apply Rmult_le_compat_l; [lra|exact HC]. }
    assert (H2 : 99999999 * A * 99999999 <= 99999999 * A * (99999999 + kappa)).
    { apply Rmult_le_compat_l; [nra|lra]. }
    assert (H3 : 300000000 * kappa * (465 * r) < 99999999 * A * 99999999) by nra.
    assert (0 < rd3 * rd3) by nra. nra.
Qed.

(** C37, critical radius: for dry radii below [64000 A / kappa] (tens of micrometres) the search
    interval brackets a maximum of the Koehler curve, and the returned volume lies inside *)
Theorem C37_critical rd3 kappa T : 0 < rd3 -> 0 < kappa -> 0 < T < 791 ->
  14 * kappa * cbrt rd3 < 900000 * kelvin_A T ->
  let r := rw3_cr fp_double rd3 kappa T in
  rd3 < r < 10 ^ 8 * rd3 /\
  (rw3_cr_minfun rd3 kappa T r = 0 \/
   exists a b, rd3 <= a < r /\ r < b <= 10 ^ 8 * rd3 /\ r = (a + b) / 2 /\
     rw3_cr_minfun rd3 kappa T a * rw3_cr_minfun rd3 kappa T b < 0).
Proof.
  intros Hd Hk HT Hs r. destruct (cr_signs rd3 kappa T Hd Hk HT Hs) as [S1 S2].
  set (f := rw3_cr_minfun rd3 kappa T) in *.
  assert (E1 : 1 * rd3 = rd3) by ring.
  assert (Hlt : rd3 < 100000000 * rd3) by lra.
  destruct (C19_root fp_double f rd3 (100000000 * rd3) (8 * 8 / 4) 100 fp_double_ok Hlt) as
    (r' & it & evs & E & Hr & _ & _ & _ & O); [nra|split; [discriminate|reflexivity]|].
  assert (Er : r = r').
  { unfold r, rw3_cr. fold f. rewrite E1. unfold toms748_default. rewrite E. reflexivity. }
  rewrite Er. replace (10 ^ 8) with 100000000 by lra.
  destruct O as [O|(a & b & (O1 & O2 & O3 & O4) & O5 & _)].
  - split; [|left; exact O]. split.
    + destruct (Req_dec rd3 r') as [H|]; [rewrite <- H in O; lra|lra].
    + destruct (Req_dec (100000000 * rd3) r') as [H|]; [rewrite <- H in O; lra|lra].
  - split; [lra|]. right. exists a, b. split; [lra|split; [lra|split; [exact O5|exact O4]]].
Qed.

(** Refuted for very large dry particles: the Koehler curve still increases at the upper end of the
    search interval, which then contains no sign change. *)
Theorem C37_critical_large_refuted rd3 kappa T : 0 < rd3 -> 0 < kappa <= 2 -> 0 < T < 791 ->
  2 * 10 ^ 5 * kelvin_A T < kappa * cbrt rd3 ->
  forall rw3, rd3 <= rw3 <= 10 ^ 8 * rd3 -> 0 < rw3_cr_minfun rd3 kappa T rw3.
Proof.
  intros Hd Hk HT Hs x Hx. pose proof (kelvin_A_pos T HT) as HA.
  destruct (cbrt_pos rd3 Hd) as [P1 Q1]. destruct (cbrt_pos x) as [P2 Q2]; [lra|].
  unfold rw3_cr_minfun. set (A := kelvin_A T) in *. clearbody A.
  set (r := cbrt rd3) in *. set (q := cbrt x) in *. clearbody r q.
  assert (Hq : r <= q).
  { destruct (Rle_lt_dec r q) as [H|H]; [exact H|]. pose proof (cube_lt q r). lra. }
  (* q <= 465 r *)
  assert (Hq2 : q <= 465 * r).
  { destruct (Rle_lt_dec q (465 * r)) as [H|H]; [exact H|].
    pose proof (cube_lt (465 * r) q ltac:(lra) H) as HH. rewrite Q2 in HH.
    replace (465 * r * (465 * r) * (465 * r)) with (465 * 465 * 465 * (r * r * r)) in HH by ring.
    rewrite Q1 in HH. lra. }
  assert (H1 : A * (rd3 - x) * ((kappa - 1) * rd3 + x) = - (A * ((x - rd3) * (x + (kappa - 1) * rd3)))) by ring.
  rewrite H1.
  assert (H2 : (x - rd3) * (x + (kappa - 1) * rd3) <= 2 * x * x).
  { replace (2 * x * x) with (x * (2 * x)) by ring. apply Rmult_le_compat; try lra; nra. }
  assert (H3 : A * ((x - rd3) * (x + (kappa - 1) * rd3)) <= A * (2 * x * x)) by (apply Rmult_le_compat_l; [lra|exact H2]).
  (* 3 kappa rd3 x q > 2 A x x  <=  3 kappa rd3 q > 2 A x = 2 A q^3  <=  3 kappa r^3 > 2 A q^2 *)
  assert (H4 : q * q <= 465 * 465 * (r * r)) by nra.
  assert (H5 : 2 * A * (q * q) < 3 * kappa * (r * r * r)).
  { apply Rle_lt_trans with (2 * A * (465 * 465 * (r * r))); [apply Rmult_le_compat_l; lra|].
    assert (2 * A * (465 * 465) < 3 * (kappa * r) ) by nra. nra. }
  rewrite Q1 in H5.
  assert (H6 : 2 * A * x < 3 * kappa * rd3 * q).
  { rewrite <- Q2. replace (2 * A * (q * q * q)) with (2 * A * (q * q) * q) by ring.
    apply Rmult_lt_compat_r; assumption. }
  assert (0 < x) by lra. nra.
Qed.

(** instances: ammonium sulphate, dry radius 50 nm, 280 K *)
Theorem C37_instance :
  let rd3 := (5 / 10 ^ 8) ^ 3 in
  exists z, rd3 < z /\ equilibrium rd3 (61/100) (95/100) 280 z /\
    (forall y, rd3 < y -> equilibrium rd3 (61/100) (95/100) 280 y -> y = z) /\
    Rabs (rw3_eq fp_double 8 rd3 (61/100) (95/100) 280 - z) <= / 2 ^ 16 * z.
Proof.
  intros rd3. assert (Hd : 0 < rd3) by (unfold rd3; apply pow_lt; lra).
  destruct (C37_equilibrium rd3 (61/100) (95/100) 280 Hd) as (_ & _ & H); [lra|lra|lra|].
  destruct H as (z & Z1 & Z2 & Z3); [lra|].
  exists z. split; [lra|split; [exact Z2|split; [|exact Z3]]].
  intros y Hy Ey. apply (C37_unique rd3 (61/100) (95/100) 280); try assumption; lra.
Qed.
Theorem C37_critical_instance :
  let rd3 := (5 / 10 ^ 8) ^ 3 in rd3 < rw3_cr fp_double rd3 (61/100) 280 < 10 ^ 8 * rd3.
Proof.
  intros rd3. assert (Hd : 0 < rd3) by (unfold rd3; apply pow_lt; lra).
  apply C37_critical; try lra. unfold rd3. rewrite cbrt_of_cube by lra.
  unfold kelvin_A, sg_surf, rho_w. pose proof R_v_val.
  assert (Hi : 1 / 462 <= / R_v).
  { replace (1 / 462) with (/ 462) by lra. apply Rinv_le_contravar; lra. }
  unfold Rdiv. lra.
Qed.

Print Assumptions C37_nokelvin.
Print Assumptions C37_unique.
Print Assumptions C37_equilibrium.
Print Assumptions C37_insoluble.
Print Assumptions C37_initial_wet.
Print Assumptions C37_critical_is_stationary.
Print Assumptions C37_critical.
Print Assumptions C37_critical_large_refuted.
Print Assumptions C37_instance.
Print Assumptions C37_critical_instance.
