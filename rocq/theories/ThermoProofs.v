From Coq Require Import Reals Lra Psatz.
From Verif Require Import Base BaseProofs ThermoModel.
Local Open Scope R_scope.

Lemma cpow_pos_eq x y : 0 < x -> cpow x y = Rpower x y.
Proof. intros H. unfold cpow. destruct (Rlt_dec 0 x); [reflexivity|contradiction]. Qed.
Lemma Rpower_pos x y : 0 < Rpower x y.
Proof. unfold Rpower. apply exp_pos. Qed.
Lemma cpow_pos x y : 0 < x -> 0 < cpow x y.
Proof. intros H. rewrite cpow_pos_eq by auto. apply Rpower_pos. Qed.
Lemma cpow_nonneg x y : 0 <= cpow x y.
Proof. unfold cpow. destruct (Rlt_dec 0 x); [left; apply Rpower_pos|]. destruct (Req_EM_T y 0); lra. Qed.
Lemma cpow_0 y : y <> 0 -> cpow 0 y = 0.
Proof. intros H. unfold cpow. destruct (Rlt_dec 0 0); [lra|]. destruct (Req_EM_T y 0); [contradiction|reflexivity]. Qed.
Lemma cpow_1 y : cpow 1 y = 1.
Proof. rewrite cpow_pos_eq by lra. unfold Rpower. rewrite ln_1, Rmult_0_r. apply exp_0. Qed.
Lemma cpow_3 x : 0 < x -> cpow x 3 = x ^ 3.
Proof. intros H. rewrite cpow_pos_eq by auto. replace 3 with (INR 3) by (cbn; lra). now rewrite Rpower_pow. Qed.

Lemma M_v_eq : M_v = 18 / 1000. Proof. unfold M_v, M_H, M_OH. lra. Qed.
Lemma M_d_pos : 0 < M_d. Proof. unfold M_d. lra. Qed.
Lemma M_v_pos : 0 < M_v. Proof. rewrite M_v_eq. lra. Qed.
Lemma eps_pos : 0 < eps.
Proof. unfold eps. apply Rdiv_lt_0_compat; [apply M_v_pos|apply M_d_pos]. Qed.
Lemma kaBoNA_pos : 0 < kaBoNA. Proof. unfold kaBoNA. lra. Qed.
Lemma R_d_pos : 0 < R_d.
Proof. unfold R_d. apply Rdiv_lt_0_compat; [apply kaBoNA_pos|apply M_d_pos]. Qed.
Lemma R_v_pos : 0 < R_v.
Proof. unfold R_v. apply Rdiv_lt_0_compat; [apply kaBoNA_pos|apply M_v_pos]. Qed.
Lemma R_d_lt_c_pd : R_d < c_pd.
Proof. unfold R_d, kaBoNA, M_d, c_pd. lra. Qed.
Lemma RvRd : R_v / R_d = / eps.
Proof.
  unfold R_v, R_d, eps. pose proof kaBoNA_pos. pose proof M_v_pos. pose proof M_d_pos.
  field. repeat split; lra.
Qed.
Lemma T_tri_pos : 0 < T_tri. Proof. unfold T_tri. lra. Qed.
Lemma p_tri_pos : 0 < p_tri. Proof. unfold p_tri. lra. Qed.

Lemma p_vs_pos T : 0 < p_vs T.
Proof. unfold p_vs. apply Rmult_lt_0_compat; [apply p_tri_pos|apply exp_pos]. Qed.
Lemma p_vsi_pos T : 0 < p_vsi T.
Proof. unfold p_vsi. apply Rmult_lt_0_compat; [apply p_tri_pos|apply exp_pos]. Qed.

(** a general formula covering p_vs and p_vsi *)
Definition psat (L c T : R) : R :=
  p_tri * exp ((L + c * T_tri) / R_v * (1 / T_tri - 1 / T) - c / R_v * ln (T / T_tri)).

Lemma psat_deriv L c T : 0 < T ->
  derivable_pt_lim (psat L c) T ((L - c * (T - T_tri)) * psat L c T / (R_v * (T * T))).
Proof.
  intros HT. pose proof T_tri_pos as Ht. pose proof R_v_pos as Hr.
  set (g := fun T => (L + c * T_tri) / R_v * (1 / T_tri - 1 / T) - c / R_v * ln (T / T_tri)).
  assert (Hg : derivable_pt_lim g T ((L + c * T_tri) / R_v * (/ (T * T)) - c / R_v * / T)).
  { unfold g.
    apply derivable_pt_lim_minus with
      (f1 := fun T => (L + c * T_tri) / R_v * (1 / T_tri - 1 / T))
      (f2 := fun T => c / R_v * ln (T / T_tri)).
    - apply derivable_pt_lim_scal with (f := fun T => 1 / T_tri - 1 / T).
      replace (/ (T * T)) with (0 - (0 * T - 1 * 1) / Rsqr T)
        by (unfold Rsqr; field; lra).
      apply derivable_pt_lim_minus with (f1 := fun _ => 1 / T_tri) (f2 := fun T => 1 / T).
      + apply derivable_pt_lim_const.
      + apply derivable_pt_lim_div with (f1 := fun _ => 1) (f2 := fun T => T).
        * apply derivable_pt_lim_const.
        * apply derivable_pt_lim_id.
        * lra.
    - apply derivable_pt_lim_scal with (f := fun T => ln (T / T_tri)).
      replace (/ T) with (/ (T / T_tri) * / T_tri) by (field; lra).
      apply (derivable_pt_lim_comp (fun T => T / T_tri) ln).
      + replace (/ T_tri) with (1 * / T_tri + T * 0) by ring.
        apply derivable_pt_lim_mult with (f1 := fun T => T) (f2 := fun _ => / T_tri).
        * apply derivable_pt_lim_id.
        * apply derivable_pt_lim_const.
      + apply derivable_pt_lim_ln. apply Rdiv_lt_0_compat; auto. }
  assert (He : derivable_pt_lim (fun T => exp (g T)) T
                 (exp (g T) * ((L + c * T_tri) / R_v * (/ (T * T)) - c / R_v * / T))).
  { apply (derivable_pt_lim_comp g exp); [exact Hg|apply derivable_pt_lim_exp]. }
  replace ((L - c * (T - T_tri)) * psat L c T / (R_v * (T * T)))
    with (p_tri * (exp (g T) * ((L + c * T_tri) / R_v * (/ (T * T)) - c / R_v * / T))).
  - unfold psat. apply derivable_pt_lim_scal with (f := fun T => exp (g T)). exact He.
  - unfold psat, g. field. lra.
Qed.

Lemma psat_incr L c a b : 0 < a -> a < b ->
  (forall T, a <= T <= b -> 0 < L - c * (T - T_tri)) -> psat L c a < psat L c b.
Proof.
  intros Ha Hab H. pose proof R_v_pos as Hr.
  destruct (MVT_cor2 (psat L c) (fun T => (L - c * (T - T_tri)) * psat L c T / (R_v * (T * T))) a b Hab)
    as (x & Hx & Hin).
  { intros T HT. apply psat_deriv. lra. }
  assert (0 < (L - c * (x - T_tri)) * psat L c x / (R_v * (x * x))).
  { apply Rdiv_lt_0_compat.
    - apply Rmult_lt_0_compat; [apply H; lra|].
      unfold psat. apply Rmult_lt_0_compat; [apply p_tri_pos|apply exp_pos].
    - apply Rmult_lt_0_compat; [exact Hr|nra]. }
  assert (0 < psat L c b - psat L c a) by (rewrite Hx; apply Rmult_lt_0_compat; lra). lra.
Qed.

Lemma p_vs_psat T : p_vs T = psat l_tri (c_pw - c_pv) T. Proof. reflexivity. Qed.
Lemma p_vsi_psat T : p_vsi T = psat ls_tri (c_pi - c_pv) T. Proof. reflexivity. Qed.

Lemma ln_le_sub1 x : 0 < x -> ln x <= x - 1.
Proof.
  intros H. destruct (Req_EM_T x 1) as [->|n]; [rewrite ln_1; lra|].
  left. replace x with (1 + (x - 1)) at 1 by ring.
  rewrite <- (ln_exp (x - 1)) at 2.
  apply ln_increasing; [lra|]. apply exp_ineq1. lra.
Qed.
Lemma ln_ge_1sub x : 0 < x -> 1 - / x <= ln x.
Proof.
  intros H. assert (Hi : 0 < / x) by now apply Rinv_0_lt_compat.
  pose proof (ln_le_sub1 _ Hi) as Hl. rewrite ln_Rinv in Hl by auto. lra.
Qed.

(** the exponent of p_vs minus that of p_vsi, in terms of x = T_tri / T *)
Lemma p_vs_vsi_ratio T : 0 < T ->
  exists d, p_vs T = p_vsi T * exp d /\
    R_v * d = ((c_pw - c_pi) - lf_tri / T_tri) * (1 - T_tri / T) + (c_pw - c_pi) * ln (T_tri / T).
Proof.
  intros HT. pose proof T_tri_pos. pose proof R_v_pos.
  eexists. split.
  - unfold p_vs, p_vsi. rewrite Rmult_assoc, <- exp_plus. f_equal. f_equal.
    symmetry. apply Rplus_minus.
  - replace (ln (T_tri / T)) with (- ln (T / T_tri)).
    + unfold l_tri, ls_tri, lf_tri. field. lra.
    + replace (T_tri / T) with (/ (T / T_tri)) by (field; lra).
      rewrite ln_Rinv; [reflexivity|]. apply Rdiv_lt_0_compat; auto.
Qed.

Lemma p_vsi_lt_p_vs T : 120 <= T -> T < T_tri -> p_vsi T < p_vs T.
Proof.
  intros H1 H2. pose proof R_v_pos.
  destruct (p_vs_vsi_ratio T) as (d & -> & Hd); [lra|].
  assert (0 < d).
  { apply Rmult_lt_reg_l with R_v; [auto|]. rewrite Rmult_0_r, Hd.
    set (x := T_tri / T) in *.
    assert (Hx : 1 < x).
    { unfold x. apply Rmult_lt_reg_r with T; [lra|]. unfold Rdiv. rewrite Rmult_assoc, Rinv_l; lra. }
    assert (Hx2 : x <= 23 / 10).
    { unfold x. apply Rmult_le_reg_r with T; [lra|]. unfold Rdiv at 1. rewrite Rmult_assoc, Rinv_l by lra.
      unfold T_tri. lra. }
    pose proof (ln_ge_1sub x ltac:(lra)) as Hl.
    assert (Hi : / x = 1 - (x - 1) * / x) by (field; lra).
    assert (Hix : 10 / 23 <= / x).
    { replace (10/23) with (/ (23/10)) by lra. apply Rinv_le_contravar; lra. }
    assert (Hc : c_pw - c_pi - lf_tri / T_tri <= 890) by (unfold c_pw, c_pi, lf_tri, T_tri; lra).
    assert (Hc2 : c_pw - c_pi = 2104) by (unfold c_pw, c_pi; lra). rewrite Hc2 in *.
    nra. }
  rewrite <- (Rmult_1_r (p_vsi T)) at 1. apply Rmult_lt_compat_l; [apply p_vsi_pos|].
  rewrite <- exp_0. now apply exp_increasing.
Qed.
Lemma p_vs_lt_p_vsi T : T_tri < T -> p_vs T < p_vsi T.
Proof.
  intros H2. pose proof R_v_pos. pose proof T_tri_pos.
  destruct (p_vs_vsi_ratio T) as (d & -> & Hd); [lra|].
  assert (d < 0).
  { apply Rmult_lt_reg_l with R_v; [auto|]. rewrite Rmult_0_r, Hd.
    set (x := T_tri / T) in *.
    assert (Hx : 0 < x) by (unfold x; apply Rdiv_lt_0_compat; lra).
    assert (Hx2 : x < 1).
    { unfold x. apply Rmult_lt_reg_r with T; [lra|]. unfold Rdiv. rewrite Rmult_assoc, Rinv_l; lra. }
    pose proof (ln_le_sub1 x Hx) as Hl.
    assert (Hc : c_pw - c_pi - lf_tri / T_tri <= 890) by (unfold c_pw, c_pi, lf_tri, T_tri; lra).
    assert (Hc2 : c_pw - c_pi = 2104) by (unfold c_pw, c_pi; lra). rewrite Hc2 in *.
    nra. }
  rewrite <- (Rmult_1_r (p_vsi T)) at 2. apply Rmult_lt_compat_l; [apply p_vsi_pos|].
  rewrite <- exp_0. now apply exp_increasing.
Qed.
