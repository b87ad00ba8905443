(** C38: potential temperatures; C49: saturation vapour pressure. *)
From Coq Require Import Reals Lra Psatz.
From Verif Require Import Base BaseProofs ThermoModel ThermoProofs.
Local Open Scope R_scope.

(** C38: the two conversions are inverse of each other for every non-negative mixing ratio (indeed
    for every one above minus the ratio of the molar masses). *)
Theorem C38_conversions_inverse :
  forall th r, - (M_v / M_d) < r ->
    dry2std (std2dry th r) r = th /\ std2dry (dry2std th r) r = th.
Proof.
  intros th r Hr. change (M_v / M_d) with eps in Hr.
  assert (0 < 1 + r * R_v / R_d).
  { unfold Rdiv. rewrite Rmult_assoc. change (R_v * / R_d) with (R_v / R_d). rewrite RvRd.
    pose proof eps_pos. apply Rmult_lt_reg_r with eps; [auto|]. rewrite Rmult_0_l.
    replace ((1 + r * / eps) * eps) with (eps + r) by (field; lra). lra. }
  pose proof (cpow_pos _ (R_d / c_pd) H).
  unfold dry2std, std2dry. split; field; lra.
Qed.

(** C38: a state given by total pressure, standard potential temperature and mixing ratio, turned
    into dry density and dry potential temperature, has the same temperature and pressure, and the
    dry air and the vapour each obey the ideal gas law. *)
Theorem C38_state_consistent :
  forall p th r, 0 < p -> 0 < th -> 0 <= r ->
    let rhod := std_rhod p th r in
    let th_dry := std2dry th r in
    let T := th * exner p in
    0 < rhod /\ 0 < T /\
    dry_T th_dry rhod = T /\
    dry_p rhod r T = p /\
    rhod * R_d * T = p - p_v p r /\
    (r * rhod) * R_v * T = p_v p r.
Proof.
  intros p th r Hp Hth Hr rhod th_dry T.
  pose proof eps_pos as He. pose proof R_d_pos as Hd. pose proof R_v_pos as Hv.
  pose proof R_d_lt_c_pd as Hdc.
  assert (HE : 0 < exner p) by (apply cpow_pos; unfold p_1000; lra).
  assert (HT : 0 < T) by (apply Rmult_lt_0_compat; auto).
  assert (Hpd : p - p_v p r = p * (eps / (r + eps))) by (unfold p_v; field; lra).
  assert (Hq : 0 < eps / (r + eps)) by (apply Rdiv_lt_0_compat; lra).
  assert (Hrho : rhod = p * (eps / (r + eps)) / (R_d * T)).
  { unfold rhod, std_rhod. rewrite Hpd. unfold T. fold (exner p). field. lra. }
  assert (Hrpos : 0 < rhod).
  { rewrite Hrho. apply Rdiv_lt_0_compat; apply Rmult_lt_0_compat; auto. }
  assert (Hdry : rhod * R_d * T = p - p_v p r).
  { rewrite Hrho, Hpd. field. repeat split; lra. }
  assert (HRv : R_v = R_d / eps).
  { apply Rmult_eq_reg_r with (/ R_d); [|apply Rinv_neq_0_compat; lra].
    change (R_v * / R_d) with (R_v / R_d). rewrite RvRd. field. lra. }
  assert (Hvap : (r * rhod) * R_v * T = p_v p r).
  { rewrite HRv. replace (r * rhod * (R_d / eps) * T) with (r / eps * (rhod * R_d * T)) by (field; lra).
    rewrite Hdry. unfold p_v. field. lra. }
  split; [exact Hrpos|]. split; [exact HT|].
  split; [|split; [|split; [exact Hdry|exact Hvap]]].
  - unfold dry_T.
    assert (Hx : 0 < rhod * R_d / p_1000) by (unfold p_1000; apply Rdiv_lt_0_compat; [nra|lra]).
    assert (Hy : 0 < 1 + r * R_v / R_d).
    { rewrite HRv. replace (r * (R_d / eps) / R_d) with (r / eps) by (field; lra).
      assert (0 <= r / eps) by (apply Rmult_le_pos; [lra|left; now apply Rinv_0_lt_compat]). lra. }
    assert (Hp1 : 0 < p / p_1000) by (unfold p_1000; lra).
    set (kap := R_d / c_pd).
    assert (Hk : c_pd / (c_pd - R_d) = / (1 - kap)).
    { unfold kap. unfold c_pd in *. field. lra. }
    assert (Hk1 : kap < 1).
    { unfold kap. apply Rmult_lt_reg_r with c_pd; [unfold c_pd; lra|].
      unfold Rdiv. rewrite Rmult_assoc, Rinv_l by (unfold c_pd; lra). lra. }
    rewrite Hk.
    assert (Hin : th_dry * cpow (rhod * R_d / p_1000) kap = Rpower T (1 - kap)).
    { unfold th_dry, std2dry. fold kap. rewrite !cpow_pos_eq by auto.
      rewrite Rmult_assoc, Rpower_mult_distr by auto.
      assert (Hm : (1 + r * R_v / R_d) * (rhod * R_d / p_1000) = (p / p_1000) * / T).
      { rewrite HRv, Hrho. field. unfold p_1000. repeat split; lra. }
      rewrite Hm.
      assert (HTi : Rpower (/ T) kap = / Rpower T kap).
      { unfold Rpower. rewrite ln_Rinv by auto.
        replace (kap * - ln T) with (- (kap * ln T)) by ring. apply exp_Ropp. }
      rewrite <- Rpower_mult_distr by (auto; now apply Rinv_0_lt_compat).
      rewrite HTi.
      assert (HTeq : th * Rpower (p / p_1000) kap = T).
      { unfold T, exner. fold kap. rewrite cpow_pos_eq by auto. reflexivity. }
      rewrite <- Rmult_assoc, HTeq.
      unfold Rminus. rewrite Rpower_plus, Rpower_1, Rpower_Ropp by auto. reflexivity. }
    rewrite Hin. rewrite cpow_pos_eq by apply Rpower_pos.
    rewrite Rpower_mult. rewrite Rinv_r by lra. apply Rpower_1. exact HT.
  - unfold dry_p. replace (rhod * (R_d + r * R_v) * T)
      with (rhod * R_d * T + r * rhod * R_v * T) by ring.
    rewrite Hdry, Hvap. ring.
Qed.

(** the hypotheses are met by an ordinary atmospheric state, and the conversion is not trivial *)
Theorem C38_instance : 0 < 90000 /\ 0 < 300 /\ 0 <= 1 / 100 /\ std2dry 300 (1 / 100) <> 300.
Proof.
  repeat split; try lra. unfold std2dry.
  assert (1 < 1 + 1 / 100 * R_v / R_d).
  { replace (1 / 100 * R_v / R_d) with (1 / 100 * (R_v / R_d)) by (unfold Rdiv; ring).
    rewrite RvRd. pose proof (Rinv_0_lt_compat _ eps_pos). lra. }
  rewrite cpow_pos_eq by lra.
  assert (0 < R_d / c_pd) by (apply Rdiv_lt_0_compat; [apply R_d_pos|unfold c_pd; lra]).
  assert (1 < Rpower (1 + 1 / 100 * R_v / R_d) (R_d / c_pd)).
  { rewrite <- (Rpower_O (1 + 1 / 100 * R_v / R_d)) at 1 by lra. now apply Rpower_lt. }
  lra.
Qed.

(** C49: the saturation vapour pressures satisfy the Clausius-Clapeyron equation with the latent
    heats the library uses everywhere else. *)
Theorem C49_clausius_clapeyron :
  forall T, 0 < T ->
    derivable_pt_lim p_vs T (l_v T * p_vs T / (R_v * T ^ 2)) /\
    derivable_pt_lim p_vsi T (l_s T * p_vsi T / (R_v * T ^ 2)).
Proof.
  intros T HT. replace (T ^ 2) with (T * T) by ring.
  replace (l_v T) with (l_tri - (c_pw - c_pv) * (T - T_tri)) by (unfold l_v; ring).
  replace (l_s T) with (ls_tri - (c_pi - c_pv) * (T - T_tri)) by (unfold l_s; ring).
  split.
  - rewrite p_vs_psat. now apply (psat_deriv l_tri (c_pw - c_pv)).
  - rewrite p_vsi_psat. now apply (psat_deriv ls_tri (c_pi - c_pv)).
Qed.

(** C49: they meet at the triple point; below it ice saturates first, above it liquid water does;
    both increase with temperature over the whole atmospheric range; the heats are additive; and
    the saturation mixing ratio is the one whose vapour pressure is the saturation pressure. *)
Theorem C49_saturation :
  (p_vs T_tri = p_tri /\ p_vsi T_tri = p_tri) /\
  (forall T, 120 <= T -> T < T_tri -> p_vsi T < p_vs T) /\
  (forall T, T_tri < T -> p_vs T < p_vsi T) /\
  (forall T1 T2, 0 < T1 -> T1 < T2 -> T2 <= 1300 -> p_vs T1 < p_vs T2 /\ p_vsi T1 < p_vsi T2) /\
  (forall T, l_s T = l_v T + l_f T) /\
  (forall T p, p_vs T < p -> 0 < r_vs T p /\ p_v p (r_vs T p) = p_vs T) /\
  (forall T p, p_vsi T < p -> 0 < r_vsi T p /\ p_v p (r_vsi T p) = p_vsi T).
Proof.
  pose proof T_tri_pos.
  assert (Hr : forall q p, 0 < q -> q < p -> 0 < eps / (p / q - 1) /\ p_v p (eps / (p / q - 1)) = q).
  { intros q p Hq Hqp. pose proof eps_pos.
    assert (0 < p / q - 1).
    { apply Rmult_lt_reg_r with q; [auto|]. rewrite Rmult_0_l.
      replace ((p / q - 1) * q) with (p - q) by (field; lra). lra. }
    split; [apply Rdiv_lt_0_compat; auto|].
    unfold p_v. replace (eps / (p / q - 1)) with (eps * q / (p - q)) by (field; lra).
    replace (eps * q / (p - q) + eps) with (eps * p / (p - q)) by (field; lra).
    field. repeat split; lra. }
  repeat match goal with |- _ /\ _ => split end.
  - unfold p_vs. replace (T_tri / T_tri) with 1 by (field; lra).
    rewrite ln_1, (Rminus_diag_eq (1 / T_tri)), !Rmult_0_r, Rminus_0_r, exp_0 by reflexivity. ring.
  - unfold p_vsi. replace (T_tri / T_tri) with 1 by (field; lra).
    rewrite ln_1, (Rminus_diag_eq (1 / T_tri)), !Rmult_0_r, Rminus_0_r, exp_0 by reflexivity. ring.
  - apply p_vsi_lt_p_vs.
  - apply p_vs_lt_p_vsi.
  - intros T1 T2 H1 H2 H3. split.
    + rewrite !p_vs_psat. apply psat_incr; auto. intros T HT. unfold l_tri, c_pw, c_pv, T_tri. lra.
    + rewrite !p_vsi_psat. apply psat_incr; auto. intros T HT. unfold ls_tri, c_pi, c_pv, T_tri. lra.
  - intros T. unfold l_s, l_v, l_f, ls_tri, l_tri, lf_tri. ring.
  - intros T p Hp. apply Hr; [apply p_vs_pos|exact Hp].
  - intros T p Hp. apply Hr; [apply p_vsi_pos|exact Hp].
Qed.

Print Assumptions C38_conversions_inverse.
Print Assumptions C38_state_consistent.
Print Assumptions C38_instance.
Print Assumptions C49_clausius_clapeyron.
Print Assumptions C49_saturation.
