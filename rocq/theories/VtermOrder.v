(** C98: fall speeds of the formulae of the library: positive (so that none can be taken for the mark "not valid"), and larger droplets
    fall faster *)
From Coq Require Import List Reals Arith ZArith QArith Qreals Lra Lia Bool.
From Verif Require Import Base BaseProofs ThermoModel ThermoProofs VtermModel VtermPoly.
From Verif Require CondModel InitModel MotionModel.
Import ListNotations.
Local Open Scope R_scope.

(** air lighter than water *)
Definition some_air (a : air) : Prop := 0 < a_T a /\ 0 < a_p a /\ 0 < a_rhod a < rho_w /\ 0 < a_eta a.
(** density and viscosity of the atmosphere, with ample margins *)
Definition atmosphere (a : air) : Prop := 5 / 100 <= a_rhod a <= 2 /\ 1 / 100000 <= a_eta a <= 24 / 1000000.

Lemma g_pos : 0 < g. Proof. unfold g. lra. Qed.
Lemma rho_stp_range : 122 / 100 <= rho_stp <= 123 / 100.
Proof.
  unfold rho_stp, InitModel.rho_stp, InitModel.p_stp, InitModel.T_stp, R_d, kaBoNA, M_d. split.
  - apply (Rmult_le_reg_r ((27315 / 100 + 15) * (83144621 / 10000000 / (2897 / 100000)))); [lra|]. field_simplify; lra.
  - apply (Rmult_le_reg_r ((27315 / 100 + 15) * (83144621 / 10000000 / (2897 / 100000)))); [lra|]. field_simplify; lra.
Qed.

Lemma v0_pos r : 0 < vt_beard77_v0 r.
Proof. unfold vt_beard77_v0. cbv zeta. apply Rdiv_lt_0_compat; [apply exp_pos|lra]. Qed.

Lemma fact_pos a r : some_air a -> 0 < r -> (20 / 1000000 < r -> r <= 1 / 100 /\ atmosphere a) ->
  0 < vt_beard77_fact r (a_p a) (a_rhod a) (a_eta a).
Proof.
  intros (HT & Hp & Hr & He) Pr Big. unfold vt_beard77_fact.
  destruct (Rleb r (20 / 1000000)) eqn:E; [apply Rleb_true in E|apply Rleb_false in E].
  - cbv zeta. assert (P0 : 0 < eta_0) by (unfold eta_0; lra). assert (L0 : 0 < l_0) by (unfold l_0; lra).
    assert (Q : 0 <= l_0 * (a_eta a / eta_0) * sqrt (p_stp / a_p a * rho_stp / a_rhod a)).
    { apply Rmult_le_pos; [|apply sqrt_pos]. apply Rmult_le_pos; [lra|]. left. now apply Rdiv_lt_0_compat. }
    assert (A1 : 0 <= l_0 * (a_eta a / eta_0) * sqrt (p_stp / a_p a * rho_stp / a_rhod a) / r)
      by (apply Rmult_le_pos; [exact Q|left; now apply Rinv_0_lt_compat]).
    assert (A2 : 0 < l_0 / r) by now apply Rdiv_lt_0_compat.
    apply Rdiv_lt_0_compat; [|lra]. apply Rmult_lt_0_compat; [now apply Rdiv_lt_0_compat|lra].
  - destruct Big as [B ((R1 & R2) & (E1 & E2))]; [lra|]. cbv zeta.
    assert (S := rho_stp_range).
    assert (Ls : - (5525 / 1000) <= ln (2 * 100 * r)).
    { eapply Rle_trans; [apply ln_x0|]. left. apply ln_increasing; lra. }
    assert (Lb : ln (2 * 100 * r) <= 7 / 10).
    { eapply Rle_trans; [|apply ln_1cm]. destruct (Rle_lt_or_eq_dec (2 * 100 * r) 2) as [H|H]; [lra| |rewrite H; lra].
      left. apply ln_increasing; lra. }
    set (lam := (552 / 100 + ln (2 * 100 * r)) / (501 / 100)).
    assert (La : - (1 / 1000) <= lam <= 125 / 100) by (unfold lam; lra).
    assert (Es : - (25 / 100) <= eta_0 / a_eta a - 1 <= 82 / 100).
    { unfold eta_0. split.
      - assert (75 / 100 <= 1818 / 100000000 / a_eta a); [|lra]. apply (Rmult_le_reg_r (a_eta a)); [lra|]. field_simplify; lra.
      - assert (1818 / 100000000 / a_eta a <= 182 / 100); [|lra]. apply (Rmult_le_reg_r (a_eta a)); [lra|]. field_simplify; lra. }
    assert (Ec : - (23 / 100) <= sqrt (rho_stp / a_rhod a) - 1 <= 4).
    { assert (Q1 : 61 / 100 <= rho_stp / a_rhod a).
      { apply (Rmult_le_reg_r (a_rhod a)); [lra|]. unfold Rdiv at 2. rewrite Rmult_assoc, Rinv_l by lra. lra. }
      assert (Q2 : rho_stp / a_rhod a <= 25).
      { apply (Rmult_le_reg_r (a_rhod a)); [lra|]. unfold Rdiv. rewrite Rmult_assoc, Rinv_l by lra. lra. }
      split.
      - assert (77 / 100 <= sqrt (rho_stp / a_rhod a)); [|lra].
        rewrite <- (sqrt_square (77 / 100)) by lra. apply sqrt_le_1; lra.
      - assert (sqrt (rho_stp / a_rhod a) <= 5); [|lra].
        rewrite <- (sqrt_square 5) by lra. apply sqrt_le_1; lra. }
    set (es := eta_0 / a_eta a - 1) in *. set (ec := sqrt (rho_stp / a_rhod a) - 1) in *.
    replace (1104 / 1000 * es + (1058 / 1000 * ec - 1104 / 1000 * es) * (552 / 100 + ln (2 * 100 * r)) / (501 / 100) + 1)
      with (1 + 1104 / 1000 * (es * (1 - lam)) + 1058 / 1000 * (ec * lam)) by (unfold lam; field).
    clearbody lam es ec. clear - La Es Ec.
    destruct (Rle_dec lam 0) as [L|L]; [|destruct (Rle_dec lam 1) as [L1|L1]].
    + assert (es * (1 - lam) >= - (26 / 100)) by nra. assert (ec * lam >= - (4 / 1000)) by nra. lra.
    + assert (es * (1 - lam) >= - (25 / 100) * (1 - lam)) by nra. assert (ec * lam >= - (23 / 100) * lam) by nra. lra.
    + assert (es * (1 - lam) >= - (21 / 100)) by nra. assert (ec * lam >= - (29 / 100)) by nra. lra.
Qed.

Lemma slip_pos r T p eta : 0 < r -> 0 < p -> 0 < eta -> 0 < slip r T p eta.
Proof.
  intros R P E. unfold slip. cbv zeta.
  set (q := 662 / 10000000000 * (eta / (1818 / 100000000)) * (p_stp / p) * sqrt (T / (29315 / 100))).
  assert (Q : 0 <= q).
  { unfold q. apply Rmult_le_pos; [|apply sqrt_pos]. apply Rmult_le_pos; [lra|]. unfold p_stp, InitModel.p_stp.
    left. apply Rdiv_lt_0_compat; lra. }
  assert (0 <= 1255 / 1000 * q / r); [|lra]. apply Rmult_le_pos; [lra|left; now apply Rinv_0_lt_compat].
Qed.
Ltac pos := repeat first [assumption | apply Rdiv_lt_0_compat | apply Rmult_lt_0_compat | apply Rinv_0_lt_compat | apply exp_pos | lra].
Lemma beard76_pos a r : some_air a -> 0 < r -> (5035 / 10000000 < r -> a_T a < 791) ->
  0 < vt_beard76 r (a_T a) (a_p a) (a_rhod a) (a_eta a).
Proof.
  intros (HT & Hp & [Hr Hw] & He) Pr Big. unfold vt_beard76. assert (G := g_pos). assert (W : 0 < rho_w - a_rhod a) by lra.
  assert (S := slip_pos r (a_T a) (a_p a) (a_eta a) Pr Hp He).
  destruct (Rleb r (95 / 10000000)); [pos|].
  destruct (Rleb r (5035 / 10000000)) eqn:E; [cbv zeta; pos|]. apply Rleb_false in E. specialize (Big ltac:(lra)).
  cbv zeta. assert (Sg : 0 < CondModel.sg_surf (a_T a)) by (unfold CondModel.sg_surf; lra).
  assert (C : 0 < cpow (CondModel.sg_surf (a_T a) * CondModel.sg_surf (a_T a) * CondModel.sg_surf (a_T a) * a_rhod a * a_rhod a
     / a_eta a / a_eta a / a_eta a / a_eta a / g / (rho_w - a_rhod a)) (1 / 6)) by (apply cpow_pos; pos).
  pos.
Qed.

(** *** Khvorostyanov and Curry *)
Lemma best_pos r rhoa eta : 0 < r -> 0 < rhoa < rho_w -> 0 < eta -> 0 < best r rhoa eta.
Proof. intros A [B C] D. unfold best. assert (G := g_pos). assert (W : 0 < rho_w - rhoa) by lra. pos. Qed.
Definition khv_s (X : R) : R := sqrt (1 + 902 / 10000 * sqrt X).
Lemma khv_s_sq X : 0 <= X -> khv_s X * khv_s X = 1 + 902 / 10000 * sqrt X.
Proof. intros H. unfold khv_s. apply sqrt_sqrt. assert (Q := sqrt_pos X). lra. Qed.
Lemma khv_s_1 X : 0 < X -> 1 < khv_s X.
Proof.
  intros H. unfold khv_s. rewrite <- sqrt_1 at 1. apply sqrt_lt_1; try lra; assert (Q := sqrt_lt_R0 X H); lra.
Qed.
Lemma khv_b_s X : 0 < X -> khv_b X = (khv_s X + 1) / (2 * khv_s X).
Proof.
  intros H. assert (A := khv_s_sq X (Rlt_le _ _ H)). assert (B := khv_s_1 X H). unfold khv_b. fold (khv_s X).
  replace (902 / 10000 / 2 * sqrt X) with ((khv_s X * khv_s X - 1) / 2) by lra. field. lra.
Qed.
Lemma khv_b_range X : 0 < X -> 1 / 2 < khv_b X < 1.
Proof.
  intros H. rewrite khv_b_s by exact H. assert (B := khv_s_1 X H). set (s := khv_s X) in *. clearbody s.
  split; apply (Rmult_lt_reg_r (2 * s)); try lra; unfold Rdiv; rewrite ?Rmult_assoc, ?(Rinv_l (2 * s)) by lra; lra.
Qed.
Lemma khv_pos r rhoa eta s : 0 < r -> 0 < rhoa < rho_w -> 0 < eta -> 0 < vt_khvorostyanov r rhoa eta s.
Proof.
  intros A B C. assert (X := best_pos r rhoa eta A B C). assert (G := g_pos). destruct B as [B B'].
  assert (W : 0 < rho_w) by (unfold rho_w; lra).
  assert (P : 0 < khv_a (best r rhoa eta)).
  { unfold khv_a. cbv zeta. assert (S := khv_s_1 _ X). unfold khv_s in S.
    apply Rdiv_lt_0_compat; [|now apply cpow_pos].
    set (h := sqrt _ - 1). assert (0 < h) by (unfold h; lra). pos. }
  unfold vt_khvorostyanov. cbv zeta.
  set (b := khv_b (best r rhoa eta)).
  assert (C1 : 0 < cpow (eta / rhoa * 10000) (1 - 2 * b)) by (apply cpow_pos; pos).
  assert (C2 : 0 < cpow (2 * 100 * r) (3 * b - 1)) by (apply cpow_pos; pos).
  destruct s.
  - assert (C3 : 0 < cpow (4 / 3 * rho_w / rhoa * g * 100) b) by (apply cpow_pos; pos). pos.
  - set (lh := 235 / 100000). assert (L : 0 < lh) by (unfold lh; lra). assert (RL : 0 < r / lh) by now apply Rdiv_lt_0_compat.
    assert (E0 := exp_pos (- r / lh)).
    assert (E1 : exp (- r / lh) < 1).
    { rewrite <- exp_0. apply exp_increasing. replace (- r / lh) with (- (r / lh)) by (field; lra). lra. }
    assert (K : 0 < exp (- r / lh) + (1 - exp (- r / lh)) / (1 + r / lh)).
    { assert (0 < (1 - exp (- r / lh)) / (1 + r / lh)) by (apply Rdiv_lt_0_compat; lra). lra. }
    assert (Pi := PI_RGT_0).
    set (k := exp (- r / lh) + (1 - exp (- r / lh)) / (1 + r / lh)) in *. clearbody k.
    assert (C3 : 0 < cpow (2546479 / 1000000 * (PI / 6 * rho_w * k) / rhoa * g * 100) b) by (apply cpow_pos; pos). pos.
Qed.

(** Fall speeds of droplets and ice are positive with every formula, and so never equal to the mark -1 of a fall speed that has to be
    computed anew.  (Beard 1976: drops larger than 0.5 mm need a positive surface tension, which the formula of the library
    has below 791 K.  Beard 1977, also with the table: drops larger than 20 um are up to 1 cm large and in air as in the
    atmosphere.) *)
Theorem C98_positive :
  forall eq env c w, some_air (env c) -> 0 < w ->
    (eq = MotionModel.Beard76 -> 5035 / 10000000 < sqrt w -> a_T (env c) < 791) ->
    (eq = MotionModel.Beard77 \/ eq = MotionModel.Beard77fast -> 20 / 1000000 < sqrt w ->
       sqrt w <= 1 / 100 /\ atmosphere (env c)) ->
    0 < liquid eq env c w.
Proof.
  intros eq env c w A Pw B76 B77. assert (R := sqrt_lt_R0 w Pw). unfold liquid, MotionModel.vt_liquid.
  destruct eq.
  - apply beard76_pos; auto.
  - apply Rmult_lt_0_compat; [|apply v0_pos]. apply fact_pos; auto.
  - apply Rmult_lt_0_compat; [|apply v0_pos]. apply fact_pos; auto.
  - apply khv_pos; try apply A. exact R.
  - apply khv_pos; try apply A. exact R.
Qed.
Print Assumptions C98_positive.
Theorem C98_ice_positive :
  forall env c a, some_air (env c) -> 0 < a -> (5035 / 10000000 < a -> a_T (env c) < 791) -> 0 < ice env c a.
Proof.
  intros env c a A P B. unfold ice, MotionModel.vt_ice. apply Rmult_lt_0_compat; [now apply beard76_pos|].
  unfold rho_i, rho_w. lra.
Qed.
Print Assumptions C98_ice_positive.

(** ** Khvorostyanov and Curry: the Reynolds number of the fall *)
Lemma best_eq r rhoa eta : 0 < rhoa -> 0 < eta -> best r rhoa eta = 4 / 3 * (rho_w - rhoa) * rhoa * g * (2 * r) ^ 3 / eta ^ 2.
Proof. intros A B. unfold best. field. lra. Qed.
(** The spheres of the formula fall with the Reynolds number 9.06^2/4 (sqrt(1 + 0.0902 sqrt X) - 1)^2 (X the Best number), that
    is, at this number times eta / (rhoa 2 r), times a power between 1/2 and 1 of rho_w / (rho_w - rhoa), because the formula of the library
    leaves out the buoyancy in one of two places: the speed is too large by less than rhoa / (rho_w - rhoa). *)
Definition reynolds (X : R) : R := 906 / 100 * (906 / 100) / 4 * (sqrt (1 + 902 / 10000 * sqrt X) - 1) ^ 2.
Lemma khv_reynolds r rhoa eta : 0 < r -> 0 < rhoa < rho_w -> 0 < eta ->
  vt_khvorostyanov r rhoa eta true =
    reynolds (best r rhoa eta) * eta / (rhoa * (2 * r)) * Rpower (rho_w / (rho_w - rhoa)) (khv_b (best r rhoa eta)).
Proof.
  intros A B C. assert (PX := best_pos r rhoa eta A B C). destruct B as [B B'].
  set (X := 4 / 3 * (rho_w - rhoa) * rhoa * g * (2 * r) ^ 3 / eta ^ 2).
  assert (EX : best r rhoa eta = X) by now apply best_eq.
  unfold vt_khvorostyanov, khv_a, reynolds. cbv zeta.
  assert (W : 0 < rho_w) by (unfold rho_w; lra). assert (G := g_pos). assert (D : 0 < rho_w - rhoa) by lra.
  assert (S := khv_s_1 _ PX). fold (khv_s (best r rhoa eta)). set (s := khv_s _) in *. clearbody s.
  set (b := khv_b _). clearbody b.
  assert (LX : ln (best r rhoa eta) = 3 * ln 2 + ln (4 / 3) + ln (rho_w - rhoa) + ln rhoa + ln g + 3 * ln r - 2 * ln eta).
  { rewrite EX. unfold X, Rdiv.
    rewrite !ln_mult by first [apply Rinv_0_lt_compat; pos|apply pow_lt; pos|pos].
    replace ((2 * r) ^ 3) with ((2 * r) * (2 * r) * (2 * r)) by ring. replace (eta ^ 2) with (eta * eta) by ring.
    rewrite !ln_Rinv by pos. rewrite !ln_mult by pos. ring. }
  rewrite !cpow_pos_eq by (try exact PX; pos). unfold Rpower.
  set (X' := best r rhoa eta) in *. clearbody X'.
  assert (L1 : ln (eta / rhoa * 10000) = ln eta - ln rhoa + 2 * ln 100).
  { replace 10000 with (100 * 100) by lra. unfold Rdiv. rewrite !ln_mult, ln_Rinv by first [apply Rinv_0_lt_compat; pos|pos]. ring. }
  assert (L2 : ln (4 / 3 * rho_w / rhoa * g * 100) = ln (4 / 3) + ln rho_w - ln rhoa + ln g + ln 100).
  { replace (4 / 3 * rho_w / rhoa * g * 100) with (4 / 3 * rho_w * / rhoa * g * 100) by reflexivity.
    rewrite !ln_mult, ln_Rinv by first [apply Rinv_0_lt_compat; pos|pos|(apply Rmult_lt_0_compat; [|apply Rinv_0_lt_compat]; pos)|
      (repeat apply Rmult_lt_0_compat; try apply Rinv_0_lt_compat; pos)]. ring. }
  assert (L3 : ln (2 * 100 * r) = ln 2 + ln 100 + ln r) by (rewrite !ln_mult by pos; ring).
  assert (L4 : ln (rho_w / (rho_w - rhoa)) = ln rho_w - ln (rho_w - rhoa)).
  { unfold Rdiv. rewrite ln_mult, ln_Rinv by first [apply Rinv_0_lt_compat; pos|pos]. ring. }
  rewrite L1, L2, L3, L4.
  (* collect the exponentials *)
  assert (Q : exp ((1 - 2 * b) * (ln eta - ln rhoa + 2 * ln 100)) * exp (b * (ln (4 / 3) + ln rho_w - ln rhoa + ln g + ln 100)) *
              exp ((3 * b - 1) * (ln 2 + ln 100 + ln r)) =
              exp (b * ln X') * exp (b * (ln rho_w - ln (rho_w - rhoa))) * (eta * / rhoa * / r * / 2 * 100)).
  { rewrite <- (exp_ln (eta * / rhoa * / r * / 2 * 100)).
    2:{ repeat apply Rmult_lt_0_compat; try apply Rinv_0_lt_compat; pos. }
    rewrite <- !exp_plus. f_equal. rewrite LX.
    rewrite !(ln_mult _ 100), !(ln_mult _ (/ 2)), !(ln_mult _ (/ r)), !(ln_mult _ (/ rhoa)), !ln_Rinv
      by first [apply Rinv_0_lt_compat; pos|pos|(repeat apply Rmult_lt_0_compat; try apply Rinv_0_lt_compat; pos)]. ring. }
  assert (NX := exp_pos (b * ln X')).
  set (e1 := exp ((1 - 2 * b) * _)) in *. set (e2 := exp (b * (ln (4 / 3) + _ - _ + _ + _))) in *. set (e3 := exp ((3 * b - 1) * _)) in *.
  set (eX := exp (b * ln X')) in *. set (ek := exp (b * (ln rho_w - _))) in *. clearbody e1 e2 e3 eX ek.
  replace (906 / 100 * (906 / 100) / 4 * (s - 1) * (s - 1) / eX * e1 * e2 * e3 / 100)
    with (906 / 100 * (906 / 100) / 4 * (s - 1) * (s - 1) / eX * (e1 * e2 * e3) / 100) by (field; lra).
  rewrite Q. field. lra.
Qed.
Theorem C98_khvorostyanov_reynolds :
  forall r rhoa eta, 0 < r -> 0 < rhoa < rho_w -> 0 < eta ->
    let X := 4 / 3 * (rho_w - rhoa) * rhoa * g * (2 * r) ^ 3 / eta ^ 2 in
    exists b, 1 / 2 < b < 1 /\
      vt_khvorostyanov r rhoa eta true = reynolds X * eta / (rhoa * (2 * r)) * Rpower (rho_w / (rho_w - rhoa)) b.
Proof.
  intros r rhoa eta A B C X. assert (PX := best_pos r rhoa eta A B C).
  exists (khv_b (best r rhoa eta)). split; [now apply khv_b_range|]. unfold X. rewrite <- best_eq by apply B || exact C.
  now apply khv_reynolds.
Qed.
Print Assumptions C98_khvorostyanov_reynolds.

(** ** larger droplets fall faster *)
Lemma khv_order r1 r2 rhoa eta : 0 < r1 < r2 -> 0 < rhoa <= 100 -> 0 < eta ->
  vt_khvorostyanov r1 rhoa eta true < vt_khvorostyanov r2 rhoa eta true.
Proof.
  intros [A1 A] [B B'] C. assert (A2 : 0 < r2) by lra.
  assert (W : rho_w = 1000) by (unfold rho_w; lra). assert (G := g_pos).
  set (Cc := (902 / 10000) ^ 2 * (32 / 3 * (rho_w - rhoa) * rhoa * g / eta ^ 2)).
  set (Kk := 906 / 100 * (906 / 100) / 4 * eta / rhoa / 2).
  set (lk := ln (rho_w / (rho_w - rhoa))).
  assert (PC : 0 < Cc).
  { unfold Cc. assert (0 < rho_w - rhoa) by lra. assert (0 < eta ^ 2) by (apply pow_lt; lra). pos. }
  assert (PK : 0 < Kk) by (unfold Kk; pos).
  assert (Lk : 0 <= lk <= 1).
  { assert (Q : 1 <= rho_w / (rho_w - rhoa) <= 2).
    { split; apply (Rmult_le_reg_r (rho_w - rhoa)); try lra; unfold Rdiv; rewrite Rmult_assoc, Rinv_l by lra; lra. }
    unfold lk. split.
    - rewrite <- ln_1. destruct (Rle_lt_or_eq_dec _ _ (proj1 Q)) as [H|H]; [left; apply ln_increasing; lra|rewrite <- H; lra].
    - assert (Z := ln_le_sub1 (rho_w / (rho_w - rhoa)) ltac:(lra)). lra. }
  (* the speed in terms of s *)
  assert (F : forall r, 0 < r -> exists s, 1 < s /\ (s * s - 1) ^ 2 = Cc * r ^ 3 /\
     vt_khvorostyanov r rhoa eta true = Kk * ((s - 1) ^ 2 / r * exp ((s + 1) / (2 * s) * lk))).
  { intros r Pr. assert (Bw : 0 < rhoa < rho_w) by lra. assert (PX := best_pos r rhoa eta Pr Bw C).
    exists (khv_s (best r rhoa eta)). split; [now apply khv_s_1|]. split.
    - rewrite (khv_s_sq _ (Rlt_le _ _ PX)). replace (1 + 902 / 10000 * sqrt (best r rhoa eta) - 1) with (902 / 10000 * sqrt (best r rhoa eta)) by ring.
      replace ((902 / 10000 * sqrt (best r rhoa eta)) ^ 2) with ((902 / 10000) ^ 2 * (sqrt (best r rhoa eta) * sqrt (best r rhoa eta))) by ring.
      rewrite sqrt_sqrt by lra. unfold best, Cc. field. lra.
    - rewrite khv_reynolds by assumption. rewrite khv_b_s by exact PX. unfold Rpower, reynolds, Kk. fold lk. fold (khv_s (best r rhoa eta)).
      field. lra. }
  destruct (F r1 A1) as (s1 & S1 & E1 & ->). destruct (F r2 A2) as (s2 & S2 & E2 & ->). clear F.
  apply Rmult_lt_compat_l; [exact PK|]. clearbody Cc Kk lk. clear - A1 A A2 PC Lk S1 E1 S2 E2.
  (* s grows *)
  assert (P1 : 0 < r1 ^ 3) by (apply pow_lt; lra). assert (P12 : r1 ^ 3 < r2 ^ 3).
  { assert (r1 * r1 < r2 * r2) by nra. replace (r1 ^ 3) with (r1 * r1 * r1) by ring. replace (r2 ^ 3) with (r2 * r2 * r2) by ring. nra. }
  assert (Q1 : 0 < s1 * s1 - 1) by nra. assert (Q2 : 0 < s2 * s2 - 1) by nra.
  assert (S : s1 < s2).
  { assert (Cc * r1 ^ 3 < Cc * r2 ^ 3) by (apply Rmult_lt_compat_l; lra).
    destruct (Rlt_le_dec s1 s2) as [L|L]; [exact L|]. exfalso.
    assert (s2 * s2 - 1 <= s1 * s1 - 1) by nra. assert ((s2 * s2 - 1) ^ 2 <= (s1 * s1 - 1) ^ 2) by (apply pow_incr; lra). lra. }
  (* ... but slower than r *)
  assert (T : s2 * r1 < s1 * r2).
  { assert (U : (s2 * s2) * (s1 * s1 - 1) <= (s1 * s1) * (s2 * s2 - 1)) by nra.
    assert (V : (s2 * r1) ^ 3 < (s1 * r2) ^ 3).
    { assert (E : (s1 * s1 - 1) ^ 2 * r2 ^ 3 = (s2 * s2 - 1) ^ 2 * r1 ^ 3) by (rewrite E1, E2; ring).
      assert (U2 : ((s2 * s2) * (s1 * s1 - 1)) ^ 2 <= ((s1 * s1) * (s2 * s2 - 1)) ^ 2) by (apply pow_incr; nra).
      assert (U3 : s2 ^ 4 * r1 ^ 3 <= s1 ^ 4 * r2 ^ 3).
      { apply (Rmult_le_reg_r ((s1 * s1 - 1) ^ 2)); [apply pow_lt; lra|].
        replace (s1 ^ 4 * r2 ^ 3 * (s1 * s1 - 1) ^ 2) with (s1 ^ 4 * ((s1 * s1 - 1) ^ 2 * r2 ^ 3)) by ring. rewrite E.
        replace (s2 ^ 4 * r1 ^ 3 * (s1 * s1 - 1) ^ 2) with (((s2 * s2) * (s1 * s1 - 1)) ^ 2 * r1 ^ 3) by ring.
        replace (s1 ^ 4 * ((s2 * s2 - 1) ^ 2 * r1 ^ 3)) with (((s1 * s1) * (s2 * s2 - 1)) ^ 2 * r1 ^ 3) by ring.
        apply Rmult_le_compat_r; lra. }
      apply (Rmult_lt_reg_l s1); [lra|]. apply Rlt_le_trans with (s2 * (s2 * r1) ^ 3).
      - apply Rmult_lt_compat_r; [apply pow_lt; nra|lra].
      - replace (s2 * (s2 * r1) ^ 3) with (s2 ^ 4 * r1 ^ 3) by ring. replace (s1 * (s1 * r2) ^ 3) with (s1 ^ 4 * r2 ^ 3) by ring. exact U3. }
    destruct (Rlt_le_dec (s2 * r1) (s1 * r2)) as [L|L]; [exact L|]. exfalso.
    assert ((s1 * r2) ^ 3 <= (s2 * r1) ^ 3) by (apply pow_incr; split; [nra|exact L]). lra. }
  (* the factor that decreases *)
  set (be := (s2 - s1) / (2 * (s1 * s2))).
  assert (P : 1 < s1 * s2) by nra.
  assert (Be : 0 < be < 1 / 2).
  { unfold be. split; [apply Rdiv_lt_0_compat; lra|]. apply (Rmult_lt_reg_r (2 * (s1 * s2))); [lra|].
    unfold Rdiv at 1. rewrite Rmult_assoc, Rinv_l by lra. nra. }
  assert (X : exp ((s1 + 1) / (2 * s1) * lk) * (1 - be) <= exp ((s2 + 1) / (2 * s2) * lk)).
  { replace ((s2 + 1) / (2 * s2) * lk) with ((s1 + 1) / (2 * s1) * lk + - (be * lk)) by (unfold be; field; lra).
    rewrite exp_plus. apply Rmult_le_compat_l; [left; apply exp_pos|]. assert (Q := exp_1 (- (be * lk))). nra. }
  assert (P0 := exp_pos ((s1 + 1) / (2 * s1) * lk)).
  set (x1 := exp ((s1 + 1) / (2 * s1) * lk)) in *. set (x2 := exp ((s2 + 1) / (2 * s2) * lk)) in *. clearbody x1 x2.
  (* the rest *)
  assert (Y : (s1 - 1) ^ 2 / r1 < (s2 - 1) ^ 2 / r2 * (1 - be)).
  { assert (E : (s2 - 1) ^ 2 / r2 = (s1 - 1) ^ 2 / r1 * ((r2 * (s1 + 1)) / (r1 * (s2 + 1))) ^ 2).
    { assert (E : (s1 * s1 - 1) ^ 2 * r2 ^ 3 = (s2 * s2 - 1) ^ 2 * r1 ^ 3) by (rewrite E1, E2; ring).
      replace ((s2 - 1) ^ 2 / r2) with ((s2 * s2 - 1) ^ 2 * r1 ^ 3 / (r2 * (s2 + 1) ^ 2 * r1 ^ 3)) by (field; lra).
      rewrite <- E. field. lra. }
    set (al := (s2 - s1) / (s1 * (s2 + 1))).
    assert (Al : be <= al).
    { unfold be, al, Rdiv. apply Rmult_le_compat_l; [lra|]. apply Rinv_le_contravar; nra. }
    assert (Z : 1 + al <= (r2 * (s1 + 1)) / (r1 * (s2 + 1))).
    { replace (1 + al) with ((s2 * (s1 + 1)) / (s1 * (s2 + 1))) by (unfold al; field; lra).
      apply (Rmult_le_reg_r (s1 * r1 * (s2 + 1))); [pos|].
      replace (s2 * (s1 + 1) / (s1 * (s2 + 1)) * (s1 * r1 * (s2 + 1))) with (s2 * r1 * (s1 + 1)) by (field; lra).
      replace (r2 * (s1 + 1) / (r1 * (s2 + 1)) * (s1 * r1 * (s2 + 1))) with (s1 * r2 * (s1 + 1)) by (field; lra).
      apply Rmult_le_compat_r; lra. }
    rewrite E. rewrite Rmult_assoc. rewrite <- (Rmult_1_r ((s1 - 1) ^ 2 / r1)) at 1.
    apply Rmult_lt_compat_l; [apply Rdiv_lt_0_compat; [apply pow_lt; lra|lra]|].
    assert (Z2 : (1 + al) ^ 2 <= (r2 * (s1 + 1) / (r1 * (s2 + 1))) ^ 2) by (apply pow_incr; split; [lra|exact Z]).
    apply Rlt_le_trans with ((1 + al) ^ 2 * (1 - be)); [|apply Rmult_le_compat_r; lra]. nra. }
  assert (Y0 : 0 < (s2 - 1) ^ 2 / r2) by (apply Rdiv_lt_0_compat; [apply pow_lt; lra|lra]).
  apply Rlt_le_trans with ((s2 - 1) ^ 2 / r2 * (1 - be) * x1); [apply Rmult_lt_compat_r; assumption|].
  rewrite Rmult_assoc. apply Rmult_le_compat_l; lra.
Qed.

Lemma v0_s r : r <= 20 / 1000000 -> vt_beard77_v0 r = exp (ev qs (ln (2 * 100 * r))) / 100.
Proof. intros H. unfold vt_beard77_v0. cbv zeta. replace (Rleb r (20 / 1000000)) with true by (symmetry; now apply Rleb_true). now rewrite poly_s. Qed.
Lemma v0_l r : 20 / 1000000 < r -> vt_beard77_v0 r = exp (ev ql (ln (2 * 100 * r))) / 100.
Proof. intros H. unfold vt_beard77_v0. cbv zeta. replace (Rleb r (20 / 1000000)) with false by (symmetry; now apply Rleb_false). now rewrite poly_l. Qed.
Lemma ln_mono a b : 0 < a <= b -> ln a <= ln b.
Proof. intros [P [H| ->]]; [left; now apply ln_increasing|lra]. Qed.
Lemma s_mono x y : - (155 / 10) <= x -> x < y -> y <= - (545 / 100) -> ev qs x < ev qs y.
Proof.
  intros A B C. destruct (ev_mvt qs x y (2 / 10) 2 (Rlt_le _ _ B)) as [H _]; [intros z Z; apply ds_range; lra|]. nra.
Qed.
Lemma l_mono x y : - (56 / 10) <= x -> x < y -> y <= - (9 / 10) -> ev ql x < ev ql y.
Proof.
  intros A B C. destruct (ev_mvt ql x y (1 / 10) 2 (Rlt_le _ _ B)) as [H _]; [|nra].
  intros z Z. split; [apply dl_pos; lra|apply dl_range; lra].
Qed.
Lemma v0_order r1 r2 : 1 / 1000000000 <= r1 -> r1 < r2 -> r2 <= 2 / 1000 -> vt_beard77_v0 r1 < vt_beard77_v0 r2.
Proof.
  intros A B C.
  assert (L1 : - (155 / 10) <= ln (2 * 100 * r1)) by (eapply Rle_trans; [apply ln_nm|apply ln_mono; lra]).
  assert (L2 : ln (2 * 100 * r2) <= - (9 / 10)) by (eapply Rle_trans; [apply ln_mono|apply ln_2mm]; lra).
  assert (L12 : ln (2 * 100 * r1) < ln (2 * 100 * r2)) by (apply ln_increasing; lra).
  assert (X0 := ln_x0).
  assert (M : forall x y, x < y -> exp x / 100 < exp y / 100).
  { intros x y H. apply Rmult_lt_compat_r; [lra|]. now apply exp_increasing. }
  destruct (Rle_lt_dec r2 (20 / 1000000)) as [H2|H2].
  - rewrite !v0_s by lra. apply M, s_mono; try assumption.
    assert (ln (2 * 100 * r2) <= ln (4 / 1000)) by (apply ln_mono; lra). lra.
  - assert (G2 : ln (4 / 1000) < ln (2 * 100 * r2)) by (apply ln_increasing; lra).
    destruct (Rle_lt_dec r1 (20 / 1000000)) as [H1|H1].
    + rewrite v0_s, v0_l by lra. apply M.
      assert (G1 : ln (2 * 100 * r1) <= ln (4 / 1000)) by (apply ln_mono; lra).
      apply Rle_lt_trans with (ev qs (ln (4 / 1000))).
      * destruct G1 as [G1|G1]; [left; apply s_mono; lra|rewrite G1; lra].
      * destruct (jump (ln (4 / 1000))) as [J _]; [lra|].
        apply Rlt_trans with (ev ql (ln (4 / 1000))); [lra|]. apply l_mono; lra.
    + rewrite !v0_l by lra. apply M.
      assert (G1 : ln (4 / 1000) < ln (2 * 100 * r1)) by (apply ln_increasing; lra). apply l_mono; lra.
Qed.
Lemma beard76_order r1 r2 T p rhoa eta : 0 < r1 < r2 -> r2 <= 95 / 10000000 -> 0 < p -> 0 < rhoa < rho_w -> 0 < eta ->
  vt_beard76 r1 T p rhoa eta < vt_beard76 r2 T p rhoa eta.
Proof.
  intros [A A'] B P [R R'] E. unfold vt_beard76.
  replace (Rleb r1 (95 / 10000000)) with true by (symmetry; apply Rleb_true; lra).
  replace (Rleb r2 (95 / 10000000)) with true by (symmetry; apply Rleb_true; lra).
  unfold slip. cbv zeta. set (q := 662 / 10000000000 * (eta / (1818 / 100000000)) * (p_stp / p) * sqrt (T / (29315 / 100))).
  assert (Q : 0 <= q).
  { unfold q. apply Rmult_le_pos; [|apply sqrt_pos]. apply Rmult_le_pos; [lra|]. unfold p_stp, InitModel.p_stp.
    left. apply Rdiv_lt_0_compat; lra. }
  assert (G := g_pos). assert (K : 0 < (rho_w - rhoa) * g / (45 / 10 * eta)) by (assert (0 < rho_w - rhoa) by lra; pos).
  set (k := (rho_w - rhoa) * g / (45 / 10 * eta)) in *. clearbody k q.
  replace (k * (1 + 1255 / 1000 * q / r1) * r1 * r1) with (k * (r1 * r1 + 1255 / 1000 * q * r1)) by (field; lra).
  replace (k * (1 + 1255 / 1000 * q / r2) * r2 * r2) with (k * (r2 * r2 + 1255 / 1000 * q * r2)) by (field; lra).
  apply Rmult_lt_compat_l; [exact K|]. nra.
Qed.

(** Larger droplets fall faster in the same air: spheres of Khvorostyanov and Curry at any size, Beard 1976 up to 9.5 um, and
    the sea-level fall speed of Beard 1977 from 1 nm to 2 mm, also across the change of formula at 20 um. *)
Theorem C98_larger_faster_partial :
  forall r1 r2, 0 < r1 < r2 ->
    (forall rhoa eta, 0 < rhoa <= 100 -> 0 < eta -> vt_khvorostyanov r1 rhoa eta true < vt_khvorostyanov r2 rhoa eta true) /\
    (forall T p rhoa eta, 0 < p -> 0 < rhoa < rho_w -> 0 < eta -> r2 <= 95 / 10000000 ->
       vt_beard76 r1 T p rhoa eta < vt_beard76 r2 T p rhoa eta) /\
    (1 / 1000000000 <= r1 -> r2 <= 2 / 1000 -> vt_beard77_v0 r1 < vt_beard77_v0 r2).
Proof.
  intros r1 r2 H. split; [|split].
  - intros. now apply khv_order.
  - intros. now apply beard76_order.
  - intros. now apply v0_order.
Qed.
Print Assumptions C98_larger_faster_partial.

(** Within the range of the table, but above 2.7 mm, the polynomial of Beard 1977 decreases: larger drops fall more slowly. *)
Theorem C98_larger_faster_refuted :
  exists r1 r2, 2 / 1000 < r1 /\ r1 < r2 /\ r2 <= 3 / 1000 /\ vt_beard77_v0 r2 < vt_beard77_v0 r1.
Proof.
  exists (exp (- (6 / 10)) / 200), (exp (- (52 / 100)) / 200).
  assert (A : 4 / 10 < exp (- (6 / 10))).
  { assert (H := below_exp_ok 10 (54 # 100) (-6 # 10) ltac:(vm_compute; reflexivity)).
    replace (Q2R (54 # 100)) with (54 / 100) in H by q2r. replace (Q2R (-6 # 10)) with (- (6 / 10)) in H by q2r. lra. }
  assert (B : exp (- (6 / 10)) < exp (- (52 / 100))) by (apply exp_increasing; lra).
  assert (D : exp (- (52 / 100)) <= 6 / 10).
  { assert (H := below_exp_ok 10 (167 # 100) (52 # 100) ltac:(vm_compute; reflexivity)).
    replace (Q2R (167 # 100)) with (167 / 100) in H by q2r. replace (Q2R (52 # 100)) with (52 / 100) in H by q2r.
    rewrite exp_Ropp. replace (6 / 10) with (/ (10 / 6)) by lra. apply Rinv_le_contravar; lra. }
  split; [lra|]. split; [lra|]. split; [lra|].
  rewrite !v0_l by lra.
  replace (2 * 100 * (exp (- (6 / 10)) / 200)) with (exp (- (6 / 10))) by field.
  replace (2 * 100 * (exp (- (52 / 100)) / 200)) with (exp (- (52 / 100))) by field. rewrite !ln_exp.
  apply Rmult_lt_compat_r; [lra|]. apply exp_increasing. unfold ql. cbn [ev]. unfold Q2R. cbn [Qnum Qden]. lra.
Qed.
Print Assumptions C98_larger_faster_refuted.

(** a droplet of 10 um in ordinary air *)
Theorem C98_instance :
  let a := {| a_T := 283; a_p := 90000; a_rhod := 1; a_eta := 17 / 1000000 |} in
  some_air a /\ atmosphere a /\
  (forall eq, 0 < liquid eq (fun _ => a) 0 (1 / 10000000000)) /\
  vt_khvorostyanov (1 / 100000) 1 (17 / 1000000) true < vt_khvorostyanov (2 / 100000) 1 (17 / 1000000) true /\
  vt_beard77_v0 (1 / 100000) < vt_beard77_v0 (1 / 1000).
Proof.
  intros a. assert (A : some_air a) by (unfold some_air, a, rho_w; cbn; lra).
  assert (B : atmosphere a) by (unfold atmosphere, a; cbn; lra).
  assert (S : sqrt (1 / 10000000000) = 1 / 100000) by (rewrite <- (sqrt_square (1 / 100000)) by lra; f_equal; lra).
  split; [exact A|]. split; [exact B|]. split.
  - intros eq. apply C98_positive; [exact A|lra|rewrite S; lra|rewrite S; lra].
  - split; [apply (C98_larger_faster_partial (1 / 100000) (2 / 100000)); lra|apply (C98_larger_faster_partial (1 / 100000) (1 / 1000)); lra].
Qed.
Print Assumptions C98_instance.
