(** * C58: the length scale of the turbulent kernel *)
From Coq Require Import List Arith NArith ZArith Reals Bool Lia Lra.
From Verif Require Import Base BaseProofs ThermoModel ThermoProofs KernelModel KernelProps.
Import ListNotations.
Open Scope R_scope.

(** The Kolmogorov scale is (nu^3/eps)^(1/4); the exponent of the code is real_t(1/4), an integer quotient, that is 0. *)
Lemma leta_code dnu eps : 0 < dnu -> 0 < eps -> kolmogorov leta_exponent dnu eps = 1.
Proof.
  intros A B. unfold kolmogorov, cpow, leta_exponent. change (Z.quot 1 4) with 0%Z.
  destruct (Rlt_dec 0 (dnu * dnu * dnu / eps)) as [H|H]; [unfold Rpower; rewrite Rmult_0_l; apply exp_0|].
  destruct H. apply Rdiv_lt_0_compat; [assert (0 < dnu * dnu) by nra; nra|lra].
Qed.
Lemma leta_true dnu eps : 0 < dnu -> 0 < eps -> kolmogorov (1 / 4) dnu eps ^ 4 = dnu ^ 3 / eps.
Proof.
  intros A B. assert (H : 0 < dnu ^ 3 / eps) by (apply Rdiv_lt_0_compat; [apply pow_lt|]; lra).
  unfold kolmogorov. replace (dnu * dnu * dnu / eps) with (dnu ^ 3 / eps) by (field; lra). unfold cpow. destruct (Rlt_dec 0 (dnu ^ 3 / eps)); [|contradiction].
  rewrite <- Rpower_pow by apply exp_pos. rewrite Rpower_mult. replace (1 / 4 * INR 4) with 1 by (cbn [INR]; field). now apply Rpower_1.
Qed.

Lemma exp_small x : x <= -10 -> exp (2 * x) <= 1 / 1000000.
Proof.
  intros H. assert (E1 : 2 <= exp 1) by (assert (Q := exp_ineq1 1); lra).
  assert (Q : exp (2 * x) <= exp (-20)) by (destruct (Rle_lt_or_eq_dec (2 * x) (-20)) as [L|L]; [lra|left; now apply exp_increasing|right; now rewrite L]).
  eapply Rle_trans; [exact Q|]. replace (-20) with (- (INR 20 * 1)) by (rewrite (INR_Z 20 20 eq_refl); lra). rewrite exp_Ropp.
  assert (P : exp (INR 20 * 1) = exp 1 ^ 20) by (rewrite <- Rpower_pow by lra; unfold Rpower; now rewrite ln_exp).
  rewrite P. assert (2 ^ 20 <= exp 1 ^ 20) by (apply pow_incr; lra). replace (1 / 1000000) with (/ 1000000) by lra. apply Rinv_le_contravar; [lra|]. lra.
Qed.

Lemma half_tanh x : 0.5 * (1 + tanh x) <= exp (2 * x).
Proof.
  unfold tanh, sinh, cosh. assert (A := exp_pos x). assert (B := exp_pos (- x)).
  assert (E : exp (2 * x) * exp (- x) = exp x) by (rewrite <- exp_plus; f_equal; ring). assert (P := exp_pos (2 * x)).
  set (p := exp x) in *. set (q := exp (- x)) in *. set (z := exp (2 * x)) in *. clearbody p q z.
  replace (0.5 * (1 + (p - q) / 2 / ((p + q) / 2))) with (p / (p + q)) by (replace 0.5 with (1 / 2) by lra; field; lra).
  apply (Rmult_le_reg_r (p + q)); [lra|]. unfold Rdiv. rewrite Rmult_assoc, Rinv_l by lra. nra.
Qed.
Lemma cpow_le_1 x y : 0 < x <= 1 -> 0 < y -> cpow x y <= 1.
Proof.
  intros (A & B) C. unfold cpow. destruct (Rlt_dec 0 x); [|contradiction]. unfold Rpower. rewrite <- exp_0.
  assert (ln x <= 0) by (destruct (Rle_lt_or_eq_dec x 1 B) as [L| ->]; [rewrite <- ln_1; left; now apply ln_increasing|rewrite ln_1; lra]).
  destruct (Rle_lt_or_eq_dec (y * ln x) 0) as [L|L]; [nra|left; now apply exp_increasing|rewrite L; lra].
Qed.
Lemma cpow_ge x y : 0 < x < 1 -> 0 < y <= 1 -> x <= cpow x y.
Proof.
  intros (A & B) C. unfold cpow. destruct (Rlt_dec 0 x); [|contradiction]. unfold Rpower. rewrite <- (exp_ln x A) at 1.
  assert (ln x < 0) by (rewrite <- ln_1; now apply ln_increasing).
  destruct (Rle_lt_or_eq_dec (ln x) (y * ln x)) as [L|L]; [nra|left; now apply exp_increasing|rewrite <- L; lra].
Qed.
Lemma log10_le x y : 0 < x -> x <= y -> log10 x <= log10 y.
Proof.
  intros A B. unfold log10. assert (0 < ln 10) by (rewrite <- ln_1; apply ln_increasing; lra).
  apply Rmult_le_compat_r; [left; now apply Rinv_0_lt_compat|]. destruct (Rle_lt_or_eq_dec x y B) as [L| ->]; [left; now apply ln_increasing|lra].
Qed.
Lemma log10_pow (n : nat) : log10 (/ 10 ^ n) = - INR n.
Proof.
  assert (H : 0 < ln 10) by (rewrite <- ln_1; apply ln_increasing; lra). unfold log10. rewrite ln_Rinv by (apply pow_lt; lra).
  rewrite <- Rpower_pow by lra. unfold Rpower. rewrite ln_exp. field. lra.
Qed.
Lemma log10_1 : log10 1 = 0.
Proof. unfold log10. rewrite ln_1. unfold Rdiv. apply Rmult_0_l. Qed.
Lemma cbrt_ge_1 x : 1 <= x -> 1 <= cbrt x.
Proof. intros H. destruct (cbrt_cube_nonneg x) as (B & A); [lra|]. destruct (Rle_dec 1 (cbrt x)); [assumption|]. exfalso. set (c := cbrt x) in *. clearbody c. assert (c < 1) by lra. assert (c * c < 1) by nra. nra. Qed.

(** ** an upper bound of what the code computes for two droplets of 20 um in moderate turbulence *)
Lemma code_upper : exists k, onishi_nograv (20 / 1000000) (20 / 1000000) 100 (1 / 100) (15 / 1000000) (2500 / 3) = Some k /\
  k <= 2 * PI * (40 / 1000000) ^ 2 * sqrt (2 / PI * (2 / 10000000000)) * 1.1.
Proof.
  assert (Hs : sqrt (15 / (15 / 1000000) / (1 / 100)) = 10000).
  { replace (15 / (15 / 1000000) / (1 / 100)) with (10000 ^ 2) by field. apply sqrt_pow2. lra. }
  destruct (onishi_nograv_defined leta_exponent (20 / 1000000) (20 / 1000000) 100 (1 / 100) (15 / 1000000) (2500 / 3)) as (k & E & _); try lra.
  { unfold turbulent. rewrite leta_code by lra. rewrite Hs. replace (0.183 * (100 / 10000) / (15 / 1000000 * (15 / 1000000) / 1 / 1)) with (183 / 100000 / (225 / 1000000000000)) by (replace 0.183 with (183 / 1000) by lra; field). lra. }
  fold onishi_nograv in E. exists k. split; [exact E|]. revert E. unfold onishi_nograv, onishi_nograv_with.
  destruct (Rltb (1 / 100) (1 / 10000000000)) eqn:E0; [apply Rltb_true in E0; lra|]. clear E0.
  fold (kolmogorov leta_exponent (15 / 1000000) (1 / 100)). rewrite leta_code by lra. rewrite Hs. clear Hs.
  replace (2500 / 3 * 4 * (20 / 1000000) * (20 / 1000000) / 18 / (15 / 1000000)) with (4 / 810) by field.
  replace (100 / 10000) with ((1 / 10) ^ 2) by field. rewrite (sqrt_pow2 (1 / 10)) by lra.
  replace (0.183 * (1 / 10) * (1 / 10) / (15 / 1000000 * (15 / 1000000) / 1 / 1)) with (1830000 * (40 / 9)) by (replace 0.183 with (183 / 1000) by lra; field).
  replace (1 * 1 / (15 / 1000000)) with (1000000 / 15) by field.
  replace (4 / 810 / (4 / 810)) with 1 by field.
  assert (Hth : 0 < 2.5 * (4 / 810) / (100 * (1000000 / 15) / sqrt 15) <= 75 / 10000000000).
  { assert (S1 : 0 < sqrt 15) by (apply sqrt_lt_R0; lra). assert (S2 : sqrt 15 <= 4) by (rewrite <- (sqrt_pow2 4) by lra; apply sqrt_le_1_alt; lra).
    replace (2.5 * (4 / 810) / (100 * (1000000 / 15) / sqrt 15)) with (sqrt 15 * (15 / 8100000000)) by (replace 2.5 with (5 / 2) by lra; field; lra). lra. }
  set (th := 2.5 * (4 / 810) / (100 * (1000000 / 15) / sqrt 15)) in *. clearbody th. cbv zeta.
  replace (th / th) with 1 by (field; lra). replace (cmax 1 1) with 1 by (rewrite cmax_Rmax, Rmax_left; lra).
  replace (1 - 1) with 0 by ring. replace (cpow 0 1.5) with 0 by (unfold cpow; destruct (Rlt_dec 0 0); [lra|destruct (Req_EM_T 1.5 0); lra]). rewrite Ropp_0, exp_0.
  set (g := 1 * (1830000 * (40 / 9))). assert (Hg : g = 73200000 / 9) by (unfold g; lra). clearbody g.
  unfold odiv. destruct (Reqb (g - 1) 0) eqn:E0; [apply Reqb_true in E0; lra|]. clear E0. cbn [obind].
  assert (Hq : 0 <= 1 / 10 * (1 / 10) * g / (g - 1) <= 2 / 100).
  { split; [apply Rdiv_nonneg; lra|]. apply (Rmult_le_reg_r (g - 1)); [lra|]. unfold Rdiv at 1. rewrite (Rmult_assoc _ (/ (g - 1))), Rinv_l by lra. lra. }
  set (q := 1 / 10 * (1 / 10) * g / (g - 1)) in *. clearbody q.
  assert (X2a := accel_factor th th ltac:(lra) ltac:(lra)).
  assert (X2b : th + th - 4 * th * th / (th + th) * sqrt ((1 + th + th) / (1 + th) / (1 + th)) <= 2 * th).
  { assert (S := sqrt_pos ((1 + th + th) / (1 + th) / (1 + th))). assert (0 <= 4 * th * th / (th + th)) by (apply Rdiv_nonneg; nra). nra. }
  set (X2 := th + th - 4 * th * th / (th + th) * sqrt ((1 + th + th) / (1 + th) / (1 + th))) in *. clearbody X2.
  assert (X3a := decay_factor th th g ltac:(lra) ltac:(lra) ltac:(lra)).
  assert (X3b : 1 / (1 + th) / (1 + th) - 1 / (1 + g * th) / (1 + g * th) <= 1).
  { assert (P1 : 1 / (1 + th) / (1 + th) <= 1). { replace (1 / (1 + th) / (1 + th)) with (/ ((1 + th) * (1 + th))) by (field; lra). apply Rle_trans with (/ 1); [apply Rinv_le_contravar; nra|lra]. }
    assert (P0 : 0 < g * th) by nra. assert (P2 : 0 <= 1 / (1 + g * th) / (1 + g * th)) by (apply Rdiv_nonneg; [apply Rdiv_nonneg|]; lra). lra. }
  set (X3 := 1 / (1 + th) / (1 + th) - 1 / (1 + g * th) / (1 + g * th)) in *. clearbody X3.
  assert (HA : 0 <= (1 + 0.6 * 1) * (q * X2 * X3) / 3 <= 1.7 / 10000000000).
  { assert (0 <= q * X2) by nra. assert (q * X2 <= 2 / 100 * (2 * th)) by nra. assert (0 <= q * X2 * X3) by nra. assert (q * X2 * X3 <= 2 / 100 * (2 * th)) by nra. lra. }
  set (A2 := (1 + 0.6 * 1) * (q * X2 * X3) / 3) in *. clearbody A2.
  set (S2 := 15 / 1000000 * (15 / 1000000) * (20 / 1000000 + 20 / 1000000) * (20 / 1000000 + 20 / 1000000) / (1 * 1 * 1 * 1) / 15).
  assert (HS2 : 0 <= S2 <= 0.1 / 10000000000) by (unfold S2; lra). clearbody S2.
  assert (HPI := PI_RGT_0). assert (H2PI : 0 < 2 / PI) by (apply Rdiv_lt_0_compat; lra).
  rewrite osqrt_some by (apply Rmult_le_pos; lra). cbn [obind].
  assert (HW : 0 <= sqrt (2 / PI * (A2 + S2)) <= sqrt (2 / PI * (2 / 10000000000))) by (split; [apply sqrt_pos|apply sqrt_le_1_alt, Rmult_le_compat_l; lra]).
  set (W := sqrt (2 / PI * (A2 + S2))) in *. set (Wmax := sqrt (2 / PI * (2 / 10000000000))) in *. clearbody W Wmax.
  set (alpha := cmax (log10 (0.26 * sqrt 100) / log10 2) (1 / 10 ^ 20)). assert (Hal : 0 < alpha) by (assert (Q := cmax_ge_r (log10 (0.26 * sqrt 100) / log10 2) (1 / 10 ^ 20)); fold alpha in Q; assert (0 < 1 / 10 ^ 20) by (apply Rdiv_lt_0_compat; [lra|apply pow_lt; lra]); lra). clearbody alpha.
  set (StA := cpow (0.38 / 110 * 100) 0.25). assert (HStA : 0.34 <= StA) by (unfold StA; eapply Rle_trans; [|apply cpow_ge]; lra). clearbody StA.
  set (StB := cbrt (0.38 / 0.16) * cbrt (0.38 / 0.16) * cbrt 100).
  assert (HStB : 1 <= StB).
  { unfold StB. assert (P1 := cbrt_ge_1 (0.38 / 0.16) ltac:(lra)). assert (P2 := cbrt_ge_1 100 ltac:(lra)). set (c := cbrt (0.38 / 0.16)) in *. set (d := cbrt 100) in *. clearbody c d. assert (1 <= c * c) by nra. nra. }
  clearbody StB. set (CA := 0.06 * cpow 100 0.30). clearbody CA.
  set (St := 4 / 810 / (1000000 / 15)). assert (HSt : St = 60 / 810000000) by (unfold St; field). clearbody St.
  destruct (Rleb St StA) eqn:E0; [clear E0|apply Rleb_false in E0; lra].
  assert (Hza := tanh_bounds ((log10 St - log10 StA) / CA)). set (za := 0.5 * (1 - tanh ((log10 St - log10 StA) / CA))).
  assert (Hza' : 0 <= cpow za alpha <= 1) by (split; [apply cpow_nonneg|apply cpow_le_1; [unfold za; lra|exact Hal]]). 
  set (zA := cpow za alpha) in *. set (zC := cpow (1 - za) alpha). clearbody zA zC. clear za Hza.
  assert (Hx : (log10 St - log10 StB) / 0.4 <= -10).
  { assert (L1 : log10 St <= -7). { replace (-7) with (log10 (/ 10 ^ 7)) by (rewrite log10_pow, (INR_Z 7 7 eq_refl); lra). apply log10_le; [lra|]. rewrite HSt. lra. }
    assert (L2 : 0 <= log10 StB) by (rewrite <- log10_1; apply log10_le; lra). lra. }
  assert (Hzb0 : 0 <= 0.5 * (1 + tanh ((log10 St - log10 StB) / 0.4))) by (assert (Q := tanh_bounds ((log10 St - log10 StB) / 0.4)); lra).
  assert (Hzb := Rle_trans _ _ _ (half_tanh ((log10 St - log10 StB) / 0.4)) (exp_small _ Hx)).
  set (zb := 0.5 * (1 + tanh ((log10 St - log10 StB) / 0.4))) in *. clearbody zb. clear Hx.
  assert (Hy : 0 <= 0.16 * sqrt (100 / St) <= 6400).
  { assert (Q := sqrt_pos (100 / St)). assert (sqrt (100 / St) <= 40000); [|lra]. rewrite <- (sqrt_pow2 40000) by lra. apply sqrt_le_1_alt. rewrite HSt. replace (100 / (60 / 810000000)) with 1350000000 by field. lra. }
  set (y := 0.16 * sqrt (100 / St)) in *. clearbody y.
  assert (HG : 0 <= 110 * St * St * zA + 0 * zC + y * zb + 1 - 1 <= 0.01).
  { assert (0 <= 110 * St * St <= 0.0001) by (rewrite HSt; lra). set (s := 110 * St * St) in *. clearbody s. assert (0 <= s * zA <= 0.0001) by (split; nra). assert (0 <= y * zb <= 0.0064) by (split; nra). lra. }
  set (G := 110 * St * St * zA + 0 * zC + y * zb + 1 - 1) in *. clearbody G.
  assert (HRG : 0 <= 2.6 * exp (- (1)) + 0.205 * exp (- (0.0206 * 1)) * 0.5 * (1 + tanh (1 - 3)) <= 3).
  { assert (P1 := exp_pos (- (1))). assert (P1' : exp (- (1)) <= 1) by (rewrite <- exp_0 at 2; left; apply exp_increasing; lra).
    assert (P2 := exp_pos (- (0.0206 * 1))). assert (P2' : exp (- (0.0206 * 1)) <= 1) by (rewrite <- exp_0 at 2; left; apply exp_increasing; lra).
    assert (P3 := tanh_bounds (1 - 3)). set (e1 := exp (- (1))) in *. set (e2 := exp (- (0.0206 * 1))) in *. set (t := tanh (1 - 3)) in *. clearbody e1 e2 t.
    assert (0 <= 0.205 * e2 * 0.5 * (1 + t) <= 0.205) by (split; nra). lra. }
  set (RG := 2.6 * exp (- (1)) + 0.205 * exp (- (0.0206 * 1)) * 0.5 * (1 + tanh (1 - 3))) in *. clearbody RG.
  rewrite osqrt_some by lra. cbn [obind]. intros [= <-]. replace (RG * sqrt G * sqrt G) with (RG * G) by (rewrite Rmult_assoc, sqrt_sqrt by lra; reflexivity).
  assert (HgR : 1 <= 1 + RG * G <= 1.1) by nra. set (gR := 1 + RG * G) in *. clearbody gR.
  replace (2 * PI * (20 / 1000000 + 20 / 1000000) * (20 / 1000000 + 20 / 1000000)) with (2 * PI * (40 / 1000000) ^ 2) by field.
  assert (HC : 0 < 2 * PI * (40 / 1000000) ^ 2) by lra. set (C := 2 * PI * (40 / 1000000) ^ 2) in *. clearbody C.
  assert (0 <= C * W) by nra. assert (C * W <= C * Wmax) by nra. nra.
Qed.

(** In moderate turbulence (dissipation rate 0.01 m^2/s^3) and with the Kolmogorov scale of the formula, the turbulent part of the
    collision rate of two droplets of 20 um would be more than ten times what the code computes; the length scale of the code is one
    metre, whatever the flow. *)
Theorem C58_length_scale_refuted :
  (forall dnu eps, 0 < dnu -> 0 < eps -> kolmogorov leta_exponent dnu eps = 1 /\ kolmogorov (1 / 4) dnu eps ^ 4 = dnu ^ 3 / eps) /\
  exists code formula,
    onishi_nograv (20 / 1000000) (20 / 1000000) 100 (1 / 100) (15 / 1000000) (2500 / 3) = Some code /\
    onishi_nograv_with (1 / 4) (20 / 1000000) (20 / 1000000) 100 (1 / 100) (15 / 1000000) (2500 / 3) = Some formula /\
    10 * code < formula.
Proof.
  split; [intros; split; [now apply leta_code|now apply leta_true]|].
  destruct code_upper as (code & Ec & Hc).
  assert (L4 := leta_true (15 / 1000000) (1 / 100) ltac:(lra) ltac:(lra)).
  assert (Lp : 0 < kolmogorov (1 / 4) (15 / 1000000) (1 / 100)) by (apply cpow_pos; lra).
  destruct (onishi_nograv_defined (1 / 4) (20 / 1000000) (20 / 1000000) 100 (1 / 100) (15 / 1000000) (2500 / 3)) as (f & Ef & Hf); try lra.
  { unfold turbulent. replace (sqrt (15 / (15 / 1000000) / (1 / 100))) with 10000.
    2: { replace (15 / (15 / 1000000) / (1 / 100)) with (10000 ^ 2) by field. symmetry. apply sqrt_pow2. lra. }
    set (leta := kolmogorov (1 / 4) (15 / 1000000) (1 / 100)) in *. clearbody leta.
    assert (HL2 : 0 < leta * leta) by nra. assert (Hl : 5 / 10000000 < leta * leta).
    { destruct (Rlt_dec (5 / 10000000) (leta * leta)); [assumption|]. exfalso. replace (leta ^ 4) with ((leta * leta) * (leta * leta)) in L4 by ring. set (z := leta * leta) in *. clearbody z. nra. }
    replace (0.183 * (100 / 10000) / (15 / 1000000 * (15 / 1000000) / leta / leta)) with (183 / 100000 * (1000000000000 / 225) * (leta * leta)) by (replace 0.183 with (183 / 1000) by lra; field; lra). lra. }
  exists code, f. split; [exact Ec|]. split; [exact Ef|]. eapply Rlt_le_trans; [|exact Hf]. rewrite L4.
  replace ((15 / 1000000) ^ 2 * (20 / 1000000 + 20 / 1000000) ^ 2 / ((15 / 1000000) ^ 3 / (1 / 100)) / 15) with (16 / 225000000) by field.
  replace (20 / 1000000 + 20 / 1000000) with (40 / 1000000) by field.
  assert (HPI := PI_RGT_0). assert (H2PI : 0 < 2 / PI) by (apply Rdiv_lt_0_compat; lra).
  rewrite sqrt_mult_alt in Hc by lra. rewrite sqrt_mult_alt by lra. assert (Hs := sqrt_lt_R0 _ H2PI). set (s := sqrt (2 / PI)) in *. clearbody s.
  assert (A : sqrt (2 / 10000000000) <= 15 / 1000000) by (rewrite <- (sqrt_pow2 (15 / 1000000)) by lra; apply sqrt_le_1_alt; lra).
  assert (B : 26 / 100000 <= sqrt (16 / 225000000)) by (rewrite <- (sqrt_pow2 (26 / 100000)) by lra; apply sqrt_le_1_alt; lra).
  assert (HC : 0 < 2 * PI * (40 / 1000000) ^ 2) by lra. set (C := 2 * PI * (40 / 1000000) ^ 2) in *. clearbody C.
  assert (HCs : 0 < C * s) by nra. rewrite <- !Rmult_assoc in Hc. rewrite <- Rmult_assoc. set (z := C * s) in *. clearbody z.
  set (p := sqrt (2 / 10000000000)) in *. set (o := sqrt (16 / 225000000)) in *. clearbody p o. nra.
Qed.
Print Assumptions C58_length_scale_refuted.

(** ** a case *)
Theorem C58_instance :
  let table := fun _ : kernel_name => repeat (1 / 2) table_size in
  let air := {| k_rhod := 1; k_eta := 15 / 1000000; k_diss := 1 / 100 |} in
  let a := {| k_n := 5%N; k_rw2 := (20 / 1000000) ^ 2; k_vt := 3 / 100 |} in
  let b := {| k_n := 7%N; k_rw2 := (10 / 1000000) ^ 2; k_vt := 1 / 100 |} in
  tables_of table /\
  (exists u v, init_kernel OnishiHall true [100] table = Some u /\ calc (fun x => x) u air a b = Some v /\ 0 <= v) /\
  (exists u, init_kernel Hall false [] table = Some u /\ calc (fun x => x) u air a b = Some (1 / 2 * geometric a b)) /\
  calc (fun x => x) (UsesMultiplier 2) air a b = Some (2 * (PI * 7 * (2 / 100) * (30 / 1000000) ^ 2)) /\
  init_kernel OnishiHall false [100] table = None /\ init_kernel Golovin true [] table = None.
Proof.
  intros table air a b.
  assert (HT : tables_of table).
  { intros k. unfold table. split; [apply repeat_length|]. intros x Hx. apply repeat_spec in Hx. subst. lra. }
  assert (Sa : sqrt (k_rw2 a) = 20 / 1000000) by (unfold a; cbn [k_rw2]; apply sqrt_pow2; lra).
  assert (Sb : sqrt (k_rw2 b) = 10 / 1000000) by (unfold b; cbn [k_rw2]; apply sqrt_pow2; lra).
  assert (Pa : 0 < k_rw2 a) by (unfold a; cbn [k_rw2]; apply pow_lt; lra). assert (Pb : 0 < k_rw2 b) by (unfold b; cbn [k_rw2]; apply pow_lt; lra).
  split; [exact HT|]. split; [|split; [|split; [|split; reflexivity]]].
  - destruct (C58_defined_partial (fun x => x) OnishiHall true [100] table (UsesOnishi ([100] ++ table OnishiHall)) air a b) as (v & Ev); try assumption; try reflexivity; try (cbn [air k_rhod k_eta]; lra).
    + intros _. rewrite Sa, Sb. split.
      * intros Re [<-|[]]. split; [lra|]. right. cbn [air k_eta k_rhod k_diss]. replace (15 / 1000000 / 1) with (15 / 1000000) by field.
        replace (15 / (15 / 1000000) / (1 / 100)) with (10000 ^ 2) by field. rewrite sqrt_pow2 by lra. replace (0.183 * (100 / 10000) / (15 / 1000000) ^ 2) with (183 / 100000 * (1000000000000 / 225)) by (replace 0.183 with (183 / 1000) by lra; field). lra.
      * right. rewrite Rmax_left by lra. split; lra.
    + exists (UsesOnishi ([100] ++ table OnishiHall)), v. split; [reflexivity|]. split; [exact Ev|].
      refine (C58_nonneg (fun x => x) OnishiHall true [100] table _ air a b v eq_refl HT _ _ Pa Pb Ev); [intros x [<-|[]]; lra|lra].
  - exists (UsesTable (table Hall)). split; [reflexivity|]. cbn [calc]. unfold geometric_with_efficiencies. rewrite Sa, Sb.
    destruct (C59_efficiency (fun x => x) [] (table Hall) (20 / 1000000) (10 / 1000000) (1 / 2) (1 / 2)) as ((e & Ee & Be) & _); try lra; try apply HT.
    + intros x Hx. unfold table in Hx. apply repeat_spec in Hx. subst. lra.
    + cbn [length app] in Ee. rewrite Ee. assert (e = 1 / 2) by lra. now subst.
  - cbn [calc]. f_equal. unfold geometric_with_multiplier, geometric, max_n. unfold a at 1 2 3, b at 1 2 3. cbn [k_n k_rw2 k_vt].
    replace (sqrt (k_rw2 a * k_rw2 b)) with (20 / 1000000 * (10 / 1000000)) by (rewrite sqrt_mult by lra; rewrite Sa, Sb; reflexivity).
    replace (N2R (N.max 5 7)) with 7 by (unfold N2R; cbn; lra). replace (3 / 100 - 1 / 100) with (2 / 100) by lra. rewrite (Rabs_pos_eq (2 / 100)) by lra.
    unfold a, b. cbn [k_rw2 k_vt k_n]. try rewrite sqrt_mult by (apply pow_le; lra). try rewrite !sqrt_pow2 by lra. field.
Qed.
Print Assumptions C58_instance.

(** ** values in terms of radii *)
(** The kernels are, times the greater multiplicity: the sum of volumes times a constant; the swept volume pi (r1 + r2)^2 |v1 - v2|;
    the same times a constant, or times the collision efficiency. *)
Theorem C58_values :
  forall rnd air p table r1 r2 n1 n2 v1 v2,
    0 < r1 -> 0 < r2 ->
    let a := {| k_n := n1; k_rw2 := r1 ^ 2; k_vt := v1 |} in
    let b := {| k_n := n2; k_rw2 := r2 ^ 2; k_vt := v2 |} in
    let n := N2R (N.max n1 n2) in
    let swept := PI * (r1 + r2) ^ 2 * Rabs (v1 - v2) in
    calc rnd (UsesGolovin p) air a b = Some (n * (p * (4 / 3 * PI * r1 ^ 3 + 4 / 3 * PI * r2 ^ 3))) /\
    calc rnd UsesGeometric air a b = Some (n * swept) /\
    calc rnd (UsesMultiplier p) air a b = Some (n * (p * swept)) /\
    (50 / 1000000 <= Rmax r1 r2 -> calc rnd UsesLong air a b = Some (n * swept)) /\
    (Rmax r1 r2 < 50 / 1000000 -> Rmin r1 r2 <= 3 / 1000000 -> calc rnd UsesLong air a b = Some 0) /\
    (Rmax r1 r2 < 50 / 1000000 -> 3 / 1000000 < Rmin r1 r2 ->
      calc rnd UsesLong air a b = Some (n * swept * (4.5 * 10 ^ 8 * Rmax r1 r2 ^ 2 * (1 - 3 / 1000000 / Rmin r1 r2)))) /\
    (forall e, interpolated_efficiency rnd 0 table r1 r2 = Some e -> calc rnd (UsesTable table) air a b = Some (n * (e * swept))).
Proof.
  intros rnd air p table r1 r2 n1 n2 v1 v2 H1 H2 a b n swept.
  assert (Sa : sqrt (k_rw2 a) = r1) by (unfold a; cbn [k_rw2]; apply sqrt_pow2; lra).
  assert (Sb : sqrt (k_rw2 b) = r2) by (unfold b; cbn [k_rw2]; apply sqrt_pow2; lra).
  assert (Sab : sqrt (k_rw2 a * k_rw2 b) = r1 * r2).
  { rewrite sqrt_mult; [now rewrite Sa, Sb|unfold a; cbn [k_rw2]; apply pow2_ge_0|unfold b; cbn [k_rw2]; apply pow2_ge_0]. }
  assert (G : geometric a b = n * swept).
  { unfold geometric. rewrite Sab. unfold a, b, max_n, n, swept. cbn [k_n k_rw2 k_vt]. ring. }
  split; [|split; [|split; [|split; [|split; [|split]]]]].
  - cbn [calc]. f_equal. unfold golovin. rewrite Sa, Sb. unfold a, b, max_n, n. cbn [k_n k_rw2]. field.
  - cbn [calc]. now rewrite G.
  - cbn [calc]. unfold geometric_with_multiplier. rewrite G. f_equal. ring.
  - intros HL. cbn [calc]. unfold long. rewrite Sa, Sb, G, cmax_Rmax. destruct (Rltb _ _) eqn:E; [apply Rltb_true in E; lra|reflexivity].
  - intros HL HS. cbn [calc]. unfold long. rewrite Sa, Sb, cmax_Rmax, cmin_Rmin. destruct (Rltb _ _) eqn:E; [|apply Rltb_false in E; lra].
    destruct (Rleb _ _) eqn:E'; [reflexivity|apply Rleb_false in E'; lra].
  - intros HL HS. cbn [calc]. unfold long. rewrite Sa, Sb, G, cmax_Rmax, cmin_Rmin. destruct (Rltb _ _) eqn:E; [|apply Rltb_false in E; lra].
    destruct (Rleb _ _) eqn:E'; [apply Rleb_true in E'; lra|]. f_equal. replace (4.5 * 10 ^ 8) with 450000000 by lra. ring.
  - intros e He. cbn [calc]. unfold geometric_with_efficiencies. rewrite Sa, Sb, He, G. f_equal. ring.
Qed.
Print Assumptions C58_values.
