(** C99: fall speeds from the table (beard77fast) against the formula the table is made from (beard77) *)
From Coq Require Import List Reals Arith ZArith QArith Qreals Lra Lia Bool.
From Verif Require Import Base BaseProofs ThermoModel ThermoProofs VtermModel VtermPoly VtermOrder.
From Verif Require MotionModel VtermProps SpaceModel SpaceProofs.
Import ListNotations.
Local Open Scope R_scope.

Lemma n_bin_R : INR n_bin = 10000.
Proof. rewrite INR_IZR_INZ. f_equal. Qed.
Definition dlnr : R := (ln_r_max - ln_r_min) / 10000.
Lemma dlnr_range : 0 < dlnr <= 88 / 100000.
Proof.
  unfold dlnr, ln_r_max, ln_r_min. assert (A : ln (5 / 10000000) < ln (3 / 1000)) by (apply ln_increasing; lra).
  assert (B : ln (3 / 1000) - ln (5 / 10000000) = ln 6000).
  { replace (3 / 1000) with (6000 * (5 / 10000000)) by lra. rewrite ln_mult by lra. ring. }
  assert (C := ln_range). lra.
Qed.
Lemma lo_lt_hi : ln_r_min < ln_r_max.
Proof. unfold ln_r_max, ln_r_min. apply ln_increasing; lra. Qed.
Lemma n_bin_pos : (0 < n_bin)%nat.
Proof. apply INR_lt. rewrite n_bin_R. cbn [INR]. lra. Qed.

Definition mid (b : nat) : R := ln_r_min + (INR b + 5 / 10) * dlnr.
Lemma bin_mid_eq b : bin_mid ln_r_min ln_r_max n_bin b = exp (mid b).
Proof. unfold bin_mid, mid, dlnr. now rewrite n_bin_R. Qed.

(** the midpoint is at most half a bin away *)
Lemma mid_near w : 0 < w -> ln_r_min <= ln (sqrt w) <= ln_r_max ->
  let b := MotionModel.get_vt0_bin ln_r_min ln_r_max n_bin w in
  Rabs (mid b - ln (sqrt w)) <= 44 / 100000 /\ ln_r_min <= mid b <= ln_r_max.
Proof.
  intros P [L H] b. destruct (VtermProps.C41_table ln_r_min ln_r_max n_bin w lo_lt_hi n_bin_pos P) as (Q1 & Q2 & Q3 & Q4).
  fold b in Q1, Q2, Q3, Q4. rewrite n_bin_R in Q2. fold dlnr in Q2. assert (D := dlnr_range).
  assert (E : ln_r_max = ln_r_min + 10000 * dlnr) by (unfold dlnr; field).
  assert (B : INR b <= 9999).
  { assert (Z : (S b <= n_bin)%nat) by lia. apply le_INR in Z. rewrite S_INR, n_bin_R in Z. lra. }
  assert (B0 := pos_INR b).
  split.
  - apply Rabs_le. unfold mid. destruct (Rlt_le_dec (ln (sqrt w)) ln_r_max) as [L'|L'].
    + specialize (Q2 (conj L L')). lra.
    + assert (Eb : INR b = 9999).
      { rewrite (Q4 L'), minus_INR by (assert (Z := n_bin_pos); lia). rewrite n_bin_R. cbn [INR]. lra. }
      rewrite Eb. lra.
  - unfold mid. nra.
Qed.

Lemma Rabs_le_inv x y : Rabs x <= y -> - y <= x <= y.
Proof. unfold Rabs. destruct (Rcase_abs x); lra. Qed.
Lemma exp_close z e : 0 <= e <= 1 / 2 -> Rabs z <= e -> Rabs (exp z - 1) <= e / (1 - e).
Proof.
  intros E H. apply Rabs_le_inv in H. assert (A := exp_1 z). assert (B := exp_1 (- z)).
  assert (C : exp z * exp (- z) = 1) by (rewrite <- exp_plus, Rplus_opp_r; apply exp_0).
  assert (P := exp_pos z).
  assert (F : e <= e / (1 - e)).
  { apply (Rmult_le_reg_r (1 - e)); [lra|]. unfold Rdiv. rewrite Rmult_assoc, Rinv_l by lra. nra. }
  apply Rabs_le. split; [lra|].
  apply (Rmult_le_reg_r (1 - e)); [lra|]. unfold Rdiv. rewrite Rmult_assoc, Rinv_l by lra. nra.
Qed.

(** the exponents of the two fall speeds *)
Definition expo (r : R) : R := if Rle_dec r (20 / 1000000) then ev qs (ln (2 * 100 * r)) else ev ql (ln (2 * 100 * r)).
Lemma v0_expo r : vt_beard77_v0 r = exp (expo r) / 100.
Proof. unfold expo. destruct (Rle_dec r (20 / 1000000)) as [H|H]; [now apply v0_s|apply v0_l; lra]. Qed.
Lemma lip_s x y : - (155 / 10) <= x <= - (545 / 100) -> - (155 / 10) <= y <= - (545 / 100) -> Rabs (y - x) <= 44 / 100000 ->
  Rabs (ev qs y - ev qs x) <= 88 / 100000.
Proof.
  intros A B H. apply Rabs_le_inv in H. apply Rabs_le. destruct (Rle_lt_dec x y) as [L|L].
  - destruct (ev_mvt qs x y (2 / 10) 2 L) as [U V]; [intros z Z; apply ds_range; lra|]. nra.
  - destruct (ev_mvt qs y x (2 / 10) 2 (Rlt_le _ _ L)) as [U V]; [intros z Z; apply ds_range; lra|]. nra.
Qed.
Lemma lip_l x y : - (56 / 10) <= x <= - (5 / 10) -> - (56 / 10) <= y <= - (5 / 10) -> Rabs (y - x) <= 44 / 100000 ->
  Rabs (ev ql y - ev ql x) <= 88 / 100000.
Proof.
  intros A B H. apply Rabs_le_inv in H. apply Rabs_le. destruct (Rle_lt_dec x y) as [L|L].
  - destruct (ev_mvt ql x y (- (2 / 10)) 2 L) as [U V]; [intros z Z; apply dl_range; lra|]. nra.
  - destruct (ev_mvt ql y x (- (2 / 10)) 2 (Rlt_le _ _ L)) as [U V]; [intros z Z; apply dl_range; lra|]. nra.
Qed.
Lemma expo_near r rm : 5 / 10000000 <= r <= 3 / 1000 -> 5 / 10000000 <= rm <= 3 / 1000 -> Rabs (ln rm - ln r) <= 44 / 100000 ->
  Rabs (expo rm - expo r) <= 91 / 10000 /\
  ((r <= 20 / 1000000 /\ rm <= 20 / 1000000) \/ (20 / 1000000 < r /\ 20 / 1000000 < rm) ->
   Rabs (expo rm - expo r) <= 88 / 100000).
Proof.
  intros A B H.
  assert (E : forall q, 0 < q -> ln (2 * 100 * q) = ln 200 + ln q).
  { intros q Q. replace (2 * 100) with 200 by lra. apply ln_mult; lra. }
  set (x := ln (2 * 100 * r)). set (y := ln (2 * 100 * rm)).
  assert (N : Rabs (y - x) <= 44 / 100000).
  { unfold x, y. rewrite !E by lra. replace (ln 200 + ln rm - (ln 200 + ln r)) with (ln rm - ln r) by ring. exact H. }
  assert (X0 := ln_x0).
  assert (Lo : forall q, 5 / 10000000 <= q -> - (93 / 10) <= ln (2 * 100 * q)).
  { intros q Q. eapply Rle_trans; [apply ln_lo|]. apply ln_mono; lra. }
  assert (Hi : forall q, 0 < q <= 3 / 1000 -> ln (2 * 100 * q) <= - (1 / 2)).
  { intros q Q. eapply Rle_trans; [|apply ln_hi]. apply ln_mono; lra. }
  assert (Xr : - (93 / 10) <= x <= - (1 / 2)) by (split; [apply Lo; lra|apply Hi; lra]).
  assert (Yr : - (93 / 10) <= y <= - (1 / 2)) by (split; [apply Lo; lra|apply Hi; lra]).
  assert (Sm : forall q, 0 < q <= 20 / 1000000 -> ln (2 * 100 * q) <= ln (4 / 1000)) by (intros q Q; apply ln_mono; lra).
  assert (La : forall q, 20 / 1000000 < q -> ln (4 / 1000) <= ln (2 * 100 * q)) by (intros q Q; apply ln_mono; lra).
  assert (SS : r <= 20 / 1000000 -> rm <= 20 / 1000000 -> Rabs (ev qs y - ev qs x) <= 88 / 100000).
  { intros U V. assert (Q1 := Sm r ltac:(lra)). assert (Q2 := Sm rm ltac:(lra)). fold x in Q1. fold y in Q2.
    apply lip_s; try exact N; lra. }
  assert (LL : 20 / 1000000 < r -> 20 / 1000000 < rm -> Rabs (ev ql y - ev ql x) <= 88 / 100000).
  { intros U V. assert (Q1 := La r U). assert (Q2 := La rm V). fold x in Q1. fold y in Q2. apply lip_l; try exact N; lra. }
  assert (NN := Rabs_le_inv _ _ N).
  unfold expo. fold x y.
  destruct (Rle_dec r (20 / 1000000)) as [R1|R1], (Rle_dec rm (20 / 1000000)) as [R2|R2].
  - specialize (SS R1 R2). split; [lra|auto].
  - split; [|lra]. assert (Q1 := Sm r ltac:(lra)). assert (Q2 := La rm ltac:(lra)). fold x in Q1. fold y in Q2.
    destruct (jump y) as [J1 J2]; [lra|]. assert (S := lip_s x y ltac:(lra) ltac:(lra) N). apply Rabs_le_inv in S. apply Rabs_le. lra.
  - split; [|lra]. assert (Q1 := La r ltac:(lra)). assert (Q2 := Sm rm ltac:(lra)). fold x in Q1. fold y in Q2.
    destruct (jump x) as [J1 J2]; [lra|]. assert (S := lip_s x y ltac:(lra) ltac:(lra) N). apply Rabs_le_inv in S. apply Rabs_le. lra.
  - specialize (LL ltac:(lra) ltac:(lra)). split; [lra|auto].
Qed.

Lemma table_v0 r rm e : 5 / 10000000 <= r <= 3 / 1000 -> 0 <= e <= 1 / 2 -> Rabs (expo rm - expo r) <= e ->
  Rabs (vt_beard77_v0 rm - vt_beard77_v0 r) <= e / (1 - e) * vt_beard77_v0 r.
Proof.
  intros A E H. rewrite !v0_expo. assert (P := exp_pos (expo r)).
  replace (exp (expo rm)) with (exp (expo r) * exp (expo rm - expo r)) by (rewrite <- exp_plus; f_equal; ring).
  replace (exp (expo r) * exp (expo rm - expo r) / 100 - exp (expo r) / 100)
    with (exp (expo r) / 100 * (exp (expo rm - expo r) - 1)) by field.
  rewrite Rabs_mult, Rabs_pos_eq by lra. rewrite Rmult_comm. apply Rmult_le_compat_r; [lra|]. now apply exp_close.
Qed.

(** Within the range of the table (0.5 um to 3 mm) the fall speed from the table differs from the formula by at most 1%, and outside of
    19.9-20.1 um (where the formula itself jumps) by at most 0.1%. *)
Theorem C99_table :
  forall env c w, 0 < w -> 5 / 10000000 <= sqrt w <= 3 / 1000 ->
    let fast := liquid MotionModel.Beard77fast env c w in
    let exact := liquid MotionModel.Beard77 env c w in
    Rabs (fast - exact) <= 1 / 100 * Rabs exact /\
    (sqrt w <= 199 / 10000000 \/ 201 / 10000000 <= sqrt w -> Rabs (fast - exact) <= 1 / 1000 * Rabs exact).
Proof.
  intros env c w P R fast exact. unfold fast, exact, liquid, MotionModel.vt_liquid. clear fast exact.
  set (b := MotionModel.get_vt0_bin ln_r_min ln_r_max n_bin w).
  set (f := vt_beard77_fact _ _ _ _). unfold vt_0. rewrite bin_mid_eq.
  assert (RL : ln_r_min <= ln (sqrt w) <= ln_r_max) by (split; apply ln_mono; lra).
  destruct (mid_near w P RL) as [N M]. fold b in N, M.
  set (r := sqrt w) in *. set (rm := exp (mid b)).
  assert (Erm : ln rm = mid b) by apply ln_exp.
  assert (RM : 5 / 10000000 <= rm <= 3 / 1000).
  { unfold rm. assert (E1 : exp ln_r_min = 5 / 10000000) by (apply exp_ln; lra). assert (E2 : exp ln_r_max = 3 / 1000) by (apply exp_ln; lra).
    rewrite <- E1, <- E2.
    assert (X : forall u v, u <= v -> exp u <= exp v) by (intros u v [L| ->]; [left; now apply exp_increasing|lra]).
    split; apply X; lra. }
  rewrite <- Erm in N.
  destruct (expo_near r rm R RM N) as [E1 E2].
  assert (V := v0_pos r).
  assert (K : forall e k, 0 <= e <= 1 / 2 -> e / (1 - e) <= k -> Rabs (expo rm - expo r) <= e ->
     Rabs (f * vt_beard77_v0 rm - f * vt_beard77_v0 r) <= k * Rabs (f * vt_beard77_v0 r)).
  { intros e k He Hk H. assert (T := table_v0 r rm e R He H).
    replace (f * vt_beard77_v0 rm - f * vt_beard77_v0 r) with (f * (vt_beard77_v0 rm - vt_beard77_v0 r)) by ring.
    rewrite !Rabs_mult, (Rabs_pos_eq (vt_beard77_v0 r)) by lra.
    apply Rle_trans with (Rabs f * (e / (1 - e) * vt_beard77_v0 r)); [apply Rmult_le_compat_l; [apply Rabs_pos|exact T]|].
    replace (k * (Rabs f * vt_beard77_v0 r)) with (Rabs f * (k * vt_beard77_v0 r)) by ring.
    apply Rmult_le_compat_l; [apply Rabs_pos|]. apply Rmult_le_compat_r; lra. }
  split.
  - apply (K (91 / 10000)); [lra|lra|exact E1].
  - intros S. apply (K (88 / 100000)); [lra|lra|]. apply E2.
    apply Rabs_le_inv in N.
    assert (G1 : rm * (1 - 44 / 100000) <= r).
    { replace r with (rm * exp (ln r - ln rm)).
      2:{ unfold rm at 1. rewrite <- exp_plus, Erm. replace (mid b + (ln r - mid b)) with (ln r) by ring. apply exp_ln. lra. }
      apply Rmult_le_compat_l; [lra|]. assert (Z := exp_1 (ln r - ln rm)). lra. }
    assert (G2 : r * (1 - 44 / 100000) <= rm).
    { replace rm with (r * exp (ln rm - ln r)) at 1.
      2:{ replace r with (exp (ln r)) at 1 by (apply exp_ln; lra). rewrite <- exp_plus, Erm. unfold rm. f_equal. ring. }
      apply Rmult_le_compat_l; [lra|]. assert (Z := exp_1 (ln rm - ln r)). lra. }
    destruct S as [S|S]; [left|right]; lra.
Qed.
Print Assumptions C99_table.

(** Fall speeds from the table at sea level do not decrease with size, up to 1.9 mm. *)
Lemma truncZ_mono a b : 0 <= a <= b -> (SpaceModel.truncZ a <= SpaceModel.truncZ b)%Z.
Proof.
  intros [A B]. destruct (SpaceProofs.truncZ_nonneg a A) as [[H1 H2] H3]. destruct (SpaceProofs.truncZ_nonneg b (Rle_trans _ _ _ A B)) as [[H4 H5] H6].
  assert (H : IZR (SpaceModel.truncZ a) < IZR (SpaceModel.truncZ b + 1)) by (rewrite plus_IZR; lra). apply lt_IZR in H. lia.
Qed.
Lemma bin_mono w1 w2 : 0 < w1 <= w2 ->
  (MotionModel.get_vt0_bin ln_r_min ln_r_max n_bin w1 <= MotionModel.get_vt0_bin ln_r_min ln_r_max n_bin w2)%nat.
Proof.
  intros [P H]. destruct (VtermProps.C41_table ln_r_min ln_r_max n_bin w1 lo_lt_hi n_bin_pos P) as (Q1 & _).
  destruct (VtermProps.C41_table ln_r_min ln_r_max n_bin w2 lo_lt_hi n_bin_pos (Rlt_le_trans _ _ _ P H)) as (Q2 & _).
  assert (L : ln w1 <= ln w2) by (apply ln_mono; lra). revert Q1 Q2. unfold MotionModel.get_vt0_bin. cbv zeta. rewrite n_bin_R. fold dlnr.
  assert (D := dlnr_range). assert (LH := lo_lt_hi).
  destruct (Rleb (/ 2 * ln w1) ln_r_min) eqn:E1; [lia|apply Rleb_false in E1].
  replace (Rleb (/ 2 * ln w2) ln_r_min) with false by (symmetry; apply Rleb_false; lra).
  destruct (Rleb ln_r_max (/ 2 * ln w1)) eqn:E2.
  - apply Rleb_true in E2. replace (Rleb ln_r_max (/ 2 * ln w2)) with true by (symmetry; apply Rleb_true; lra). lia.
  - destruct (Rleb ln_r_max (/ 2 * ln w2)) eqn:E3; intros Q1 Q2; [lia|].
    apply Z2Nat.inj_le; [|apply SpaceProofs.truncZ_nonneg|].
    + apply SpaceProofs.truncZ_nonneg. apply Rmult_le_pos; [lra|left; apply Rinv_0_lt_compat; lra].
    + apply Rmult_le_pos; [lra|left; apply Rinv_0_lt_compat; lra].
    + apply truncZ_mono. split; [apply Rmult_le_pos; [lra|left; apply Rinv_0_lt_compat; lra]|].
      apply Rmult_le_compat_r; [left; apply Rinv_0_lt_compat; lra|lra].
Qed.
Theorem C99_order :
  forall w1 w2, 0 < w1 <= w2 -> sqrt w2 <= 19 / 10000 ->
    vt_0 (MotionModel.get_vt0_bin ln_r_min ln_r_max n_bin w1) <= vt_0 (MotionModel.get_vt0_bin ln_r_min ln_r_max n_bin w2).
Proof.
  intros w1 w2 W R2. assert (B := bin_mono w1 w2 W). unfold vt_0. rewrite !bin_mid_eq.
  assert (P2 : 0 < w2) by lra.
  set (b1 := MotionModel.get_vt0_bin _ _ _ w1) in *. set (b2 := MotionModel.get_vt0_bin ln_r_min ln_r_max n_bin w2) in *.
  assert (D := dlnr_range).
  assert (M12 : mid b1 <= mid b2) by (unfold mid; apply le_INR in B; nra).
  assert (L0 : ln_r_min <= mid b1) by (unfold mid; assert (Z := pos_INR b1); nra).
  assert (E1 : exp ln_r_min = 5 / 10000000) by (apply exp_ln; lra).
  assert (U : exp (mid b2) <= 2 / 1000).
  { assert (S2 := sqrt_lt_R0 w2 P2).
    destruct (Rle_lt_dec (ln_r_min) (ln (sqrt w2))) as [L|L].
    - assert (H : ln (sqrt w2) <= ln_r_max) by (apply ln_mono; lra).
      destruct (mid_near w2 P2 (conj L H)) as [N _]. fold b2 in N. apply Rabs_le_inv in N.
      assert (Z : exp (mid b2) * (1 - 44 / 100000) <= sqrt w2).
      { replace (sqrt w2) with (exp (mid b2) * exp (ln (sqrt w2) - mid b2)).
        2:{ rewrite <- exp_plus. replace (mid b2 + (ln (sqrt w2) - mid b2)) with (ln (sqrt w2)) by ring. now apply exp_ln. }
        apply Rmult_le_compat_l; [left; apply exp_pos|]. assert (Q := exp_1 (ln (sqrt w2) - mid b2)). lra. }
      lra.
    - destruct (VtermProps.C41_table ln_r_min ln_r_max n_bin w2 lo_lt_hi n_bin_pos P2) as (_ & _ & Q & _).
      specialize (Q L). fold b2 in Q. rewrite Q. unfold mid. cbn [INR].
      rewrite exp_plus, E1. assert (Z := exp_close ((0 + 5 / 10) * dlnr) (1 / 2) ltac:(lra)).
      assert (Y : Rabs ((0 + 5 / 10) * dlnr) <= 1 / 2) by (apply Rabs_le; lra). specialize (Z Y). apply Rabs_le_inv in Z. lra. }
  destruct M12 as [M12| ->]; [|lra]. left. apply (C98_larger_faster_partial (exp (mid b1)) (exp (mid b2))).
  - split; [apply exp_pos|now apply exp_increasing].
  - assert (exp ln_r_min <= exp (mid b1)); [destruct L0 as [L0| ->]; [left; now apply exp_increasing|lra]|lra].
  - exact U.
Qed.
Print Assumptions C99_order.

(** Outside of its range the table is used at its end, so that there is no bound: a droplet of 0.1 um falls more than twice as fast as by
    the formula, in any air. *)
Theorem C99_out_of_range_refuted :
  exists w, 0 < w /\ sqrt w < 5 / 10000000 /\
    forall env c, some_air (env c) ->
      2 * liquid MotionModel.Beard77 env c w < liquid MotionModel.Beard77fast env c w.
Proof.
  exists (1 / 100000000000000). assert (P : 0 < 1 / 100000000000000) by lra.
  assert (S : sqrt (1 / 100000000000000) = 1 / 10000000) by (rewrite <- (sqrt_square (1 / 10000000)) by lra; f_equal; lra).
  split; [lra|]. rewrite S. split; [lra|]. intros env c A. unfold liquid, MotionModel.vt_liquid. rewrite S.
  assert (F : 0 < vt_beard77_fact (1 / 10000000) (a_p (env c)) (a_rhod (env c)) (a_eta (env c))) by (apply fact_pos; [exact A|lra|lra]).
  set (f := vt_beard77_fact _ _ _ _) in *.
  destruct (VtermProps.C41_table ln_r_min ln_r_max n_bin _ lo_lt_hi n_bin_pos P) as (_ & _ & Q & _). rewrite S in Q.
  rewrite Q by (apply ln_increasing; lra). unfold vt_0. rewrite bin_mid_eq.
  assert (D := dlnr_range).
  assert (E : ln (2 * 100 * exp (mid 0)) = ln (1 / 10000) + 1 / 2 * dlnr).
  { rewrite ln_mult by (try apply exp_pos; lra). rewrite ln_exp. unfold mid, ln_r_min. cbn [INR].
    replace (1 / 10000) with (2 * 100 * (5 / 10000000)) by lra. rewrite (ln_mult (2 * 100) (5 / 10000000)) by lra. lra. }
  assert (Sm : exp (mid 0) <= 20 / 1000000).
  { unfold mid. cbn [INR]. rewrite exp_plus. assert (E1 : exp ln_r_min = 5 / 10000000) by (apply exp_ln; lra). rewrite E1.
    assert (Y : Rabs ((0 + 5 / 10) * dlnr) <= 1 / 2) by (apply Rabs_le; lra).
    assert (Z := exp_close ((0 + 5 / 10) * dlnr) (1 / 2) ltac:(lra) Y). apply Rabs_le_inv in Z. lra. }
  rewrite !v0_s by lra. rewrite E.
  set (y := ln (1 / 10000) + 1 / 2 * dlnr). set (x := ln (2 * 100 * (1 / 10000000))).
  assert (X1 : ln 5 >= 1).
  { assert (H := ln_below 5 1 ltac:(lra)). assert (H1 : / 5 <= exp (- (1))).
    { assert (Z := below_exp_ok 10 (1 # 5) (-1 # 1) ltac:(vm_compute; reflexivity)).
      replace (Q2R (1 # 5)) with (/ 5) in Z by q2r. replace (Q2R (-1 # 1)) with (- (1)) in Z by q2r. exact Z. }
    specialize (H H1). lra. }
  assert (X2 : x + 1 <= y).
  { unfold x, y. replace (1 / 10000) with (2 * 100 * (1 / 10000000) * 5) by lra. rewrite (ln_mult _ 5) by lra. lra. }
  assert (Lx : - (11) <= x).
  { unfold x. apply ln_below; [lra|]. assert (Z := below_exp_ok 12 (50000 # 1) (11 # 1) ltac:(vm_compute; reflexivity)).
    replace (Q2R (50000 # 1)) with (/ (2 * 100 * (1 / 10000000))) in Z by q2r. replace (Q2R (11 # 1)) with (- - (11)) in Z by q2r. exact Z. }
  assert (Uy : y <= - (9)).
  { unfold y. assert (H : ln (1 / 10000) <= - (91 / 10)).
    { apply ln_above; [lra|]. assert (Z := below_exp_ok 12 (1 # 10000) (-91 # 10) ltac:(vm_compute; reflexivity)).
      replace (Q2R (1 # 10000)) with (1 / 10000) in Z by q2r. replace (Q2R (-91 # 10)) with (- (91 / 10)) in Z by q2r. exact Z. }
    lra. }
  destruct (ev_mvt qs x y 1 2) as [U _]; [lra| |].
  { intros z Z. split; [|apply ds_range; lra].
    assert (H := ltac:(vm_compute; reflexivity) : above 20 (-11 # 1)%Q (5 # 100)%Q (1 # 1)%Q (der qs) = true).
    apply (above_ok 20 (-11 # 1)%Q (5 # 100)%Q (1 # 1)%Q (der qs) z) in H; [|unfold Q2R; cbn [Qnum Qden INR]; lra|lia].
    eapply Rle_trans; [|exact H]. q2r. }
  assert (V : 2 * exp (ev qs x) < exp (ev qs y)).
  { replace (ev qs y) with (ev qs x + (ev qs y - ev qs x)) by ring. rewrite exp_plus, Rmult_comm.
    apply Rmult_lt_compat_l; [apply exp_pos|].
    apply Rlt_le_trans with (exp 1); [assert (H := exp_ineq1 1 ltac:(lra)); lra|].
    destruct (Rle_lt_or_eq_dec 1 (ev qs y - ev qs x)) as [H|H]; [lra|left; now apply exp_increasing|rewrite <- H; lra]. }
  replace (2 * (f * (exp (ev qs x) / 100))) with (f * (2 * exp (ev qs x) / 100)) by field.
  apply Rmult_lt_compat_l; [exact F|]. lra.
Qed.
Print Assumptions C99_out_of_range_refuted.

(** a drop of 0.1 mm *)
Theorem C99_instance :
  let a := {| a_T := 283; a_p := 90000; a_rhod := 1; a_eta := 17 / 1000000 |} in
  let w := 1 / 100000000 in
  let exact := liquid MotionModel.Beard77 (fun _ => a) 0 w in
  0 < exact /\ Rabs (liquid MotionModel.Beard77fast (fun _ => a) 0 w - exact) <= 1 / 1000 * exact.
Proof.
  intros a w exact. assert (P : 0 < w) by (unfold w; lra).
  assert (S : sqrt w = 1 / 10000) by (unfold w; rewrite <- (sqrt_square (1 / 10000)) by lra; f_equal; lra).
  assert (E : 0 < exact).
  { apply C98_positive; [unfold some_air, a, rho_w; cbn; lra|exact P|discriminate|].
    rewrite S. intros _ _. split; [lra|]. unfold atmosphere, a. cbn. lra. }
  split; [exact E|]. destruct (C99_table (fun _ => a) 0 w P ltac:(rewrite S; lra)) as [_ H].
  fold exact in H. rewrite (Rabs_pos_eq exact) in H by lra. apply H. rewrite S. right. lra.
Qed.
Print Assumptions C99_instance.
