(** C98, continued: in the air of the model (viscosity by its formula), for all super-droplets after the fall speeds have been
    computed; order with the factor of altitude *)
From Coq Require Import List Reals Arith ZArith QArith Qreals Lra Lia Bool.
From Verif Require Import Base BaseProofs ThermoModel ThermoProofs VtermModel VtermPoly VtermOrder.
From Verif Require InitModel MotionModel CoalModel.
Import ListNotations.
Local Open Scope R_scope.

(** the viscosity of the library is one of the atmosphere from 180 K to 350 K *)
Lemma visc_between T a b lo hi : 0 < a -> a <= T <= b -> 0 < lo -> lo * lo <= a / T_tri * (a / T_tri) * (a / T_tri) ->
  b / T_tri * (b / T_tri) * (b / T_tri) <= hi * hi -> 0 < hi ->
  172 / 100 / 100000 * (393 / (b + 120)) * lo <= visc T <= 172 / 100 / 100000 * (393 / (a + 120)) * hi.
Proof.
  intros A [B C] L1 L2 H1 H2. unfold visc. assert (TT := T_tri_pos).
  set (q := T / T_tri). assert (Q : 0 < q) by (unfold q; apply Rdiv_lt_0_compat; lra).
  assert (Qa : a / T_tri <= q) by (unfold q; apply Rmult_le_compat_r; [left; now apply Rinv_0_lt_compat|lra]).
  assert (Qb : q <= b / T_tri) by (unfold q; apply Rmult_le_compat_r; [left; now apply Rinv_0_lt_compat|lra]).
  assert (A0 : 0 < a / T_tri) by now apply Rdiv_lt_0_compat.
  assert (S : (q * sqrt q) * (q * sqrt q) = q * q * q).
  { replace ((q * sqrt q) * (q * sqrt q)) with (q * q * (sqrt q * sqrt q)) by ring. now rewrite sqrt_sqrt by lra. }
  assert (P := Rmult_lt_0_compat _ _ Q (sqrt_lt_R0 _ Q)). set (z := q * sqrt q) in *.
  assert (C1 : a / T_tri * (a / T_tri) * (a / T_tri) <= q * q * q) by (repeat apply Rmult_le_compat; try lra; nra).
  assert (C2 : q * q * q <= b / T_tri * (b / T_tri) * (b / T_tri)) by (repeat apply Rmult_le_compat; try lra; nra).
  assert (Z1 : lo <= z) by (clear - L1 P S L2 C1; nra).
  assert (Z2 : z <= hi) by (clear - H2 P S H1 C2; nra).
  assert (D1 : 393 / (b + 120) <= 393 / (T + 120)) by (apply Rmult_le_compat_l; [lra|apply Rinv_le_contravar; lra]).
  assert (D2 : 393 / (T + 120) <= 393 / (a + 120)) by (apply Rmult_le_compat_l; [lra|apply Rinv_le_contravar; lra]).
  assert (D0 : 0 < 393 / (b + 120)) by (apply Rdiv_lt_0_compat; lra).
  split; apply Rmult_le_compat; try lra; nra.
Qed.
Lemma visc_range T : 180 <= T <= 350 -> 1 / 100000 <= visc T <= 24 / 1000000.
Proof.
  intros H.
  destruct (Rle_dec T 240) as [A|A]; [|destruct (Rle_dec T 300) as [B|B]].
  - destruct (visc_between T 180 240 (534 / 1000) (83 / 100)) as [X Y]; try lra; try (unfold T_tri; lra).
  - destruct (visc_between T 240 300 (82 / 100) (116 / 100)) as [X Y]; try lra; try (unfold T_tri; lra).
  - destruct (visc_between T 300 350 (115 / 100) (1455 / 1000)) as [X Y]; try lra; try (unfold T_tri; lra).
Qed.

(** air of the model: temperatures from 180 K to 350 K, densities from 0.05 to 2 kg/m3, viscosity by the formula of the library *)
Definition model_air (a : air) : Prop :=
  180 <= a_T a <= 350 /\ 0 < a_p a /\ 5 / 100 <= a_rhod a <= 2 /\ a_eta a = visc (a_T a).
Lemma model_air_some a : model_air a -> some_air a /\ atmosphere a.
Proof.
  intros (A & B & C & D). assert (V := visc_range _ A). rewrite <- D in V. unfold some_air, atmosphere, rho_w. lra.
Qed.

Section Update.
  Variable eq : MotionModel.vt_eq.
  Variable ice_switch : bool.
  Variable env : nat -> air.
  Variable ijk : nat -> nat.
  Variable ice_a : nat -> R.
  Notation all := (MotionModel.hskpng_vterm_all eq ice_switch
    (fun c r => vt_beard76 r (a_T (env c)) (a_p (env c)) (a_rhod (env c)) (a_eta (env c)))
    (fun c r => vt_khvorostyanov r (a_rhod (env c)) (a_eta (env c)) true)
    (fun c r => vt_khvorostyanov r (a_rhod (env c)) (a_eta (env c)) false)
    (fun c r => vt_beard77_fact r (a_p (env c)) (a_rhod (env c)) (a_eta (env c)))
    vt_beard77_v0 vt_0 ln_r_min ln_r_max n_bin (rho_i / rho_w) ijk ice_a).

  (** After the update of fall speeds, in air of the model, every super-droplet falls: liquid ones of up to 1 cm radius, with every
      formula, and with ice switched on the frozen ones too. *)
  Theorem C98_all :
    forall sds, (forall c, model_air (env c)) ->
    forall id,
      (0 < CoalModel.rw2 (sds id) -> sqrt (CoalModel.rw2 (sds id)) <= 1 / 100 -> 0 < CoalModel.vt (all sds id)) /\
      (ice_switch = true -> CoalModel.rw2 (sds id) = 0 -> 0 < ice_a id -> 0 < CoalModel.vt (all sds id)).
  Proof.
    intros sds A id. set (s := sds id). destruct (model_air_some _ (A (ijk id))) as [A1 A2].
    assert (T : a_T (env (ijk id)) <= 350) by apply (A (ijk id)).
    unfold MotionModel.hskpng_vterm_all, MotionModel.vterm_all_ice, MotionModel.vterm_all_liq. fold s.
    split.
    - intros P R. replace (Rltb 0 (CoalModel.rw2 s)) with true by (symmetry; now apply Rltb_true).
      assert (L := C98_positive eq env (ijk id) (CoalModel.rw2 s) A1 P). unfold liquid in L.
      assert (E : Reqb (CoalModel.rw2 s) 0 = false) by (unfold Reqb; destruct (Req_EM_T (CoalModel.rw2 s) 0); [lra|reflexivity]).
      match goal with |- context [CoalModel.rw2 (MotionModel.set_vt s ?v)] => change (CoalModel.rw2 (MotionModel.set_vt s v)) with (CoalModel.rw2 s) end.
      rewrite E.
      replace (if ice_switch then MotionModel.set_vt s _ else MotionModel.set_vt s _) with
        (MotionModel.set_vt s (MotionModel.vt_liquid eq
          (fun c r => vt_beard76 r (a_T (env c)) (a_p (env c)) (a_rhod (env c)) (a_eta (env c)))
          (fun c r => vt_khvorostyanov r (a_rhod (env c)) (a_eta (env c)) true)
          (fun c r => vt_khvorostyanov r (a_rhod (env c)) (a_eta (env c)) false)
          (fun c r => vt_beard77_fact r (a_p (env c)) (a_rhod (env c)) (a_eta (env c)))
          vt_beard77_v0 vt_0 ln_r_min ln_r_max n_bin (ijk id) (CoalModel.rw2 s))) by (destruct ice_switch; reflexivity).
      unfold MotionModel.set_vt. cbn [CoalModel.vt]. apply L.
      + intros _ _. lra.
      + intros _ _. split; [exact R|exact A2].
    - intros -> E P. replace (Rltb 0 (CoalModel.rw2 s)) with false.
      2:{ rewrite E. unfold Rltb. destruct (Rlt_dec 0 0); [lra|reflexivity]. }
      rewrite E. unfold Reqb. destruct (Req_EM_T 0 0) as [_|N]; [|lra].
      unfold MotionModel.set_vt. cbn [CoalModel.vt]. apply (C98_ice_positive env (ijk id) (ice_a id) A1 P). intros _. lra.
  Qed.
End Update.
Print Assumptions C98_all.

(** With the factor of altitude, too, Beard 1977 lets larger droplets fall faster in the same cell, from 10 nm to 20 um, in any air. *)
Theorem C98_larger_faster_77_partial :
  forall env c w1 w2, some_air (env c) -> 0 < w1 < w2 -> 1 / 100000000 <= sqrt w1 -> sqrt w2 <= 20 / 1000000 ->
    liquid MotionModel.Beard77 env c w1 < liquid MotionModel.Beard77 env c w2.
Proof.
  intros env c w1 w2 (HT & Hp & [Hr _] & He) [P W] A B. unfold liquid, MotionModel.vt_liquid.
  assert (R12 : sqrt w1 < sqrt w2) by (apply sqrt_lt_1; lra).
  set (r1 := sqrt w1) in *. set (r2 := sqrt w2) in *. clearbody r1 r2.
  set (p := a_p (env c)) in *. set (rh := a_rhod (env c)) in *. set (eta := a_eta (env c)) in *. clearbody p rh eta.
  unfold vt_beard77_fact. replace (Rleb r1 (20 / 1000000)) with true by (symmetry; apply Rleb_true; lra).
  replace (Rleb r2 (20 / 1000000)) with true by (symmetry; apply Rleb_true; lra). cbv zeta.
  assert (P0 : 0 < eta_0) by (unfold eta_0; lra). assert (L0 : 0 < l_0) by (unfold l_0; lra).
  set (l := l_0 * (eta / eta_0) * sqrt (p_stp / p * rho_stp / rh)).
  assert (Q : 0 <= l).
  { unfold l. apply Rmult_le_pos; [|apply sqrt_pos]. apply Rmult_le_pos; [lra|]. left. now apply Rdiv_lt_0_compat. }
  clearbody l. set (k := 1255 / 1000).
  assert (K0 : 0 < k) by (unfold k; lra). clearbody k.
  assert (F : forall r, 0 < r -> eta_0 / eta * (1 + k * (l / r)) / (1 + k * (l_0 / r)) = eta_0 / eta * ((r + k * l) / (r + k * l_0))).
  { intros r R. assert (0 < k * l_0) by nra. field. lra. }
  rewrite !F by lra. rewrite !v0_s by lra.
  set (x1 := ln (2 * 100 * r1)). set (x2 := ln (2 * 100 * r2)).
  assert (X12 : x1 < x2) by (apply ln_increasing; lra).
  assert (X0 := ln_x0). assert (Xh : x2 <= - (5518 / 1000)) by (apply Rle_trans with (ln (4 / 1000)); [apply ln_mono; lra|lra]).
  assert (Xl : - (132 / 10) <= x1).
  { apply Rle_trans with (ln (2 / 1000000)); [|apply ln_mono; lra]. apply ln_below; [lra|].
    assert (H := below_exp_ok 12 (500000 # 1) (132 # 10) ltac:(vm_compute; reflexivity)).
    replace (Q2R (500000 # 1)) with (/ (2 / 1000000)) in H by q2r. replace (Q2R (132 # 10)) with (- - (132 / 10)) in H by q2r. exact H. }
  destruct (ev_mvt qs x1 x2 1 2) as [U _]; [lra| |].
  { intros z Z. split; [|apply ds_range; lra].
    assert (H := ltac:(vm_compute; reflexivity) : above 78 (-132 # 10)%Q (5 # 100)%Q (1 # 1)%Q (der qs) = true).
    apply (above_ok 78 (-132 # 10)%Q (5 # 100)%Q (1 # 1)%Q (der qs) z) in H; [|unfold Q2R; cbn [Qnum Qden INR]; lra|lia].
    eapply Rle_trans; [|exact H]. q2r. }
  (* the sea-level speed grows at least as fast as the radius *)
  assert (E : exp (ev qs x1) * r2 <= exp (ev qs x2) * r1).
  { assert (E1 : exp x1 = 2 * 100 * r1) by (apply exp_ln; lra). assert (E2 : exp x2 = 2 * 100 * r2) by (apply exp_ln; lra).
    assert (E3 : exp (ev qs x1) * exp x2 <= exp (ev qs x2) * exp x1).
    { rewrite <- !exp_plus. destruct (Rle_lt_or_eq_dec (ev qs x1 + x2) (ev qs x2 + x1)) as [H|H]; [lra|left; now apply exp_increasing|rewrite H; lra]. }
    rewrite E1, E2 in E3. lra. }
  assert (N1 := exp_pos (ev qs x1)). assert (N2 := exp_pos (ev qs x2)).
  set (v1 := exp (ev qs x1)) in *. set (v2 := exp (ev qs x2)) in *. clearbody v1 v2 x1 x2.
  assert (C : 0 < eta_0 / eta) by now apply Rdiv_lt_0_compat. set (cc := eta_0 / eta) in *. clearbody cc.
  set (a := k * l). set (b := k * l_0). assert (Aa : 0 <= a) by (unfold a; nra). assert (Bb : 0 < b) by (unfold b; nra). clearbody a b.
  assert (G : (r1 + a) / (r1 + b) * v1 < (r2 + a) / (r2 + b) * v2).
  { apply (Rmult_lt_reg_r ((r1 + b) * (r2 + b))); [nra|].
    replace ((r1 + a) / (r1 + b) * v1 * ((r1 + b) * (r2 + b))) with ((r1 + a) * v1 * (r2 + b)) by (field; lra).
    replace ((r2 + a) / (r2 + b) * v2 * ((r1 + b) * (r2 + b))) with ((r2 + a) * v2 * (r1 + b)) by (field; lra).
    clear - N1 N2 Aa Bb A R12 E.
    assert (V0 : v1 * r1 < v1 * r2) by (apply Rmult_lt_compat_l; lra).
    assert (V : v1 < v2) by (apply (Rmult_lt_reg_r r1); lra).
    assert (M2 : v1 * (r2 + b) < v2 * (r1 + b)).
    { assert (v1 * b < v2 * b) by (apply Rmult_lt_compat_r; lra). lra. }
    assert (M3 : 0 < v2 * (r1 + b)) by (apply Rmult_lt_0_compat; lra).
    apply Rlt_le_trans with ((r1 + a) * (v2 * (r1 + b))); [rewrite Rmult_assoc; apply Rmult_lt_compat_l; lra|].
    rewrite (Rmult_assoc (r2 + a)). apply Rmult_le_compat_r; lra. }
  replace (cc * ((r1 + a) / (r1 + b)) * (v1 / 100)) with (cc / 100 * ((r1 + a) / (r1 + b) * v1)) by (field; lra).
  replace (cc * ((r2 + a) / (r2 + b)) * (v2 / 100)) with (cc / 100 * ((r2 + a) / (r2 + b) * v2)) by (field; lra).
  apply Rmult_lt_compat_l; [lra|exact G].
Qed.
Print Assumptions C98_larger_faster_77_partial.

(** air of the model exists, and two droplets in it *)
Theorem C98_air_instance :
  let a := {| a_T := 280; a_p := 90000; a_rhod := 11 / 10; a_eta := visc 280 |} in
  model_air a /\
  liquid MotionModel.Beard77 (fun _ => a) 0 (1 / 1000000000000) < liquid MotionModel.Beard77 (fun _ => a) 0 (1 / 10000000000).
Proof.
  intros a. assert (M : model_air a) by (unfold model_air, a; cbn; lra). split; [exact M|].
  assert (S1 : sqrt (1 / 1000000000000) = 1 / 1000000) by (rewrite <- (sqrt_square (1 / 1000000)) by lra; f_equal; lra).
  assert (S2 : sqrt (1 / 10000000000) = 1 / 100000) by (rewrite <- (sqrt_square (1 / 100000)) by lra; f_equal; lra).
  apply C98_larger_faster_77_partial; [now apply model_air_some|lra|rewrite S1; lra|rewrite S2; lra].
Qed.
Print Assumptions C98_air_instance.
