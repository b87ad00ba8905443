(** C18: a condensation substep of a droplet; C51: the sign of its growth rate; C52: ice. *)
From Coq Require Import Reals Ranalysis5 List NArith ZArith Bool Lra Lia Psatz.
From Verif Require Import Base BaseProofs ThermoModel TomsModel TomsProps CondModel.
Import ListNotations.
Local Open Scope R_scope.

(** ** specification *)
(** square of the dry radius *)
Definition dry2 (rd3 : R) : R := cbrt rd3 * cbrt rd3.
(** admissible constants (in the code: multiplier 2, 100 iterations) *)
Definition cfg_ok (k : ccfg) : Prop :=
  fp_ok (k_fp k) /\ 1 <= k_mlt k /\ (1 <= k_niter k < Z.to_N W64)%N.
(** the constants of the code: config.hpp *)
Definition cfg_double : ccfg := {| k_fp := fp_double; k_bits := 8 * 8 / 4; k_mlt := 2; k_niter := 100 |}.
Lemma cfg_double_ok : cfg_ok cfg_double.
Proof. split; [apply fp_double_ok|split; [cbn; lra|split; [discriminate|reflexivity]]]. Qed.

(** the bracket that is searched: between the old value and the old value plus a multiple of the
    explicit increment, limited from below by the dry size *)
Definition lo (mlt rd3 old inc : R) : R := Rmax (dry2 rd3) (old + Rmin 0 (mlt * inc)).
Definition hi (mlt old inc : R) : R := old + Rmax 0 (mlt * inc).

Lemma advance_cases k rate rd3 dt old : cfg_ok k -> 0 < old -> dry2 rd3 <= old ->
  let inc := dt * rate old in
  let f := fun x => old + dt * rate x - x in
  let new := advance_rw2_rate k true rate rd3 dt old in
  let A := lo (k_mlt k) rd3 old inc in
  let B := hi (k_mlt k) old inc in
  (inc = 0 /\ new = old) \/
  (inc < 0 /\ old = dry2 rd3 /\ new = old) \/
  (inc <> 0 /\ A < B /\ 0 < f A * f B /\ new = Rmax (dry2 rd3) (old + inc)) \/
  (inc <> 0 /\ A < B /\ f A * f B <= 0 /\ dry2 rd3 <= new /\
   exists it evs, toms748_solve (k_fp k) f A B (f A) (f B) (eps_tolerance (k_fp k) (k_bits k)) (k_niter k)
                  = Some (new, it, evs)).
Proof.
  intros (Hfp & Hm & Hn) Hold Hdry inc f new A B.
  subst new. unfold advance_rw2_rate.
  replace (Rleb old 0) with false by (symmetry; apply Rleb_false; exact Hold).
  fold inc. destruct (Reqb inc 0) eqn:E0; [apply Reqb_true in E0; left; auto|].
  apply Reqb_false in E0. right.
  rewrite !cmin_Rmin, !cmax_Rmax. fold (dry2 rd3).
  fold (lo (k_mlt k) rd3 old inc). fold (hi (k_mlt k) old inc). fold A. fold B.
  change (minfun rate dt old) with f.
  assert (Hpos : 0 < inc -> A = old /\ B = old + k_mlt k * inc /\ old < B).
  { intros H. unfold A, B, lo, hi. assert (0 < k_mlt k * inc) by nra.
    rewrite Rmin_left, Rmax_right, Rmax_right by lra. lra. }
  assert (Hneg : inc < 0 -> B = old /\ A = Rmax (dry2 rd3) (old + k_mlt k * inc) /\ A <= old /\
                            (old <> dry2 rd3 -> A < old)).
  { intros H. unfold A, B, lo, hi. assert (k_mlt k * inc < 0) by nra.
    rewrite (Rmin_right 0), (Rmax_left 0) by lra.
    split; [lra|split; [reflexivity|]]. unfold Rmax; destruct Rle_dec; split; try lra. }
  assert (Fold : f old = inc) by (unfold f, inc; lra).
  destruct (Rtotal_order inc 0) as [Hi|[Hi|Hi]]; [|contradiction|].
  - destruct (Hneg Hi) as (HB & HA & HAB & HAB').
    destruct (Reqb A B) eqn:E1.
    + left. apply Reqb_true in E1. split; [exact Hi|split; [|reflexivity]].
      destruct (Req_dec old (dry2 rd3)) as [H|H]; [exact H|]. specialize (HAB' H). lra.
    + apply Reqb_false in E1. right.
      replace (Rltb 0 inc) with false by (symmetry; apply Rltb_false; lra).
      assert (Hlt : A < B) by lra.
      assert (Hfb : inc = f B) by (rewrite HB; auto).
      replace (f A * inc) with (f A * f B) by (rewrite <- Hfb; reflexivity).
      replace (toms748_solve (k_fp k) f A B (f A) inc (eps_tolerance (k_fp k) (k_bits k)) (k_niter k))
        with (toms748_solve (k_fp k) f A B (f A) (f B) (eps_tolerance (k_fp k) (k_bits k)) (k_niter k))
        by (rewrite <- Hfb; reflexivity).
      destruct (Rltb 0 (f A * f B)) eqn:E2.
      * left. apply Rltb_true in E2. split; [exact E0|split; [exact Hlt|split; [exact E2|]]].
        destruct (Rltb (old + inc) (dry2 rd3)) eqn:E3.
        -- apply Rltb_true in E3. rewrite Rmax_left; lra.
        -- apply Rltb_false in E3. rewrite Rmax_right; lra.
      * right. apply Rltb_false in E2.
        split; [exact E0|split; [exact Hlt|split; [exact E2|]]].
        destruct (C19_root (k_fp k) f A B (k_bits k) (k_niter k) Hfp Hlt E2 Hn)
          as (r & it & evs & E & Hr & _).
        rewrite E.
        assert (dry2 rd3 <= A) by (rewrite HA; apply Rmax_l).
        replace (Rltb r (dry2 rd3)) with false by (symmetry; apply Rltb_false; lra).
        split; [lra|exists it, evs; reflexivity].
  - destruct (Hpos Hi) as (HA & HB & HAB).
    replace (Reqb A B) with false by (symmetry; apply Reqb_false; lra).
    right. replace (Rltb 0 inc) with true by (symmetry; apply Rltb_true; exact Hi).
    assert (Hlt : A < B) by lra.
    assert (Hfa : inc = f A) by (rewrite HA; auto).
    replace (inc * f B) with (f A * f B) by (rewrite <- Hfa; reflexivity).
    replace (toms748_solve (k_fp k) f A B inc (f B) (eps_tolerance (k_fp k) (k_bits k)) (k_niter k))
      with (toms748_solve (k_fp k) f A B (f A) (f B) (eps_tolerance (k_fp k) (k_bits k)) (k_niter k))
      by (rewrite <- Hfa; reflexivity).
    destruct (Rltb 0 (f A * f B)) eqn:E2.
    + left. apply Rltb_true in E2. split; [exact E0|split; [exact Hlt|split; [exact E2|]]].
      replace (Rltb (old + inc) (dry2 rd3)) with false by (symmetry; apply Rltb_false; lra).
      rewrite Rmax_right; lra.
    + right. apply Rltb_false in E2.
      split; [exact E0|split; [exact Hlt|split; [exact E2|]]].
      destruct (C19_root (k_fp k) f A B (k_bits k) (k_niter k) Hfp Hlt E2 Hn)
        as (r & it & evs & E & Hr & _).
      rewrite E.
      replace (Rltb r (dry2 rd3)) with false by (symmetry; apply Rltb_false; lra).
      split; [lra|exists it, evs; reflexivity].
Qed.

(** C18, main statement: for every growth rate, time step and droplet not smaller than its dry size,
    a substep of condensation leaves it not smaller than its dry size; it grows (strictly) if the
    rate is positive, shrinks (strictly, unless it is at its dry size) if the rate is negative, and
    is unchanged if the rate is zero; the change is at most [k_mlt] times the explicit Euler
    increment. *)
Theorem C18_substep k rate rd3 dt old : cfg_ok k -> 0 < old -> dry2 rd3 <= old ->
  let inc := dt * rate old in
  let new := advance_rw2_rate k true rate rd3 dt old in
  dry2 rd3 <= new /\
  (0 < inc -> old < new) /\
  (inc < 0 -> new <= old /\ (new = old <-> old = dry2 rd3)) /\
  (inc = 0 -> new = old) /\
  Rabs (new - old) <= k_mlt k * Rabs inc.
Proof.
  intros Hk Hold Hdry inc new.
  destruct (advance_cases k rate rd3 dt old Hk Hold Hdry) as [C|[C|[C|C]]]; fold inc in C; fold new in C.
  - destruct C as [C1 C2]. rewrite C2, C1. destruct Hk as (_ & Hm & _).
    replace (old - old) with 0 by lra. rewrite Rabs_R0. repeat split; lra.
  - destruct C as (C1 & C2 & C3). rewrite C3. destruct Hk as (_ & Hm & _).
    replace (old - old) with 0 by lra. rewrite Rabs_R0. pose proof (Rabs_pos inc).
    repeat split; try lra. nra.
  - destruct C as (C1 & C2 & C3 & C4). rewrite C4. destruct Hk as (_ & Hm & _).
    split; [apply Rmax_l|].
    assert (Hmax : Rmax (dry2 rd3) (old + inc) = dry2 rd3 /\ old + inc <= dry2 rd3 \/
                   Rmax (dry2 rd3) (old + inc) = old + inc /\ dry2 rd3 < old + inc).
    { unfold Rmax; destruct Rle_dec; lra. }
    split; [intros; lra|].
    split; [intros; split; [lra|split; intros; lra]|].
    split; [intros; contradiction|].
    assert (Rabs (Rmax (dry2 rd3) (old + inc) - old) <= Rabs inc).
    { unfold Rabs; repeat destruct Rcase_abs; lra. }
    pose proof (Rabs_pos inc). nra.
  - destruct C as (C1 & C2 & C3 & C4 & it & evs & C5).
    destruct Hk as (Hfp & Hm & Hn).
    destruct (C19_root (k_fp k) (fun x => old + dt * rate x - x) _ _ (k_bits k) _ Hfp C2 C3 Hn) as (r & it' & evs' & E & Hr & _ & _ & _ & O).
    rewrite C5 in E. injection E as <- <- <-.
    set (A := lo (k_mlt k) rd3 old inc) in *. set (B := hi (k_mlt k) old inc) in *.
    set (f := fun x => old + dt * rate x - x) in *.
    assert (Fold : f old = inc) by (unfold f, inc; lra).
    assert (Hstrict : f A <> 0 -> f B <> 0 -> A < new < B).
    { intros Ha Hb. destruct O as [O|(a & b & (O1 & O2 & O3 & O4) & O5 & _)]; [|lra].
      destruct Hr as [Hr1 Hr2]. split.
      - destruct (Req_dec A new) as [HH|HH]; [|lra]. rewrite <- HH in O. contradiction.
      - destruct (Req_dec B new) as [HH|HH]; [|lra]. rewrite <- HH in O. contradiction. }
    assert (HneA : f A <> 0 -> A < new).
    { intros Ha. destruct O as [O|(a & b & (O1 & O2 & O3 & O4) & O5 & _)]; [|lra].
      destruct (Req_dec A new) as [HH|HH]; [|lra]. rewrite <- HH in O. contradiction. }
    assert (HneB : f B <> 0 -> new < B).
    { intros Ha. destruct O as [O|(a & b & (O1 & O2 & O3 & O4) & O5 & _)]; [|lra].
      destruct (Req_dec B new) as [HH|HH]; [|lra]. rewrite <- HH in O. contradiction. }
    clear Hstrict O.
    destruct (Rtotal_order inc 0) as [Hi|[Hi|Hi]]; [|contradiction|].
    + assert (HB : B = old).
      { unfold B, hi. assert (k_mlt k * inc < 0) by nra. rewrite Rmax_left; lra. }
      assert (HA : old + k_mlt k * inc <= A).
      { unfold A, lo. assert (k_mlt k * inc < 0) by nra. rewrite (Rmin_right 0) by lra. apply Rmax_r. }
      rewrite HB in HneB. rewrite Fold in HneB. specialize (HneB C1).
      split; [exact C4|split; [lra|split; [intros; split; [lra|split; intros; lra]|split; [lra|]]]].
      rewrite (Rabs_left (new - old)), (Rabs_left inc) by lra. lra.
    + assert (HA : A = old).
      { unfold A, lo. assert (0 < k_mlt k * inc) by nra. rewrite (Rmin_left 0), Rmax_right; lra. }
      assert (HB : B = old + k_mlt k * inc).
      { unfold B, hi. assert (0 < k_mlt k * inc) by nra. rewrite Rmax_right; lra. }
      rewrite HA in HneA. rewrite Fold in HneA. specialize (HneA C1).
      split; [exact C4|split; [intros; lra|split; [lra|split; [lra|]]]].
      rewrite (Rabs_right (new - old)), (Rabs_right inc) by lra. lra.
Qed.

(** C18, accuracy of the implicit scheme (constants of the code, double precision): if the rate is
    continuous, the new value is the explicit Euler value (limited by the dry size; only when the
    search interval has no sign change) or it approximates, to a relative error of 2^-16, an exact
    solution [z] of the backward Euler equation [z = old + dt * rate z] in the search interval. *)
Theorem C18_backward_euler rate rd3 dt old :
  0 < old -> 0 < rd3 -> dry2 rd3 <= old ->
  (forall x, 0 < x -> continuity_pt rate x) ->
  let inc := dt * rate old in
  let new := advance_rw2_rate cfg_double true rate rd3 dt old in
  let A := Rmax (dry2 rd3) (old + Rmin 0 (2 * inc)) in
  let B := old + Rmax 0 (2 * inc) in
  inc <> 0 -> A < B <= 257 * A ->
  (0 < (old + dt * rate A - A) * (old + dt * rate B - B) /\ new = Rmax (dry2 rd3) (old + inc)) \/
  exists z, A <= z <= B /\ z = old + dt * rate z /\ Rabs (new - z) <= / 2 ^ 16 * z.
Proof.
  intros Hold Hrd Hdry Hc inc new A B Hi HAB.
  destruct (advance_cases cfg_double rate rd3 dt old cfg_double_ok Hold Hdry) as [C|[C|[C|C]]];
    fold inc in C; fold new in C;
    change (lo (k_mlt cfg_double) rd3 old inc) with A in C;
    change (hi (k_mlt cfg_double) old inc) with B in C.
  - destruct C as [C1 _]. contradiction.
  - destruct C as (C1 & C2 & C3). exfalso.
    assert (A = old).
    { unfold A. rewrite (Rmin_right 0) by lra. rewrite <- C2. rewrite Rmax_left; lra. }
    assert (B = old) by (unfold B; rewrite (Rmax_left 0); lra). lra.
  - left. destruct C as (_ & _ & C3 & C4). auto.
  - right. destruct C as (_ & C2 & C3 & C4 & it & evs & C5).
    assert (Hd : 0 < dry2 rd3).
    { unfold dry2. destruct (cbrt_cube_nonneg rd3) as [H1 H2]; [lra|].
      assert (cbrt rd3 <> 0) by (intros E; rewrite E in H2; lra). nra. }
    assert (HA : 0 < A) by (unfold A; pose proof (Rmax_l (dry2 rd3) (old + Rmin 0 (2 * inc))); lra).
    set (f := fun x => old + dt * rate x - x) in *.
    destruct (C19_accuracy fp_double f A B (8 * 8 / 4) 100 24) as (r & it' & evs' & z & E & Z1 & Z2 & Z3).
    + apply fp_double_ok.
    + exact HA.
    + lra.
    + exact C3.
    + reflexivity.
    + discriminate.
    + rewrite toms_default_tol. generalize pow24_bound; generalize ((1 / 2 + 2 * feps fp_double) ^ 24); intros q24 H24.
      nra.
    + intros x Hx. unfold f. apply continuity_pt_minus.
      * apply continuity_pt_plus; [apply continuity_pt_const; intros ? ?; reflexivity|].
        apply continuity_pt_mult; [apply continuity_pt_const; intros ? ?; reflexivity|apply Hc; lra].
      * apply derivable_continuous_pt, derivable_pt_id.
    + change (k_fp cfg_double) with fp_double in C5. change (k_bits cfg_double) with (8 * 8 / 4)%nat in C5.
      change (k_niter cfg_double) with 100%N in C5.
      pose proof (eq_trans (eq_sym C5) E) as E2. injection E2 as <- <- <-.
      exists z. split; [exact Z1|split; [unfold f in Z2; lra|]].
      rewrite toms_default_tol in Z3. lra.
Qed.

(** C18, the variant that returns the increment instead of applying it, and particles without
    liquid water *)
Theorem C18_variants k rate rd3 dt old :
  (0 < old -> advance_rw2_rate k false rate rd3 dt old = advance_rw2_rate k true rate rd3 dt old - old) /\
  (old <= 0 -> advance_rw2_rate k true rate rd3 dt old = old) /\
  (old = 0 -> advance_rw2_rate k false rate rd3 dt old = 0).
Proof.
  unfold advance_rw2_rate. split; [|split]; intros H.
  - replace (Rleb old 0) with false by (symmetry; apply Rleb_false; exact H).
    destruct (Reqb (dt * rate old) 0); [lra|].
    destruct (Reqb _ _); [lra|]. reflexivity.
  - replace (Rleb old 0) with true by (symmetry; apply Rleb_true; exact H). reflexivity.
  - replace (Rleb old 0) with true by (symmetry; apply Rleb_true; lra). exact H.
Qed.

(** ** C51: the sign of the growth rate *)

(** the ambient relative humidity, limited to RH_max *)
Definition ambient_RH (e : cenv) : R := Rmin (c_RH e) (c_RH_max e).
Lemma RH_lim_min e : RH_lim e = ambient_RH e.
Proof.
  unfold RH_lim, ambient_RH. destruct (Rltb (c_RH_max e) (c_RH e)) eqn:E.
  - apply Rltb_true in E. rewrite Rmin_right; lra.
  - apply Rltb_false in E. rewrite Rmin_left; lra.
Qed.
(** the ambient state is physical and the particle does not fall upwards *)
Definition env_ok (e : cenv) : Prop :=
  0 < c_rhod e /\ 0 < c_rv e /\ 0 < c_T e <= 1000 /\ 0 < c_eta e /\ 0 < ambient_RH e /\
  0 <= c_lambda_D e /\ 0 <= c_lambda_K e.
(** saturation ratio over the surface of a solution droplet: water activity times Kelvin term *)
Definition koehler_S (rw rd3 kappa T : R) : R :=
  (rw ^ 3 - rd3) / (rw ^ 3 - rd3 * (1 - kappa)) * exp (kelvin_A T / rw).

Lemma cbrt_ge_1 x : 1 <= x -> 1 <= cbrt x.
Proof.
  intros H. unfold cbrt. destruct Rlt_dec; [|lra].
  destruct H as [H|H]; [|rewrite <- H; rewrite Rpower_pow1 || idtac].
  - rewrite <- (Rpower_O x) at 1 by lra. left. apply Rpower_lt; lra.
  - right. unfold Rpower. rewrite ln_1, Rmult_0_r, exp_0. reflexivity.
Qed.

Theorem C51_ventilation Pr Re : 0 <= Pr -> 0 <= Re -> 2 <= Nu Pr Re /\ (Re = 0 -> Nu Pr Re = 2).
Proof.
  intros HP HR. unfold Nu. rewrite cmax_Rmax. split.
  - assert (1 <= cbrt (1 + Re * Pr)) by (apply cbrt_ge_1; nra).
    pose proof (Rmax_l 1 (cpow Re (77 / 1000))). nra.
  - intros ->. rewrite Rmult_0_l, Rplus_0_r.
    unfold cpow. destruct (Rlt_dec 0 0); [lra|]. destruct (Req_EM_T (77 / 1000) 0); [lra|].
    rewrite Rmax_left by lra. unfold cbrt. destruct Rlt_dec; [|lra].
    unfold Rpower. rewrite ln_1, Rmult_0_r, exp_0. lra.
Qed.

Lemma beta_pos Kn : 0 <= Kn -> 0 < beta Kn.
Proof. intros H. unfold beta. apply Rdiv_lt_0_compat; nra. Qed.

Lemma R_v_pos : 0 < R_v.
Proof. unfold R_v, kaBoNA, M_v, M_H, M_OH. lra. Qed.
Lemma R_v_val : 461 < R_v < 462.
Proof. unfold R_v, kaBoNA, M_v, M_H, M_OH. lra. Qed.

Lemma eff_pos e rw : env_ok e -> 0 <= c_vt e -> 0 < rw -> 0 < eff_D e rw /\ 0 < eff_K e rw.
Proof.
  intros (H1 & H2 & H3 & H4 & H5 & H6 & H7) Hv Hr. unfold eff_D, eff_K, Sh.
  set (Re := Reyn (c_vt e) rw (c_rhod e) (c_eta e)).
  assert (0 <= Re).
  { unfold Re, Reyn. apply Rmult_le_pos; [|left; apply Rinv_0_lt_compat; exact H4].
    apply Rmult_le_pos; [|lra]. apply Rmult_le_pos; lra. }
  assert (0 <= Schm (c_eta e) (c_rhod e) D_0).
  { unfold Schm, D_0. apply Rmult_le_pos; [|left; apply Rinv_0_lt_compat; lra].
    apply Rmult_le_pos; [lra|left; apply Rinv_0_lt_compat; lra]. }
  assert (0 <= Prandtl (c_eta e) c_pd K_0).
  { unfold Prandtl, K_0, c_pd. apply Rmult_le_pos; [lra|left; apply Rinv_0_lt_compat; lra]. }
  destruct (C51_ventilation (Schm (c_eta e) (c_rhod e) D_0) Re) as [N1 _]; [assumption..|].
  destruct (C51_ventilation (Prandtl (c_eta e) c_pd K_0) Re) as [N2 _]; [assumption..|].
  assert (B1 : 0 < beta (c_lambda_D e / rw)).
  { apply beta_pos, Rmult_le_pos; [lra|left; apply Rinv_0_lt_compat; lra]. }
  assert (B2 : 0 < beta (c_lambda_K e / rw)).
  { apply beta_pos, Rmult_le_pos; [lra|left; apply Rinv_0_lt_compat; lra]. }
  split; (apply Rmult_lt_0_compat; [apply Rmult_lt_0_compat; [unfold D_0, K_0; lra|assumption]|lra]).
Qed.

Lemma growth_resistance D K rho T RH l : 0 < D -> 0 < K -> 0 < rho -> 0 < T -> 0 < RH -> R_v * T < l ->
  0 < 1 / D / rho + l / K / RH / T * (l / R_v / T - 1).
Proof.
  intros HD HK Hr HT HR Hl. pose proof R_v_pos as HRv.
  apply Rplus_lt_0_compat.
  - unfold Rdiv. rewrite Rmult_1_l. apply Rmult_lt_0_compat; apply Rinv_0_lt_compat; assumption.
  - assert (0 < R_v * T) by (apply Rmult_lt_0_compat; assumption).
    apply Rmult_lt_0_compat.
    + unfold Rdiv. repeat apply Rmult_lt_0_compat; try (apply Rinv_0_lt_compat; assumption). lra.
    + replace (l / R_v / T) with (l / (R_v * T)) by (field; lra).
      assert (1 < l / (R_v * T)); [|lra].
      apply (Rmult_lt_reg_r (R_v * T)); [assumption|].
      unfold Rdiv. rewrite Rmult_assoc, Rinv_l by lra. lra.
Qed.

Lemma l_v_large T : 0 < T <= 1000 -> R_v * T < l_v T.
Proof. intros H. pose proof R_v_val. unfold l_v, l_tri, c_pv, c_pw, T_tri. nra. Qed.
Lemma l_s_large T : 0 < T <= 1000 -> R_v * T < l_s T.
Proof. intros H. pose proof R_v_val. unfold l_s, ls_tri, c_pv, c_pi, T_tri. nra. Qed.

Lemma sign_of_quotient x d : 0 < d -> (0 < x / d <-> 0 < x) /\ (x / d < 0 <-> x < 0) /\ (x / d = 0 <-> x = 0).
Proof.
  intros Hd. assert (Hi : 0 < / d) by (apply Rinv_0_lt_compat; exact Hd). unfold Rdiv.
  assert (Hx : x = x * / d * d) by (rewrite Rmult_assoc, Rinv_l; lra).
  split; [|split]; split; intros H; try nra.
Qed.

Lemma ratio_sign i h s : 0 < h -> s = i * h ->
  (0 < 1 - i <-> s < h) /\ (1 - i < 0 <-> h < s) /\ (1 - i = 0 <-> h = s).
Proof.
  intros Hh ->. split; [|split]; split; intros H.
  - nra.
  - destruct (Rle_lt_dec 1 i); [nra|lra].
  - nra.
  - destruct (Rle_lt_dec i 1); [nra|lra].
  - replace i with 1 by lra. lra.
  - assert (i = 1); [|lra]. apply (Rmult_eq_reg_r h); lra.
Qed.

(** C51: the growth rate of a droplet that does not fall upwards is positive, zero or negative
    according to whether the (limited) ambient relative humidity is above, at or below the
    equilibrium saturation ratio over its surface (kappa-Koehler). *)
Theorem C51_growth_sign e rw : env_ok e -> 0 <= c_vt e -> 0 < rw ->
  let S := koehler_S rw (c_rd3 e) (c_kpa e) (c_T e) in
  (0 < drw2_dt e (rw * rw) <-> S < ambient_RH e) /\
  (drw2_dt e (rw * rw) < 0 <-> ambient_RH e < S) /\
  (drw2_dt e (rw * rw) = 0 <-> ambient_RH e = S).
Proof.
  intros He Hv Hr S. destruct (eff_pos e rw He Hv Hr) as [HD HK].
  destruct He as (H1 & H2 & H3 & H4 & H5 & H6 & H7).
  unfold drw2_dt. rewrite RH_lim_min, sqrt_square by lra. unfold rdrdt.
  assert (Hres : 0 < 1 / eff_D e rw / (c_rhod e * c_rv e) +
     l_v (c_T e) / eff_K e rw / ambient_RH e / c_T e * (l_v (c_T e) / R_v / c_T e - 1)).
  { apply growth_resistance; try assumption; try lra.
    - apply Rmult_lt_0_compat; assumption.
    - apply l_v_large; exact H3. }
  set (Q := 1 / eff_D e rw / (c_rhod e * c_rv e) +
     l_v (c_T e) / eff_K e rw / ambient_RH e / c_T e * (l_v (c_T e) / R_v / c_T e - 1)) in *.
  clearbody Q.
  replace (a_w (rw * rw * rw) (c_rd3 e) (c_kpa e) * klvntrm rw (c_T e)) with S.
  2:{ unfold S, koehler_S, a_w, klvntrm. replace (rw ^ 3) with (rw * rw * rw) by ring. reflexivity. }
  destruct (sign_of_quotient ((1 - S / ambient_RH e) / rho_w) Q Hres) as (A1 & A2 & A3).
  destruct (sign_of_quotient (1 - S / ambient_RH e) rho_w ltac:(unfold rho_w; lra)) as (B1 & B2 & B3).
  assert (HS : S = S / ambient_RH e * ambient_RH e) by (unfold Rdiv; rewrite Rmult_assoc, Rinv_l; lra).
  set (q := (1 - S / ambient_RH e) / rho_w / Q) in *.
  destruct (ratio_sign _ _ _ H5 HS) as (C1 & C2 & C3).
  assert (D1 : 0 < 2 * q <-> 0 < q) by (split; intros; lra).
  assert (D2 : 2 * q < 0 <-> q < 0) by (split; intros; lra).
  assert (D3 : 2 * q = 0 <-> q = 0) by (split; intros; lra).
  split; [rewrite D1, A1, B1; exact C1|split; [rewrite D2, A2, B2; exact C2|rewrite D3, A3, B3; exact C3]].
Qed.

(** C51 at the level of the substep: with a positive time step the droplet grows iff the air is more
    humid than its surface, shrinks iff it is less humid (unless at dry size), else stays. *)
Theorem C51_substep k e dt rw : cfg_ok k -> env_ok e -> 0 <= c_vt e -> 0 < dt -> 0 < rw ->
  dry2 (c_rd3 e) <= rw * rw ->
  let S := koehler_S rw (c_rd3 e) (c_kpa e) (c_T e) in
  let new := advance_rw2 k true e dt (rw * rw) in
  dry2 (c_rd3 e) <= new /\
  (S < ambient_RH e <-> rw * rw < new) /\
  (ambient_RH e < S /\ rw * rw <> dry2 (c_rd3 e) <-> new < rw * rw).
Proof.
  intros Hk He Hv Hdt Hr Hdry S new.
  destruct (C51_growth_sign e rw He Hv Hr) as (G1 & G2 & G3). fold S in G1, G2, G3.
  assert (Hold : 0 < rw * rw) by nra.
  destruct (C18_substep k (drw2_dt e) (c_rd3 e) dt (rw * rw) Hk Hold Hdry) as (P1 & P2 & P3 & P4 & _).
  fold (advance_rw2 k true e dt (rw * rw)) in P1, P2, P3, P4. fold new in P1, P2, P3, P4.
  split; [exact P1|].
  destruct (Rtotal_order (drw2_dt e (rw * rw)) 0) as [H|[H|H]].
  - assert (HS : ambient_RH e < S) by tauto.
    assert (dt * drw2_dt e (rw * rw) < 0) by nra. destruct P3 as [P3 P3']; [assumption|].
    split; [split; intros; lra|]. split; intros Hx.
    + assert (new <> rw * rw) by (intros E; apply P3' in E; tauto). lra.
    + split; [exact HS|]. intros E. apply P3' in E. lra.
  - assert (HS : ambient_RH e = S) by tauto.
    assert (new = rw * rw) by (apply P4; rewrite H; lra).
    split; split; intros Hx; try lra.
  - assert (HS : S < ambient_RH e) by tauto.
    assert (0 < dt * drw2_dt e (rw * rw)) by nra. specialize (P2 ltac:(assumption)).
    split; split; intros Hx; lra.
Qed.

(** Refuted for the invalid fall speed -1 that collisions leave behind (C41): the ventilation
    coefficients of a large drop become negative and the drop evaporates in supersaturated air. *)
Definition env_falling (vt : R) : cenv :=
  {| c_rhod := 12 / 10; c_rv := 1 / 100; c_T := 290; c_eta := 18 / 1000000;
     c_rd3 := 1 / 10 ^ 21; c_kpa := 1; c_vt := vt; c_p := 100000; c_RH := 105 / 100; c_RH_max := 44;
     c_lambda_D := 1 / 10 ^ 7; c_lambda_K := 1 / 10 ^ 7 |}.

Lemma env_falling_ok vt : env_ok (env_falling vt).
Proof.
  unfold env_ok, ambient_RH; cbn [env_falling c_rhod c_rv c_T c_eta c_RH c_RH_max c_lambda_D c_lambda_K].
  rewrite Rmin_left by lra.
  assert (0 < 1 / 10 ^ 7) by lra. repeat split; lra.
Qed.
Lemma env_falling_RH vt : ambient_RH (env_falling vt) = 105 / 100.
Proof.
  unfold ambient_RH; cbn [env_falling c_RH c_RH_max]. apply Rmin_left; lra.
Qed.
Lemma env_falling_S vt : koehler_S (1 / 10 ^ 4) (c_rd3 (env_falling vt)) (c_kpa (env_falling vt))
                            (c_T (env_falling vt)) < 105 / 100.
Proof.
  unfold koehler_S; cbn [env_falling c_rd3 c_kpa c_T].
  set (rw3 := (1 / 10 ^ 4) ^ 3).
  assert (Hrw3 : rw3 = 1 / 10 ^ 12) by (unfold rw3; lra).
  assert (HA : 0 <= kelvin_A 290 / (1 / 10 ^ 4) <= 1 / 100).
  { unfold kelvin_A, sg_surf, rho_w. pose proof R_v_val as [V1 V2].
    assert (Hi : 0 < / R_v <= 1 / 461).
    { split; [apply Rinv_0_lt_compat; lra|]. replace (1 / 461) with (/ 461) by lra.
      apply Rinv_le_contravar; lra. }
    unfold Rdiv. lra. }
  assert (HE : exp (kelvin_A 290 / (1 / 10 ^ 4)) <= 100 / 99).
  { set (x := kelvin_A 290 / (1 / 10 ^ 4)) in *. clearbody x.
    pose proof (exp_ineq1_le (- x)) as H. rewrite exp_Ropp in H.
    pose proof (exp_pos x) as Hp.
    assert (99 / 100 <= / exp x) by lra.
    apply (Rmult_le_compat_r (exp x)) in H0; [|lra]. rewrite Rinv_l in H0; lra. }
  pose proof (exp_pos (kelvin_A 290 / (1 / 10 ^ 4))) as Hep.
  assert (HQ : 0 <= (rw3 - 1 / 10 ^ 21) / (rw3 - 1 / 10 ^ 21 * (1 - 1)) <= 1).
  { rewrite Hrw3. lra. }
  nra.
Qed.

Lemma Nu_negative Pr Re : 1 + Re * Pr < -1 -> Re < 0 -> Nu Pr Re < 0.
Proof.
  intros H HR. unfold Nu. rewrite cmax_Rmax. unfold cpow.
  destruct (Rlt_dec 0 Re); [lra|]. destruct (Req_EM_T (77 / 1000) 0); [lra|].
  rewrite Rmax_left by lra. unfold cbrt.
  destruct Rlt_dec; [lra|]. destruct Rlt_dec; [|lra].
  assert (1 < Rpower (- (1 + Re * Pr)) (/ 3)).
  { rewrite <- (Rpower_O (- (1 + Re * Pr))) at 1 by lra. apply Rpower_lt; lra. }
  lra.
Qed.

Theorem C51_invalid_fall_speed_refuted :
  let e := env_falling (-1) in
  let rw := 1 / 10 ^ 4 in
  env_ok e /\ dry2 (c_rd3 e) <= rw * rw /\
  koehler_S rw (c_rd3 e) (c_kpa e) (c_T e) < ambient_RH e /\
  (forall dt, 0 < dt -> advance_rw2 cfg_double true e dt (rw * rw) < rw * rw).
Proof.
  intros e rw. pose proof (env_falling_ok (-1)) as He. fold e in He.
  assert (Hdry : dry2 (c_rd3 e) < rw * rw).
  { unfold dry2, e; cbn [env_falling c_rd3].
    replace (cbrt (1 / 10 ^ 21)) with (1 / 10 ^ 7).
    - unfold rw. lra.
    - destruct (cbrt_cube_nonneg (1 / 10 ^ 21)) as [H1 H2]; [lra|].
      apply cube_inj; [lra|exact H1|]. rewrite H2. lra. }
  split; [exact He|split; [lra|split]].
  - unfold e, rw. rewrite env_falling_RH. apply env_falling_S.
  - intros dt Hdt.
    assert (Hold : 0 < rw * rw) by (unfold rw; lra).
    destruct (C18_substep cfg_double (drw2_dt e) (c_rd3 e) dt (rw * rw) cfg_double_ok Hold
                (Rlt_le _ _ Hdry)) as (_ & _ & P3 & _).
    fold (advance_rw2 cfg_double true e dt (rw * rw)) in P3.
    destruct P3 as [P3 P3'].
    2:{ assert (advance_rw2 cfg_double true e dt (rw * rw) <> rw * rw); [|lra].
        intros E. apply P3' in E. lra. }
    assert (Hneg : drw2_dt e (rw * rw) < 0); [|nra].
    unfold drw2_dt. rewrite RH_lim_min, sqrt_square by (unfold rw; lra). unfold rdrdt.
    assert (HRe : Reyn (c_vt e) rw (c_rhod e) (c_eta e) = - (40 / 3)).
    { unfold Reyn, e, rw; cbn [env_falling c_vt c_rhod c_eta]. lra. }
    assert (HD : eff_D e rw < 0).
    { unfold eff_D, Sh. rewrite HRe.
      assert (HN : Nu (Schm (c_eta e) (c_rhod e) D_0) (- (40 / 3)) < 0).
      { apply Nu_negative; [|lra]. unfold Schm, e, D_0; cbn [env_falling c_rhod c_eta]. lra. }
      assert (HB : 0 < beta (c_lambda_D e / rw)).
      { apply beta_pos. unfold e, rw; cbn [env_falling c_lambda_D]. lra. }
      assert (0 < D_0 * beta (c_lambda_D e / rw)) by (apply Rmult_lt_0_compat; [unfold D_0; lra|exact HB]).
      nra. }
    assert (HK : eff_K e rw < 0).
    { unfold eff_K. rewrite HRe.
      assert (HN : Nu (Prandtl (c_eta e) c_pd K_0) (- (40 / 3)) < 0).
      { apply Nu_negative; [|lra]. unfold Prandtl, e, K_0, c_pd; cbn [env_falling c_eta]. lra. }
      assert (HB : 0 < beta (c_lambda_K e / rw)).
      { apply beta_pos. unfold e, rw; cbn [env_falling c_lambda_K]. lra. }
      assert (0 < K_0 * beta (c_lambda_K e / rw)) by (apply Rmult_lt_0_compat; [unfold K_0; lra|exact HB]).
      nra. }
    pose proof (growth_resistance (- eff_D e rw) (- eff_K e rw) (c_rhod e * c_rv e) (c_T e) (ambient_RH e)
                  (l_v (c_T e))) as HR.
    assert (HR' : 1 / eff_D e rw / (c_rhod e * c_rv e) +
       l_v (c_T e) / eff_K e rw / ambient_RH e / c_T e * (l_v (c_T e) / R_v / c_T e - 1) < 0).
    { pose proof He as (H1 & H2 & H3 & H4 & H5 & _).
      specialize (HR ltac:(lra) ltac:(lra) ltac:(apply Rmult_lt_0_compat; assumption) ltac:(lra) H5
                     (l_v_large _ H3)).
      match type of HR with 0 < ?x => match goal with |- ?y < 0 => replace y with (- x); [lra|] end end.
      pose proof R_v_pos. field. repeat split; try lra. }
    set (Q := 1 / eff_D e rw / (c_rhod e * c_rv e) +
       l_v (c_T e) / eff_K e rw / ambient_RH e / c_T e * (l_v (c_T e) / R_v / c_T e - 1)) in *.
    clearbody Q.
    pose proof (env_falling_S (-1)) as HS. fold e rw in HS.
    replace (a_w (rw * rw * rw) (c_rd3 e) (c_kpa e) * klvntrm rw (c_T e))
      with (koehler_S rw (c_rd3 e) (c_kpa e) (c_T e)).
    2:{ unfold koehler_S, a_w, klvntrm. replace (rw ^ 3) with (rw * rw * rw) by ring. reflexivity. }
    set (S := koehler_S rw (c_rd3 e) (c_kpa e) (c_T e)) in *. clearbody S.
    unfold e. rewrite env_falling_RH. unfold rho_w.
    assert (Hq : 0 < (1 - S / (105 / 100)) / 1000) by lra.
    assert (/ Q < 0) by (apply Rinv_lt_0_compat; exact HR').
    unfold Rdiv at 1. nra.
Qed.

(** a case that meets the hypotheses of C51_substep: the same drop with a proper fall speed grows *)
Theorem C51_instance dt : 0 < dt ->
  1 / 10 ^ 4 * (1 / 10 ^ 4) < advance_rw2 cfg_double true (env_falling 1) dt (1 / 10 ^ 4 * (1 / 10 ^ 4)).
Proof.
  intros Hdt.
  destruct (C51_substep cfg_double (env_falling 1) dt (1 / 10 ^ 4) cfg_double_ok (env_falling_ok 1))
    as (_ & H & _).
  - cbn [env_falling c_vt]. lra.
  - exact Hdt.
  - lra.
  - unfold dry2; cbn [env_falling c_rd3].
    replace (cbrt (1 / 10 ^ 21)) with (1 / 10 ^ 7); [lra|].
    destruct (cbrt_cube_nonneg (1 / 10 ^ 21)) as [H1 H2]; [lra|].
    apply cube_inj; [lra|exact H1|]. rewrite H2. lra.
  - apply H. rewrite env_falling_RH. apply env_falling_S.
Qed.

(** ** C52: deposition on ice *)
Theorem C52_ice e dt a c : env_ok e -> 0 <= c_vt e -> 0 < dt ->
  let (a', c') := advance_ice_ac e dt (a, c) in
  ((a <= 0 \/ c <= 0) -> a' = a /\ c' = c) /\
  (0 < a -> 0 < c ->
     1 / 10 ^ 9 <= a' /\ 1 / 10 ^ 9 <= c' /\
     (1 < ambient_RH e -> a < a' /\ c < c') /\
     (ambient_RH e = 1 -> a' = Rmax a (1 / 10 ^ 9) /\ c' = Rmax c (1 / 10 ^ 9)) /\
     (ambient_RH e < 1 -> 1 / 10 ^ 9 < a -> 1 / 10 ^ 9 < c -> a' < a /\ c' < c)).
Proof.
  intros He Hv Hdt.
  assert (Hrate : forall x, 0 < x ->
     (0 < drw2_dt_ice e (x * x) / (2 * x) <-> 1 < ambient_RH e) /\
     (drw2_dt_ice e (x * x) / (2 * x) < 0 <-> ambient_RH e < 1) /\
     (drw2_dt_ice e (x * x) / (2 * x) = 0 <-> ambient_RH e = 1)).
  { intros x Hx. destruct (eff_pos e x He Hv Hx) as [HD HK].
    pose proof He as (H1 & H2 & H3 & H4 & H5 & H6 & H7).
    unfold drw2_dt_ice. rewrite RH_lim_min, sqrt_square by lra. unfold rdrdt_i.
    assert (Hres : 0 < 1 / eff_D e x / (c_rhod e * c_rv e) +
       l_s (c_T e) / eff_K e x / ambient_RH e / c_T e * (l_s (c_T e) / R_v / c_T e - 1)).
    { apply growth_resistance; try assumption; try lra.
      - apply Rmult_lt_0_compat; assumption.
      - apply l_s_large; exact H3. }
    match type of Hres with 0 < ?q => set (Q := q) in * end. clearbody Q.
    set (y := (1 - 1 / ambient_RH e) / rho_i / Q).
    destruct (sign_of_quotient (2 * y) (2 * x) ltac:(lra)) as (A1 & A2 & A3).
    destruct (sign_of_quotient ((1 - 1 / ambient_RH e) / rho_i) Q Hres) as (B1 & B2 & B3).
    destruct (sign_of_quotient (1 - 1 / ambient_RH e) rho_i ltac:(unfold rho_i; lra)) as (C1 & C2 & C3).
    fold y in B1, B2, B3.
    assert (HS : 1 = 1 / ambient_RH e * ambient_RH e) by (unfold Rdiv; rewrite Rmult_assoc, Rinv_l; lra).
    assert (D1 : 0 < 2 * y <-> 0 < y) by (split; intros; lra).
    assert (D2 : 2 * y < 0 <-> y < 0) by (split; intros; lra).
    assert (D3 : 2 * y = 0 <-> y = 0) by (split; intros; lra).
    rewrite A1, A2, A3, D1, D2, D3, B1, B2, B3, C1, C2, C3.
    destruct (ratio_sign _ _ _ H5 HS) as (R1 & R2 & R3).
    split; [exact R1|split; [exact R2|]].
    rewrite R3. split; intros; lra. }
  unfold advance_ice_ac.
  destruct (Rleb a 0 || Rleb c 0) eqn:E.
  - split; [auto|]. intros Ha Hc. apply orb_prop in E. destruct E as [E|E]; apply Rleb_true in E; lra.
  - apply orb_false_elim in E. destruct E as [E1 E2]. apply Rleb_false in E1, E2.
    split; [lra|]. intros _ _.
    destruct (Hrate a E1) as (Pa & Na & Za). destruct (Hrate c E2) as (Pc & Nc & Zc).
    set (da := drw2_dt_ice e (a * a) / (2 * a)) in *.
    set (dc := drw2_dt_ice e (c * c) / (2 * c)) in *.
    rewrite !cmax_Rmax. replace (1 / 1000000000) with (1 / 10 ^ 9) by lra.
    split; [apply Rmax_r|split; [apply Rmax_r|split; [|split]]].
    + intros H. assert (0 < da) by tauto. assert (0 < dc) by tauto.
      pose proof (Rmax_l (a + dt * da) (1 / 10 ^ 9)). pose proof (Rmax_l (c + dt * dc) (1 / 10 ^ 9)).
      split; nra.
    + intros H. assert (Ea : da = 0) by tauto. assert (Ec : dc = 0) by tauto.
      rewrite Ea, Ec, Rmult_0_r, !Rplus_0_r. auto.
    + intros H Ha Hc. assert (da < 0) by tauto. assert (dc < 0) by tauto.
      assert (dt * da < 0) by nra. assert (dt * dc < 0) by nra.
      split; apply Rmax_lub_lt; lra.
Qed.

(** a case that meets the hypotheses of C18_substep: growth rate [1 - x], dry size one half *)
Theorem C18_instance : let new := advance_rw2_rate cfg_double true (fun x => 1 - x) (1/8) 1 (1/2) in
  1/2 < new <= 3/2.
Proof.
  intros new.
  assert (Hd : dry2 (1/8) = 1/4).
  { unfold dry2. replace (cbrt (1/8)) with (1/2); [lra|].
    destruct (cbrt_cube_nonneg (1/8)) as [H1 H2]; [lra|]. apply cube_inj; [lra|exact H1|]. rewrite H2. lra. }
  destruct (C18_substep cfg_double (fun x => 1 - x) (1/8) 1 (1/2) cfg_double_ok) as (P1 & P2 & _ & _ & P5);
    [lra|rewrite Hd; lra|]. cbv beta in P2, P5. fold new in P1, P2, P5.
  specialize (P2 ltac:(lra)). change (k_mlt cfg_double) with 2 in P5.
  rewrite (Rabs_right (new - 1/2)) in P5 by lra.
  rewrite Rabs_right in P5 by lra. lra.
Qed.

(** a case that meets the hypotheses of C52_ice *)
Theorem C52_instance dt : 0 < dt ->
  let (a, c) := advance_ice_ac (env_falling 1) dt (1 / 10 ^ 5, 2 / 10 ^ 5) in
  1 / 10 ^ 5 < a /\ 2 / 10 ^ 5 < c.
Proof.
  intros Hdt. pose proof (C52_ice (env_falling 1) dt (1 / 10 ^ 5) (2 / 10 ^ 5) (env_falling_ok 1)) as H.
  destruct (advance_ice_ac (env_falling 1) dt (1 / 10 ^ 5, 2 / 10 ^ 5)) as [a c].
  destruct H as (_ & H); [cbn [env_falling c_vt]; lra|exact Hdt|].
  destruct H as (_ & _ & H & _); [lra|lra|]. apply H. rewrite env_falling_RH. lra.
Qed.

Print Assumptions C18_substep.
Print Assumptions C18_backward_euler.
Print Assumptions C18_variants.
Print Assumptions C51_ventilation.
Print Assumptions C51_growth_sign.
Print Assumptions C51_substep.
Print Assumptions C51_invalid_fall_speed_refuted.
Print Assumptions C51_instance.
Print Assumptions C52_ice.
Print Assumptions C18_instance.
Print Assumptions C52_instance.
