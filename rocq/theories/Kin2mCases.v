(** * C89: runs in which the double-moment scheme creates water and makes cloud water negative *)
From Coq Require Import List Arith ZArith Reals Bool Lia Lra Psatz.
From Verif Require Import Base BaseProofs ThermoModel ThermoProofs CondModel InitModel Blk2mModel Blk2mProps Blk2mCases Blk2mFall Blk2mColumn Kin2mModel Kin2mProps.
From Verif Require KinModel KinDrive Kin1mModel Kin1mProps.
Import ListNotations.
Local Open Scope R_scope.

(** one cell at rest for steps of 20 s, default options of the scheme *)
Definition still2 (sedi : bool) : run_params2 :=
  {| q_nx := 1; q_nz := 1; q_dt := 20; q_dz := 20; q_tau := 300; q_z_rlx := 200; q_spinup := 0; q_relax := false;
     q_opts := {| b_acti := true; b_cond := true; b_acnv := true; b_accr := true; b_sedi := sedi; b_RH_max := 44; b_A := 1350; b_b := 247 / 100; b_c := - (179 / 100);
       b_modes := [ {| md_rd := 4 / 100000000; md_sd := 14 / 10; md_N := 60000000; md_b := 55 / 100 |} ]; b_th_dry := true; b_const_p := false |} |}.
(** a dry potential temperature for 0.01 C at the density 1 *)
Lemma th_exists : exists h, dry_T h 1 = T_tri.
Proof.
  unfold dry_T. assert (D := R_d_pos). assert (L := R_d_lt_c_pd). set (k := cpow (1 * R_d / p_1000) (R_d / c_pd)).
  assert (K : 0 < k) by (unfold k; apply cpow_pos; unfold p_1000; apply Rdiv_lt_0_compat; lra).
  assert (E : 0 < c_pd / (c_pd - R_d)) by (apply Rdiv_lt_0_compat; [unfold c_pd; lra|lra]). set (e := c_pd / (c_pd - R_d)) in *. clearbody k e.
  exists (Rpower T_tri (/ e) / k). replace (Rpower T_tri (/ e) / k * k) with (Rpower T_tri (/ e)) by (field; lra).
  rewrite cpow_pos_eq by apply exp_pos. rewrite Rpower_mult. replace (/ e * e) with 1 by (field; lra). apply Rpower_1. unfold T_tri. lra.
Qed.
(** vapour at saturation, and the saturation mixing ratio with a little less of it *)
Definition s_tri : R := p_tri / (R_v * T_tri).
Lemma s_tri_bounds : 0 < s_tri <= 1 / 100.
Proof. unfold s_tri, p_tri, R_v, T_tri, kaBoNA, M_v, M_H, M_OH. split; [apply Rdiv_lt_0_compat; lra|]. apply (Rmult_le_reg_r (83144621 / 10000000 / M_v * (27316 / 100))); unfold M_v, M_H, M_OH; [lra|]. unfold Rdiv at 1. rewrite Rmult_assoc, Rinv_l by lra. lra. Qed.
Lemma eps_half : 1 / 2 <= eps.
Proof. unfold eps, M_v, M_H, M_OH, M_d. lra. Qed.
Definition p_of (x : R) : R := dry_p 1 (s_tri - x) T_tri.
Lemma p_of_eq x : p_of x = R_d * T_tri + p_tri - x * R_v * T_tri.
Proof. unfold p_of, dry_p, s_tri. assert (Q := R_v_pos). field. unfold T_tri. split; lra. Qed.
Lemma R_d_eps : R_d = eps * R_v.
Proof. unfold R_d, eps, R_v. field. unfold M_d, M_v, M_H, M_OH. split; lra. Qed.
Lemma sat_of x : 0 <= x <= 1 / 100 -> p_vs T_tri < p_of x /\ x <= r_vs T_tri (p_of x) - (s_tri - x) <= 2 * x.
Proof.
  intros H. rewrite p_of_eq. unfold r_vs. rewrite p_vs_tri, R_d_eps. assert (Q := R_v_pos). assert (E := eps_half). assert (S := s_tri_bounds). assert (Tp : 0 < T_tri) by (unfold T_tri; lra).
  assert (K : 0 < R_v * T_tri) by nra. assert (Ep : 0 < p_tri) by (unfold p_tri; lra). split; [nra|].
  replace (eps / ((eps * R_v * T_tri + p_tri - x * R_v * T_tri) / p_tri - 1)) with (s_tri * eps / (eps - x)).
  - assert (I : 0 <= s_tri * x / (eps - x) <= x).
    { split; [apply Rmult_le_pos; [nra|left; apply Rinv_0_lt_compat; lra]|]. apply (Rmult_le_reg_r (eps - x)); [lra|]. unfold Rdiv. rewrite Rmult_assoc, Rinv_l by lra. nra. }
    replace (s_tri * eps / (eps - x) - (s_tri - x)) with (x + s_tri * x / (eps - x)) by (field; lra). lra.
  - unfold s_tri. field. repeat split; try lra. intros Z. assert (0 < (eps - x) * (R_v * T_tri)) by (apply Rmult_lt_0_compat; lra). nra.
Qed.

Section Cell.
  Variables (tgamma erfc : R -> R) (num_eps : R) (sedi : bool) (h x : R).
  Hypotheses (Hh : dry_T h 1 = T_tri) (He : 0 <= num_eps <= 1 / 1000000).
  Definition cellx : cell2 := {| rhod := 1; pres := 0; th := h; rv := s_tri - x; rc := 1 / 1000; nc := 100000000; rr := 1 / 100; nr := 1000 |}.
  Notation o := (options_in (still2 sedi) 0).
  Notation p := (p_of x).
  Lemma acnv_x : 0 < acnv_rate num_eps o 20 cellx <= 135 / 10000000.
  Proof. exact (acnv_small num_eps (s_tri - x) He). Qed.
  Lemma accretion_x : 67 / 1000000 <= accretion_rate (rc cellx) (rr cellx).
  Proof. exact (accretion_big (s_tri - x)). Qed.
  Hypothesis Hrl : rain_limiter tgamma num_eps o 20 cellx T_tri p = false.
  Lemma accr_on_x : accr_on tgamma num_eps o 20 cellx T_tri p = true.
  Proof.
    unfold accr_on. rewrite Hrl. replace (all_converted num_eps o 20 cellx) with false.
    - unfold cellx. cbn [rc nc rr]. unfold rc_eps, nc_eps, rr_eps. rewrite !(proj2 (Rltb_true _ _)) by lra. reflexivity.
    - symmetry. exact (not_all_converted num_eps (s_tri - x) He).
  Qed.
  Lemma second_x : second_rc tgamma num_eps o 20 cellx T_tri p = - (5 / 100000) /\ 67 / 1000000 <= second_rr tgamma num_eps o 20 cellx T_tri p.
  Proof.
    unfold second_rc, second_rr, accr_rate. rewrite accr_on_x, cmax_Rmax. assert (A := acnv_x). assert (B := accretion_x).
    set (a := acnv_rate _ _ _ _) in *. set (y := accretion_rate _ _) in *. clearbody a y. change (rc cellx) with (1 / 1000). split; [rewrite Rmax_right; lra|lra].
  Qed.
  Lemma rates_x : rates tgamma erfc num_eps (still2 sedi) 0 cellx = dots_of tgamma erfc num_eps o 20 cellx T_tri p no_dots.
  Proof. rewrite rates_eq. change (q_dt (still2 sedi)) with 20. change (th cellx) with h. change (rhod cellx) with 1. change (rv cellx) with (s_tri - x). rewrite Hh. reflexivity. Qed.
End Cell.

(** the world after the start and after one step, at rest *)
Definition rest (sedi : bool) tgamma erfc erf num_eps (h x : R) (n : nat) : world2 :=
  steps2 tgamma erfc erf num_eps (still2 sedi) (fun _ g => g) n
    (start_run2 (still2 sedi) (fun _ => 0) (fun _ _ => 1) (fun _ _ => h) (fun _ _ => s_tri - x) (Some (fun _ _ => 1 / 1000)) (Some (fun _ _ => 100000000)) (Some (fun _ _ => 1 / 100)) (Some (fun _ _ => 1000))).
Lemma rest_0 sedi tgamma erfc erf num_eps h x i j : w2_g (rest sedi tgamma erfc erf num_eps h x 0) i j = cellx h x.
Proof. reflexivity. Qed.

(** In saturated air, with the default processes, a run at rest creates water: accretion adds to the rain more than there is to take from the cloud. *)
Theorem C89_water_created_refuted : forall tgamma erfc erf num_eps, 0 <= num_eps <= 1 / 1000000 -> exists h x, 0 <= s_tri - x /\ q_dt (still2 false) = 20 /\
  let start := rest false tgamma erfc erf num_eps h x 0 in let w1 := rest false tgamma erfc erf num_eps h x 1 in
  carries2 (still2 false) (fun _ => 1) (fun g => g) /\
  mass2 (still2 false) (fun _ => 1) water2 (w2_g start) + 34 / 100000 <= mass2 (still2 false) (fun _ => 1) water2 (w2_g w1).
Proof.
  intros tgamma erfc erf num_eps He. destruct th_exists as (h & Hh). exists h, 0. assert (S := s_tri_bounds). split; [lra|]. split; [reflexivity|]. cbv zeta. split; [split; reflexivity|].
  set (c := cellx h 0). set (o := options_in (still2 false) 0). destruct (sat_of 0 ltac:(lra)) as (Hp & Hs). assert (Ev : r_vs T_tri (p_of 0) = rv c) by (unfold c, cellx; cbn [rv]; lra).
  assert (Z : forall tau, cond_evap_rate T_tri (p_of 0) (rv c) tau = 0) by (intros tau; rewrite cond_evap_eq, Ev; ring).
  assert (CR : cloud_rate tgamma num_eps o c T_tri (p_of 0) = 0).
  { unfold cloud_rate. rewrite Z. destruct (b_cond o); [now destruct (_ && _)|reflexivity]. }
  assert (RR : rain_rate tgamma num_eps o c T_tri (p_of 0) = 0).
  { unfold rain_rate. rewrite Z. rewrite cmin_Rmin, Rmin_left by lra. destruct (b_cond o); [now destruct (_ && _)|reflexivity]. }
  assert (AR : act_rate erfc o 20 c T_tri (p_of 0) = 0).
  { unfold act_rate. rewrite Ev. replace (Rltb (rv c) (rv c)) with false by (symmetry; apply Rltb_false; lra). now destruct (b_acti o). }
  assert (F1 : first_rc tgamma erfc num_eps o 20 c T_tri (p_of 0) = 0).
  { unfold first_rc. rewrite CR, AR, cmax_Rmax. change (rc c) with (1 / 1000). rewrite Rmult_0_l, Rplus_0_l. apply Rmax_left. lra. }
  assert (F2 : first_rr tgamma num_eps o 20 c T_tri (p_of 0) = 0).
  { unfold first_rr. rewrite RR, cmax_Rmax. change (rr c) with (1 / 100). apply Rmax_left. lra. }
  assert (CL : cloud_limiter tgamma erfc num_eps o 20 c T_tri (p_of 0) = false).
  { unfold cloud_limiter. rewrite F1. apply Reqb_false. change (rc c) with (1 / 1000). lra. }
  assert (RL : rain_limiter tgamma num_eps o 20 c T_tri (p_of 0) = false).
  { unfold rain_limiter. rewrite F2. apply Reqb_false. change (rr c) with (1 / 100). lra. }
  destruct (second_x tgamma num_eps false h 0 He RL) as (S1 & S2). fold o in S1, S2. fold c in S1, S2.
  assert (E : 17 / 1000000 <= created tgamma erfc num_eps (still2 false) 0 c).
  { unfold created, c. rewrite (rates_x tgamma erfc num_eps false h 0 Hh). fold o. fold c. unfold dots_of. rewrite CL, F1, F2, S1. cbn [drv drc drr no_dots]. lra. }
  unfold rest at 2. rewrite run_step2 by (cbn; lia).
  change (steps2 tgamma erfc erf num_eps (still2 false) (fun _ g => g) 0 (start_run2 (still2 false) (fun _ => 0) (fun _ _ => 1) (fun _ _ => h) (fun _ _ => s_tri - 0) (Some (fun _ _ => 1 / 1000)) (Some (fun _ _ => 100000000)) (Some (fun _ _ => 1 / 100)) (Some (fun _ _ => 1000))))
    with (rest false tgamma erfc erf num_eps h 0 0).
  rewrite apply_mass; [|cbn; lia|intros i j _; rewrite rest_0; cbn [cellx rhod]; lra].
  apply Rplus_le_compat_l. change (relaxes2 (still2 false) 0) with false. cbv iota. unfold rain_at_ground2. change (b_sedi (q_opts (still2 false))) with false. cbv iota.
  unfold mass2. change (q_nx (still2 false)) with 1%nat. change (q_nz (still2 false)) with 1%nat. cbn [sumR]. rewrite rest_0. fold c. change (rhod c) with 1. change (q_dt (still2 false)) with 20. lra.
Qed.

(** In slightly subsaturated air a run at rest makes cloud water negative: the droplets evaporate a little and collisions take all the cloud water that there was before.
    (It meets the hypotheses of C89_signs, so the next step makes up for it.) *)
Theorem C89_cloud_negative_refuted : exists tgamma erf, gamma_like tgamma /\ erf_like erf /\ forall erfc num_eps, 0 < num_eps <= 1 / 1000000 -> exists h x, 0 <= s_tri - x /\
  let run := rest true tgamma erfc erf num_eps h x in
  rc (w2_g (run 0%nat) 0%nat 0%nat) = 1 / 1000 /\ rc (w2_g (run 1%nat) 0%nat 0%nat) < 0 /\ 0 <= rc (w2_g (run 2%nat) 0%nat 0%nat) /\
  0 <= rr (w2_g (run 2%nat) 0%nat 0%nat) /\ 0 <= nr (w2_g (run 2%nat) 0%nat 0%nat) /\ 0 <= nc (w2_g (run 2%nat) 0%nat 0%nat).
Proof.
  destruct gamma_exists as (tgamma & HG). destruct erf_exists as (erf & HE). exists tgamma, erf. split; [exact HG|]. split; [exact HE|]. intros erfc num_eps He0.
  assert (He : 0 <= num_eps <= 1 / 1000000) by lra. destruct th_exists as (h & Hh). assert (S := s_tri_bounds).
  set (kc := / tau_relax_c (r_drop_c tgamma (1 / 1000) 100000000 1) (1 * 100000000)). set (kr := / tau_relax_r tgamma T_tri 1 (1 / 100) 1000).
  assert (Tc : 0 < tau_relax_c (r_drop_c tgamma (1 / 1000) 100000000 1) (1 * 100000000)) by (apply tau_c_pos; [exact HG|lra|lra|lra]).
  assert (Tr : 0 < tau_relax_r tgamma T_tri 1 (1 / 100) 1000) by (apply tau_r_pos; [exact HG|lra|lra|lra]).
  assert (Kc : 0 < kc) by now apply Rinv_0_lt_compat. assert (Kr : 0 < kr) by now apply Rinv_0_lt_compat.
  set (x := Rmin (s_tri / 2) (Rmin (/ kc / 200000) (/ kr / 200000))).
  assert (Ic := Rinv_0_lt_compat kc Kc). assert (Ir := Rinv_0_lt_compat kr Kr).
  assert (X1 : 0 < x) by (unfold x; repeat apply Rmin_glb_lt; lra).
  assert (X2 : x <= s_tri / 2) by (unfold x; apply Rmin_l).
  assert (X3 : x <= / kc / 200000) by (unfold x; eapply Rle_trans; [apply Rmin_r|apply Rmin_l]).
  assert (X4 : x <= / kr / 200000) by (unfold x; eapply Rle_trans; [apply Rmin_r|apply Rmin_r]).
  clearbody x.
  assert (Y3 : 2 * x * kc <= 1 / 100000). { replace (1 / 100000) with (2 * (/ kc / 200000) * kc) by (field; lra). apply Rmult_le_compat_r; lra. }
  assert (Y4 : 2 * x * kr <= 1 / 100000). { replace (1 / 100000) with (2 * (/ kr / 200000) * kr) by (field; lra). apply Rmult_le_compat_r; lra. }
  exists h, x. split; [lra|]. cbv zeta. split; [reflexivity|].
  set (c := cellx h x). set (o := options_in (still2 true) 0). destruct (sat_of x ltac:(lra)) as (Hp & Hs1 & Hs2).
  set (rs := r_vs T_tri (p_of x)) in *.
  assert (E1 : Rltb (rc_eps num_eps) (rc c) = true /\ Rltb (nc_eps num_eps) (nc c) = true /\ Rltb (rr_eps num_eps) (rr c) = true /\ Rltb (nr_eps num_eps) (nr c) = true).
  { unfold rc_eps, nc_eps, rr_eps, nr_eps, c, cellx. cbn [rc nc rr nr]. repeat split; apply Rltb_true; lra. }
  destruct E1 as (E1 & E2 & E3 & E4).
  assert (CR : - (1 / 100000) <= cloud_rate tgamma num_eps o c T_tri (p_of x) < 0).
  { unfold cloud_rate. rewrite E1, E2. change (b_cond o) with true. cbn [andb]. change (rv c) with (s_tri - x). change (rc c) with (1 / 1000). change (nc c) with 100000000. change (rhod c) with 1. rewrite cond_evap_eq. fold rs.
    assert (F := factor_pos T_tri (p_of x) (s_tri - x) _ Hp ltac:(lra) Tc). fold kc in F. set (f := _ * / psychro _ _ _) in *. clearbody f rs. assert (0 < f * (2 * x)) by nra. assert (f * (2 * x) <= kc * (2 * x)) by nra. split; nra. }
  assert (RR : - (1 / 100000) <= rain_rate tgamma num_eps o c T_tri (p_of x) <= 0).
  { unfold rain_rate. rewrite E3, E4. change (b_cond o) with true. cbn [andb]. change (rv c) with (s_tri - x). change (rr c) with (1 / 100). change (nr c) with 1000. change (rhod c) with 1. rewrite cond_evap_eq. fold rs.
    assert (F := factor_pos T_tri (p_of x) (s_tri - x) _ Hp ltac:(lra) Tr). fold kr in F. set (f := _ * / psychro _ _ _) in *. clearbody f rs. rewrite cmin_Rmin. assert (f * (2 * x) <= kr * (2 * x)) by nra.
    split; [apply Rmin_glb; nra|apply Rmin_r]. }
  assert (AR : act_rate erfc o 20 c T_tri (p_of x) = 0).
  { unfold act_rate. fold rs. change (rv c) with (s_tri - x). replace (Rltb rs (s_tri - x)) with false by (symmetry; apply Rltb_false; lra). now destruct (b_acti o). }
  set (cr := cloud_rate tgamma num_eps o c T_tri (p_of x)) in *. set (qr := rain_rate tgamma num_eps o c T_tri (p_of x)) in *.
  assert (F1 : first_rc tgamma erfc num_eps o 20 c T_tri (p_of x) = cr).
  { unfold first_rc. fold cr. rewrite AR, cmax_Rmax. clearbody cr. change (rc c) with (1 / 1000). rewrite Rmult_0_l, Rplus_0_l. apply Rmax_left. lra. }
  assert (F2 : first_rr tgamma num_eps o 20 c T_tri (p_of x) = qr).
  { unfold first_rr. fold qr. rewrite cmax_Rmax. clearbody qr. change (rr c) with (1 / 100). apply Rmax_left. lra. }
  clearbody cr qr.
  assert (CL : cloud_limiter tgamma erfc num_eps o 20 c T_tri (p_of x) = false).
  { unfold cloud_limiter. rewrite F1. apply Reqb_false. change (rc c) with (1 / 1000). lra. }
  assert (RL : rain_limiter tgamma num_eps o 20 c T_tri (p_of x) = false).
  { unfold rain_limiter. rewrite F2. apply Reqb_false. change (rr c) with (1 / 100). lra. }
  destruct (second_x tgamma num_eps true h x He RL) as (S1 & _). fold o in S1. fold c in S1.
  assert (I : inside2 (still2 true) 0 0) by (split; cbn; lia).
  assert (N : rc (w2_g (rest true tgamma erfc erf num_eps h x 1) 0%nat 0%nat) < 0).
  { unfold rest. rewrite run_step2 by (cbn; lia). cbn [apply_rhs2 rc]. set (te := w2_th_eq _). set (re := w2_rv_eq _).
    change (steps2 tgamma erfc erf num_eps (still2 true) (fun _ g => g) 0 (start_run2 (still2 true) (fun _ => 0) (fun _ _ => 1) (fun _ _ => h) (fun _ _ => s_tri - x) (Some (fun _ _ => 1 / 1000)) (Some (fun _ _ => 100000000)) (Some (fun _ _ => 1 / 100)) (Some (fun _ _ => 1000))))
      with (rest true tgamma erfc erf num_eps h x 0).
    destruct (update_spec tgamma erfc erf num_eps (still2 true) 0 (relaxes2 (still2 true) 0) te re (w2_g (rest true tgamma erfc erf num_eps h x 0)) 0 0 I) as (_ & _ & U & _). rewrite U, rest_0.
    rewrite (rates_x tgamma erfc num_eps true h x Hh). fold o. fold c. unfold dots_of. rewrite CL, F1, F2, S1. cbn [drc no_dots]. change (rc c) with (1 / 1000). change (q_dt (still2 true)) with 20. lra. }
  split; [exact N|].
  destruct (C89_signs tgamma erfc erf num_eps (still2 true) (fun _ => 0) (fun _ _ => 1) (fun _ _ => h) (fun _ _ => s_tri - x) (Some (fun _ _ => 1 / 1000)) (Some (fun _ _ => 100000000)) (Some (fun _ _ => 1 / 100)) (Some (fun _ _ => 1000)) (fun _ g => g) 2
    HG HE ltac:(lra) ltac:(cbn; lia) ltac:(cbn; lra) ltac:(cbn; lra) ltac:(cbn; lra) ltac:(intros; lra) ltac:(reflexivity) ltac:(auto) ltac:(intros; cbn; lra)) as (A & B).
  destruct (B 1%nat 0%nat 0%nat ltac:(lia) I) as (_ & B2 & _). split; [|exact (A 0%nat 0%nat I)]. apply B2. left. exact N.
Qed.

(** A run with a spin-up of ten steps that starts without rain: the hypotheses of C89_spinup and of C89_water_partial hold, and nothing rains for ten steps. *)
Theorem C89_instance : let P := {| q_nx := 2; q_nz := 3; q_dt := 20; q_dz := 20; q_tau := 300; q_z_rlx := 200; q_spinup := 10; q_relax := true; q_opts := q_opts (still2 true) |} in
  forall tgamma erfc erf num_eps junk h, 0 <= num_eps ->
  let run := steps2 tgamma erfc erf num_eps P (fun _ g => g) 10 (start_run2 P junk (fun _ _ => 1) (fun _ _ => h) (fun _ j => 1 / 100 - INR j / 1000) (Some (fun _ _ => 1 / 1000)) (Some (fun _ _ => 100000000)) None None) in
  carries2 P (fun _ => 1) (fun g => g) /\ rr (w2_g run 1%nat 2%nat) = 0 /\ relaxes2 P 9 = false /\ relaxes2 P 10 = true /\
  mass2 P (fun _ => 1) water2 (w2_g run) = 60 / 1000.
Proof.
  intros P tgamma erfc erf num_eps junk h He. cbv zeta. split; [split; reflexivity|].
  destruct (C89_spinup tgamma erfc erf num_eps P (fun _ => 1) junk (fun _ _ => 1) (fun _ _ => h) (fun _ j => 1 / 100 - INR j / 1000) (Some (fun _ _ => 1 / 1000)) (Some (fun _ _ => 100000000)) None None (fun _ g => g) 10
    ltac:(cbn; lia) ltac:(cbn; lia) ltac:(cbn; lra) He ltac:(cbn; lra) ltac:(intros; lra)) as (A & B).
  - intros k Hk. split; [split; reflexivity|auto].
  - intros i j _. split; reflexivity.
  - left. cbn. lia.
  - split; [apply A; split; cbn; lia|]. split; [reflexivity|]. split; [reflexivity|]. rewrite B. unfold initial_water2. change (q_nx P) with 2%nat. change (q_nz P) with 3%nat. cbn [sumR given2 INR]. lra.
Qed.

Print Assumptions C89_water_created_refuted.
Print Assumptions C89_cloud_negative_refuted.
Print Assumptions C89_instance.
