(** C20 without mixing; counterexamples to C20 (with mixing) and C23. *)
From Coq Require Import List Arith NArith ZArith Lia Reals Lra Psatz Bool.
From Verif Require Import Base BaseProofs HskpngModel ThermoModel ThermoProofs TomsModel TomsProps CondModel CondProps MomsModel MomsProofs
  CondPassModel CondPassProofs CondPassProps CondPassProps2 CondPassProps3.
Import ListNotations.
Local Open Scope R_scope.

(** C20 without mixing, with fixed or adaptive substeps: total water is conserved and the heating corresponds to the water condensed at
    the temperature of the cell, for every population, substep number and density; empty cells are unchanged. *)
Theorem C20_nomix_water_and_heat o allow g sijk sid st st' :
  use_perparticle o = true -> o_mix o = false -> (1 <= o_sstp o)%nat ->
  pop_ok o sijk sid st -> cond_part o allow g sijk sid st st' ->
  forall c, (c < e_nc (s_E st))%nat ->
    total_water o st' c = total_water o st c /\
    (let T := e_T (s_E st) c in
     e_th (s_E st') c = e_th (s_E st) c * (1 + l_v T / c_pd / T * (q_liq o (s_P st') (s_E st) c - q_liq o (s_P st) (s_E st) c))) /\
    ((forall i, (i < p_np (s_P st))%nat -> p_ijk (s_P st) i <> c) ->
     e_rv (s_E st') c = e_rv (s_E st) c /\ e_th (s_E st') c = e_th (s_E st) c).
Proof.
  intros Hu Hm Hs1 Hok HC c Hc. destruct Hok as (Hs & Hb & Hr & Hd). destruct (Hd c Hc) as [D1 D2].
  assert (HP : exists P S, st' = sstp_save o allow (mk_cst P (update_th_rv o
        (add_liq o sijk sid P (s_E st) (save_liq o sijk sid (s_P st) (s_E st) (g_drw g)))
        (add_ice o sijk sid P (s_E st) (save_ice o sijk sid (s_P st) (s_E st) (g_dice g))) (s_E st)) S) /\
      same_pop (s_P st) P /\ p_ia P = p_ia (s_P st) /\ p_ic P = p_ic (s_P st) /\ p_irho P = p_irho (s_P st) /\ forall i, 0 <= p_rw2 P i).
  { destruct HC as [? Hu'|st P S Hu' Hm' lD lK HPS drw dice|? ? ? ? ? Hu' Hm']; [congruence| |congruence].
    exists P, S. split; [reflexivity|]. destruct (o_adaptive o).
    - unfold adaptive_pass in HPS. injection HPS as -> _. cbn [set_ssp set_rw2 p_ia p_ic p_irho p_rw2].
      split; [repeat split; reflexivity|]. split; [reflexivity|]. split; [reflexivity|]. split; [reflexivity|].
      intros i. destruct (C23_fraction o lD lK (e_dv (s_E st)) (s_P st) (s_S st) (deltas o st) i Hs1 (Hr i)) as (F & _ & _ & _ & N & _).
      exact N.
    - destruct (pafter_frame o sijk sid st (o_sstp o)) as (F1 & F2 & F3 & F4 & F5).
      unfold pafter in F1, F2, F3, F4, F5. fold lD lK in F1, F2, F3, F4, F5. rewrite <- HPS in F1, F2, F3, F4, F5. cbn [fst] in *. auto 10. }
  destruct HP as (P & S & Est & (P1 & P2 & P3) & P4 & P5 & P6 & P7).
  destruct (sstp_save_PE o allow (mk_cst P (update_th_rv o
        (add_liq o sijk sid P (s_E st) (save_liq o sijk sid (s_P st) (s_E st) (g_drw g)))
        (add_ice o sijk sid P (s_E st) (save_ice o sijk sid (s_P st) (s_E st) (g_dice g))) (s_E st)) S)) as [X1 X2].
  rewrite <- Est in X1, X2. cbn [s_P s_E] in X1, X2.
  assert (HsP : sorted_pop (p_np P) (p_ijk P) sijk sid) by (rewrite P1, P2; exact Hs).
  assert (EL : add_liq o sijk sid P (s_E st) (save_liq o sijk sid (s_P st) (s_E st) (g_drw g)) c = Wet o P (s_E st) c - Wet o (s_P st) (s_E st) c).
  { rewrite add_liq_eq, save_liq_eq by assumption. ring. }
  assert (EI : add_ice o sijk sid P (s_E st) (save_ice o sijk sid (s_P st) (s_E st) (g_dice g)) c = 0).
  { rewrite add_ice_eq, save_ice_eq by assumption.
    replace (Ice o P (s_E st) c) with (Ice o (s_P st) (s_E st) c); [ring|]. unfold Ice, n_real. rewrite P1, P2, P3, P4, P5, P6. reflexivity. }
  assert (Q1 : q_liq o P (s_E st) c = drop_mlt * Wet o P (s_E st) c) by (apply Wet_q; assumption).
  assert (Q0 : q_liq o (s_P st) (s_E st) c = drop_mlt * Wet o (s_P st) (s_E st) c) by (apply Wet_q; assumption).
  assert (ERV : e_rv (s_E st') c = e_rv (s_E st) c - (q_liq o P (s_E st) c - q_liq o (s_P st) (s_E st) c)).
  { rewrite X2. unfold update_th_rv. cbn [set_rvth e_rv]. destruct (o_ice o); rewrite ?EL, ?EI, Q1, Q0; ring. }
  assert (ETH : e_th (s_E st') c = e_th (s_E st) c * (1 + l_v (e_T (s_E st) c) / c_pd / e_T (s_E st) c *
                                      (q_liq o P (s_E st) c - q_liq o (s_P st) (s_E st) c))).
  { rewrite X2. unfold update_th_rv, d_th_d_rv, d_th_d_rv_dep. cbn [set_rvth e_th].
    destruct (o_ice o); rewrite ?EL, ?EI, Q1, Q0; unfold Rdiv; ring. }
  split; [|split].
  - unfold total_water. rewrite ERV. rewrite X1.
    assert (QE : q_liq o P (s_E st') c = q_liq o P (s_E st) c /\ q_ice o P (s_E st') c = q_ice o (s_P st) (s_E st) c).
    { rewrite X2. split; [reflexivity|]. unfold q_ice, ice_in. rewrite P1, P2, P3, P4, P5, P6. reflexivity. }
    destruct QE as [-> ->]. ring.
  - rewrite X1. exact ETH.
  - intros He. assert (Ho : ~ occupied (p_np (s_P st)) (p_ijk (s_P st)) c) by (intros (i & Hi & E); exact (He i Hi E)).
    assert (Z : q_liq o P (s_E st) c = q_liq o (s_P st) (s_E st) c).
    { rewrite Q1, Q0. rewrite (Wet_empty o (s_P st)) by exact Ho. rewrite Wet_empty by (rewrite P1, P2; exact Ho). reflexivity. }
    rewrite ERV, ETH, Z. split; ring.
Qed.

(** ** a growing droplet: one droplet of 0.1 mm in one cell of 1 cubic metre, at the triple point, supersaturated; the host model changed
    the density of air from 1 to 1.2 *)
Definition inst_o (mix adaptive : bool) (act : nat) (dt : R) : copts :=
  {| o_parcel := false; o_th_dry := false; o_const_p := true; o_ice := false; o_exact := true; o_mix := mix; o_adaptive := adaptive;
     o_RH := pv_cc; o_adapt_eps := 1 / 10000; o_adapt_max := 4; o_turb := false; o_RH_max := 44; o_var_rho := true; o_dt := dt;
     o_sstp := 2; o_act := act; o_k := cfg_double |}.
Definition inst_P (rc2 : R) : parts :=
  mk_parts 1 (fun _ => 0%nat) (fun _ => 1%N) (fun _ => 1 / 10 ^ 4 * (1 / 10 ^ 4)) (fun _ => 1 / 10 ^ 21) (fun _ => 1) (fun _ => 0)
    (fun _ => 0) (fun _ => 0) (fun _ => 0) (fun _ => 0) (fun _ => 0) (fun _ => rc2).
Definition inst_E : cells :=
  mk_cells 1 (fun _ => 1 / 100) (fun _ => T_tri) (fun _ => 12 / 10) (fun _ => 100000) (fun _ => T_tri) (fun _ => 1) (fun _ => 1)
    (fun _ => visc T_tri) (fun _ => 1).
Definition inst_S : tmps := mk_tmps (fun _ => 1 / 100) (fun _ => T_tri) (fun _ => 1) (fun _ => 100000).
Definition inst_st rc2 : cst := mk_cst (inst_P rc2) inst_E inst_S.
Definition env0 (rhod : R) : cenv :=
  {| c_rhod := rhod; c_rv := 1 / 100; c_T := T_tri; c_eta := visc T_tri; c_rd3 := 1 / 10 ^ 21; c_kpa := 1; c_vt := 0; c_p := 100000;
     c_RH := p_v 100000 (1 / 100) / p_vs T_tri; c_RH_max := 44; c_lambda_D := lambda_D T_tri; c_lambda_K := lambda_K T_tri 100000 |}.

Lemma exner_1 : exner 100000 = 1.
Proof. unfold exner, p_1000. replace (100000 / 100000) with 1 by field. apply cpow_1. Qed.
Lemma p_vs_tri : p_vs T_tri = p_tri.
Proof.
  unfold p_vs. replace (T_tri / T_tri) with 1 by (unfold T_tri; field). rewrite ln_1.
  replace (1 / T_tri - 1 / T_tri) with 0 by ring. rewrite !Rmult_0_r, Rminus_0_r, exp_0. ring.
Qed.
Lemma env0_RH : 2 < p_v 100000 (1 / 100) / p_vs T_tri < 44.
Proof.
  rewrite p_vs_tri. unfold p_v, p_tri, eps. rewrite M_v_eq. unfold M_d. lra.
Qed.
Lemma env0_ok rhod : 0 < rhod -> env_ok (env0 rhod).
Proof.
  intros H. pose proof env0_RH as [R1 R2]. unfold env_ok, ambient_RH.
  cbn [env0 c_rhod c_rv c_T c_eta c_RH c_RH_max c_lambda_D c_lambda_K]. rewrite Rmin_left by lra.
  assert (HT : 0 < T_tri <= 1000) by (unfold T_tri; lra).
  pose proof CondProps.R_v_pos. pose proof R_d_pos.
  split; [exact H|]. split; [lra|]. split; [exact HT|]. split.
  { unfold visc. replace (T_tri / T_tri) with 1 by (unfold T_tri; field). rewrite sqrt_1. unfold T_tri. lra. }
  split; [lra|]. split.
  - unfold lambda_D, D_0. apply Rlt_le, Rdiv_lt_0_compat; [lra|]. apply sqrt_lt_R0. nra.
  - unfold lambda_K, K_0. apply Rlt_le, Rdiv_lt_0_compat; [lra|]. apply sqrt_lt_R0. nra.
Qed.
Lemma env0_S rhod : koehler_S (1 / 10 ^ 4) (c_rd3 (env0 rhod)) (c_kpa (env0 rhod)) (c_T (env0 rhod)) < ambient_RH (env0 rhod).
Proof.
  pose proof env0_RH as [R1 R2]. unfold ambient_RH. cbn [env0 c_RH c_RH_max c_rd3 c_kpa c_T]. rewrite Rmin_left by lra.
  apply Rlt_trans with 2; [|exact R1]. unfold koehler_S.
  set (rw3 := (1 / 10 ^ 4) ^ 3). assert (Hrw3 : rw3 = 1 / 10 ^ 12) by (unfold rw3; lra).
  assert (HA : 0 <= kelvin_A T_tri / (1 / 10 ^ 4) <= 1 / 100).
  { unfold kelvin_A, sg_surf, rho_w, T_tri. pose proof R_v_val as [V1 V2].
    assert (Hi : 0 < / R_v <= 1 / 461).
    { split; [apply Rinv_0_lt_compat; lra|]. replace (1 / 461) with (/ 461) by lra. apply Rinv_le_contravar; lra. }
    unfold Rdiv. lra. }
  assert (HE : exp (kelvin_A T_tri / (1 / 10 ^ 4)) <= 100 / 99).
  { set (x := kelvin_A T_tri / (1 / 10 ^ 4)) in *. clearbody x.
    pose proof (exp_ineq1_le (- x)) as H. rewrite exp_Ropp in H. pose proof (exp_pos x) as Hp.
    assert (H0 : 99 / 100 <= / exp x) by lra. apply (Rmult_le_compat_r (exp x)) in H0; [|lra]. rewrite Rinv_l in H0; lra. }
  pose proof (exp_pos (kelvin_A T_tri / (1 / 10 ^ 4))) as Hep.
  assert (HQ : 0 <= (rw3 - 1 / 10 ^ 21) / (rw3 - 1 / 10 ^ 21 * (1 - 1)) <= 1) by (rewrite Hrw3; lra).
  nra.
Qed.
Lemma env0_dry : dry2 (1 / 10 ^ 21) <= 1 / 10 ^ 4 * (1 / 10 ^ 4).
Proof.
  unfold dry2. destruct (cbrt_cube_nonneg (1 / 10 ^ 21) ltac:(lra)) as [H0 H3].
  assert (cbrt (1 / 10 ^ 21) <= 1 / 10 ^ 7).
  { apply Rnot_lt_le. intros H. apply (cube_lt (1 / 10 ^ 7)) in H; [|lra]. lra. }
  set (x := cbrt (1 / 10 ^ 21)) in *. clearbody x. nra.
Qed.
Lemma env0_grows rhod dt : 0 < rhod -> 0 < dt ->
  1 / 10 ^ 4 * (1 / 10 ^ 4) < advance_rw2 cfg_double true (env0 rhod) dt (1 / 10 ^ 4 * (1 / 10 ^ 4)).
Proof.
  intros Hr Hdt.
  destruct (C51_substep cfg_double (env0 rhod) dt (1 / 10 ^ 4) cfg_double_ok (env0_ok rhod Hr)) as (_ & G & _).
  - cbn. lra.
  - exact Hdt.
  - lra.
  - exact env0_dry.
  - apply G, env0_S.
Qed.
Lemma part_env0 mix ad act dt rc2 P' S : p_rd3 P' = p_rd3 (inst_P rc2) -> p_kpa P' = p_kpa (inst_P rc2) -> p_vt P' = p_vt (inst_P rc2) ->
  t_rv S 0 = 1 / 100 -> t_th S 0 = T_tri -> t_p S 0 = 100000 ->
  part_env (inst_o mix ad act dt) (mfp_D inst_E) (mfp_K inst_E) P' S 0 = env0 (t_rh S 0).
Proof.
  intros A1 A2 A3 H1 H2 H3. unfold part_env, Tp_of, T_of, p_of, RH_fun, env0. cbn [inst_o o_th_dry o_const_p o_RH o_turb o_RH_max].
  rewrite A1, A2, A3, H1, H2, H3, exner_1, Rmult_1_r. reflexivity.
Qed.

Lemma inst_sorted rc2 : sorted_pop (p_np (inst_P rc2)) (p_ijk (inst_P rc2)) [0%nat] [0%nat].
Proof.
  exists false. unfold sort_helper, sort_by_key_result. cbn. split; [reflexivity|]. split; [reflexivity|]. split; [reflexivity|].
  repeat constructor.
Qed.

Lemma inst_pop_ok o rc2 : pop_ok o [0%nat] [0%nat] (inst_st rc2).
Proof.
  split; [apply inst_sorted|]. split; [intros i Hi; cbn; lia|]. split; [intros i; cbn [inst_st s_P inst_P p_rw2]; lra|].
  intros c Hc. cbn [inst_st s_E inst_E e_rhod e_dv]. lra.
Qed.
Lemma inst_air_ok rc2 : air_ok (inst_st rc2).
Proof. intros i Hi. cbn [inst_st s_S inst_S t_rh s_E inst_E e_rhod e_dv]. lra. Qed.

Lemma mass_grows x w : 0 <= x -> x < w -> N2R 1 * (4 / 3 * PI * 1000 * sqrt x ^ 3) < N2R 1 * (4 / 3 * PI * 1000 * sqrt w ^ 3).
Proof.
  intros Hx Hw. assert (Hs : sqrt x < sqrt w) by (apply sqrt_lt_1; lra). pose proof (sqrt_pos x) as Hp.
  pose proof (cube_lt (sqrt x) (sqrt w) Hp Hs) as H3. pose proof PI_RGT_0. replace (N2R 1) with 1 by (unfold N2R; cbn; lra).
  rewrite !Rmult_1_l. apply Rmult_lt_compat_l; lra.
Qed.
(** C20 refuted with mixing when the density at super-droplets before the step differs from that of the cell *)
Theorem C20_mix_density_refuted : exists o g sijk sid st st',
  use_perparticle o = true /\ o_mix o = true /\ o_adaptive o = false /\ pop_ok o sijk sid st /\ air_ok st /\
  cond_part o true g sijk sid st st' /\ total_water o st' 0 <> total_water o st 0.
Proof.
  set (o := inst_o true false 1 1). set (st := inst_st 0).
  set (PS := pafter o [0%nat] [0%nat] st 2).
  set (rv' c := if (c =? 0)%nat then t_rv (snd PS) 0 else e_rv inst_E c).
  set (th' c := if (c =? 0)%nat then t_th (snd PS) 0 else e_th inst_E c).
  set (st' := sstp_save o true (mk_cst (fst PS) (set_rvth inst_E rv' th') (snd PS))).
  set (g := mk_junk (fun _ => 0) (fun _ => 0) (fun _ => 0) (fun _ => 0)).
  assert (HP : pop_ok o [0%nat] [0%nat] st) by apply inst_pop_ok.
  assert (HA : air_ok st) by apply inst_air_ok.
  assert (HC : cond_part o true g [0%nat] [0%nat] st st').
  { destruct (pafter_frame o [0%nat] [0%nat] st 2) as ((F1 & F2 & _) & _). fold PS in F1, F2.
    apply (cp_mix o true g [0%nat] [0%nat] st (fst PS) (snd PS) rv' th'); try reflexivity.
    - intros c. rewrite F1, F2. cbn [st inst_st s_P inst_P p_np p_ijk s_E]. unfold rv'. destruct (Nat.eqb_spec c 0) as [->|Hn].
      + left. exists 0%nat. split; [lia|]. split; reflexivity.
      + right. split; [intros; congruence|reflexivity].
    - intros c. rewrite F1, F2. cbn [st inst_st s_P inst_P p_np p_ijk s_E]. unfold th'. destruct (Nat.eqb_spec c 0) as [->|Hn].
      + left. exists 0%nat. split; [lia|]. split; reflexivity.
      + right. split; [intros; congruence|reflexivity]. }
  exists o, g, [0%nat], [0%nat], st, st'. repeat (split; [first [reflexivity|assumption]|]).
  destruct (C22_mixing o true g [0%nat] [0%nat] st st' eq_refl eq_refl eq_refl ltac:(cbn; lia) HP HA HC) as (EP & _ & EC & _).
  destruct (EC 0%nat) as [Erv _]. clear EC.
  assert (CS : forall w, cellsum (p_np (s_P st)) (p_ijk (s_P st)) w 0 = w 0%nat) by (intros w; unfold cellsum; cbn; lra).
  assert (LM : forall k, liq_in (fst (pafter o [0%nat] [0%nat] st k)) 0 = sd_mass (fst (pafter o [0%nat] [0%nat] st k)) 0).
  { intros k. destruct (pafter_frame o [0%nat] [0%nat] st k) as ((F1 & F2 & _) & _). unfold liq_in. rewrite F1, F2, CS. reflexivity. }
  cbn [o inst_o o_sstp sumR] in Erv. fold o in Erv. rewrite !CS in Erv.
  set (m k := sd_mass (fst (pafter o [0%nat] [0%nat] st k)) 0) in *.
  assert (L0 : lost o [0%nat] [0%nat] st 0 0 = (m 1%nat - m 0%nat) / (11 / 10)).
  { unfold lost. fold (m 0%nat) (m 1%nat). cbn [o inst_o o_parcel]. fold o.
    rewrite (proj2 (pseen_rh o [0%nat] [0%nat] st 0 0 ltac:(cbn; lia))). f_equal. unfold part_way. cbn. lra. }
  assert (L1 : lost o [0%nat] [0%nat] st 1 0 = (m 2%nat - m 1%nat) / (12 / 10)).
  { unfold lost. fold (m 1%nat) (m 2%nat). cbn [o inst_o o_parcel]. fold o.
    rewrite (proj2 (pseen_rh o [0%nat] [0%nat] st 1 0 ltac:(cbn; lia))). f_equal. unfold part_way. cbn. lra. }
  assert (Gr : m 0%nat < m 1%nat).
  { unfold m, sd_mass. destruct (pafter_frame o [0%nat] [0%nat] st 1) as ((_ & _ & F3) & _). rewrite F3.
    change (fst (pafter o [0%nat] [0%nat] st 0)) with (inst_P 0).
    assert (E1 : p_rw2 (fst (pafter o [0%nat] [0%nat] st 1)) 0 =
       advance_rw2 cfg_double true (part_env o (mfp_D inst_E) (mfp_K inst_E) (apply_sgs_supersat o (inst_P 0)) (pseen o [0%nat] [0%nat] st 0) 0)
         (sub_dt o) (1 / 10 ^ 4 * (1 / 10 ^ 4))) by reflexivity.
    pose proof (part_env0 true false 1 1 0 (apply_sgs_supersat o (inst_P 0)) (pseen o [0%nat] [0%nat] st 0) eq_refl eq_refl eq_refl) as PE.
    fold o in PE. rewrite E1, PE; clear PE.
    2:{ cbn [pseen pafter perparticle_loop apply_noncond deltas t_rv snd st inst_st s_S s_E inst_S inst_E e_rv]. unfold noncond_delta, Rdiv. cbn. ring. }
    2:{ cbn [pseen pafter perparticle_loop apply_noncond deltas t_th snd st inst_st s_S s_E inst_S inst_E e_th]. unfold noncond_delta, Rdiv. cbn. ring. }
    2:{ cbn [pseen pafter perparticle_loop apply_noncond deltas t_p snd st inst_st s_S s_E inst_S inst_E e_p o inst_o o_const_p]. unfold noncond_delta, Rdiv. cbn. ring. }
    assert (G : 1 / 10 ^ 4 * (1 / 10 ^ 4) < advance_rw2 cfg_double true (env0 (t_rh (pseen o [0%nat] [0%nat] st 0) 0)) (sub_dt o) (1 / 10 ^ 4 * (1 / 10 ^ 4))).
    { apply env0_grows.
      - rewrite (proj2 (pseen_rh o [0%nat] [0%nat] st 0 0 ltac:(cbn; lia))). unfold part_way. cbn. lra.
      - unfold sub_dt. change (o_dt o) with 1. change (INR (o_sstp o)) with 2. lra. }
    set (w := advance_rw2 _ _ _ _ _) in *. clearbody w. cbn [inst_P p_rw2 p_n st inst_st s_P].
    apply mass_grows; [lra|exact G]. }
  unfold total_water, q_ice. cbn [o inst_o o_ice]. fold o. unfold q_liq, air_in. cbn [o inst_o o_parcel]. fold o.
  rewrite EP, LM. change (sd_mass (fst (pafter o [0%nat] [0%nat] st (o_sstp o))) 0) with (m 2%nat). change (liq_in (s_P st) 0) with (liq_in (fst (pafter o [0%nat] [0%nat] st 0)) 0). rewrite LM. fold (m 0%nat).
  rewrite Erv, L0, L1. clear - Gr.
  change (e_rhod (s_E st') 0%nat) with (12 / 10). change (e_dv (s_E st') 0%nat) with 1.
  change (e_rhod (s_E st) 0%nat) with (12 / 10). change (e_dv (s_E st) 0%nat) with 1.
  set (x := m 0%nat) in *. set (y := m 1%nat) in *. set (z := m 2%nat) in *. clearbody x y z.
  set (r := e_rv (s_E st) 0%nat). clearbody r. intros H. lra.
Qed.

(** ** C23: convergence together with activation *)
Lemma env0_small rhod dt : 0 < rhod -> 0 < dt -> let w := 1 / 10 ^ 4 * (1 / 10 ^ 4) in
  0 < advance_rw2 cfg_double false (env0 rhod) dt w <= 2 * (dt * drw2_dt (env0 rhod) w).
Proof.
  intros Hr Hdt w. pose proof (env0_grows rhod dt Hr Hdt) as G. fold w in G.
  assert (Hw : 0 < w) by (unfold w; lra).
  destruct (C18_variants cfg_double (drw2_dt (env0 rhod)) (c_rd3 (env0 rhod)) dt w) as (V & _ & _).
  specialize (V Hw). fold (advance_rw2 cfg_double false (env0 rhod) dt w) (advance_rw2 cfg_double true (env0 rhod) dt w) in V.
  destruct (C18_substep cfg_double (drw2_dt (env0 rhod)) (c_rd3 (env0 rhod)) dt w cfg_double_ok Hw env0_dry) as (_ & _ & B2 & B3 & B4).
  fold (advance_rw2 cfg_double true (env0 rhod) dt w) in B2, B3, B4.
  set (new := advance_rw2 cfg_double true (env0 rhod) dt w) in *. set (inc := dt * drw2_dt (env0 rhod) w) in *.
  assert (Hinc : 0 < inc).
  { destruct (Rtotal_order inc 0) as [H|[H|H]]; [|specialize (B3 H); lra|exact H]. destruct (B2 H) as [B2' _]. lra. }
  rewrite (Rabs_right inc) in B4 by lra. rewrite (Rabs_right (new - w)) in B4 by lra. change (k_mlt cfg_double) with 2 in B4.
  rewrite V. lra.
Qed.
Lemma env0_rate rhod : 0 < rhod -> 0 < drw2_dt (env0 rhod) (1 / 10 ^ 4 * (1 / 10 ^ 4)).
Proof. intros Hr. pose proof (env0_small rhod 1 Hr ltac:(lra)) as H. cbv zeta in H. lra. Qed.

Lemma ad_env0 mix ad act dt rc2 a : a_rv a = 1 / 100 -> a_Tp a = T_tri -> a_p a = 100000 ->
  ad_env (inst_o mix ad act dt) (mfp_D inst_E) (mfp_K inst_E) (inst_P rc2) 0 a = env0 (a_rh a).
Proof.
  intros H1 H2 H3. unfold ad_env, RH_fun, env0. cbn [inst_o o_RH o_turb o_RH_max]. rewrite H1, H2, H3. reflexivity.
Qed.

(** the number of substeps converges to 1 but the droplet activates, so that 2 substeps are made: 3/2 of the tendency is applied, and
    the droplet ends in air of density 1.3 instead of 1.2 *)
Theorem C23_convergence_and_activation_refuted : exists o st,
  use_perparticle o = true /\ o_adaptive o = true /\ o_mix o = false /\ pop_ok o [0%nat] [0%nat] st /\ air_ok st /\
  e_rhod (s_E st) (p_ijk (s_P st) 0) = 12 / 10 /\ t_rh (s_S st) 0 = 1 /\
  a_rh (fst (ad_particle o (mfp_D (s_E st)) (mfp_K (s_E st)) (e_dv (s_E st)) (s_P st) (s_S st) (deltas o st) 0)) = 13 / 10.
Proof.
  set (w := 1 / 10 ^ 4 * (1 / 10 ^ 4)). assert (Hw : 0 < w) by (unfold w; lra).
  set (R1 := drw2_dt (env0 (12 / 10)) w). set (R2 := drw2_dt (env0 (11 / 10)) w).
  assert (P1 : 0 < R1) by (apply env0_rate; lra). assert (P2 : 0 < R2) by (apply env0_rate; lra).
  set (dt := w / (1000000 * (R1 + R2))).
  assert (Hdt : 0 < dt) by (apply Rdiv_lt_0_compat; lra).
  assert (B : dt * (R1 + R2) = w / 1000000) by (unfold dt; field; lra).
  set (new1 := advance_rw2 cfg_double false (env0 (12 / 10)) dt w).
  set (new2 := advance_rw2 cfg_double false (env0 (11 / 10)) (dt / 2) w).
  pose proof (env0_small (12 / 10) dt ltac:(lra) Hdt) as N1. cbv zeta in N1. fold w in N1. fold new1 R1 in N1.
  pose proof (env0_small (11 / 10) (dt / 2) ltac:(lra) ltac:(lra)) as N2. cbv zeta in N2. fold w in N2. fold new2 R2 in N2.
  assert (M1 : new1 <= w / 100000).
  { assert (dt * R1 <= dt * (R1 + R2)) by (apply Rmult_le_compat_l; lra). lra. }
  assert (M2 : new2 <= w / 100000).
  { assert (dt * R2 <= dt * (R1 + R2)) by (apply Rmult_le_compat_l; lra). lra. }
  set (rc2 := w + new1 / 2).
  set (o := inst_o false true 2 dt). set (st := inst_st rc2).
  exists o, st. repeat (split; [first [reflexivity|apply inst_pop_ok|apply inst_air_ok]|]).
  change (s_P st) with (inst_P rc2). change (s_E st) with inst_E. change (s_S st) with inst_S. change (e_dv inst_E) with (fun _ : nat => 1).
  set (d := deltas o st). set (lD := mfp_D inst_E). set (lK := mfp_K inst_E).
  assert (D1 : t_rv d 0%nat = 0) by (unfold d, deltas, noncond_delta; cbn; ring).
  assert (D2 : t_th d 0%nat = 0) by (unfold d, deltas, noncond_delta; cbn; ring).
  assert (D3 : t_rh d 0%nat = 2 / 10) by (unfold d, deltas, noncond_delta; cbn; lra).
  assert (D4 : t_p d 0%nat = 0) by (unfold d, deltas, noncond_delta; cbn; ring).
  set (a0 := ad_init o (inst_P rc2) inst_S 0).
  set (a1 := ad_calc o (ad_apply o d 0 0 1 a0)).
  assert (A1 : a_rv a1 = 1 / 100 /\ a_th a1 = T_tri /\ a_rh a1 = 12 / 10 /\ a_p a1 = 100000 /\ a_rw2 a1 = w /\ a_Tp a1 = T_tri).
  { unfold a1, ad_calc, ad_apply, T_of, p_of. cbn [a_rv a_th a_rh a_p a_rw2 a_Tp a0 ad_init o inst_o o_th_dry o_const_p inst_S t_rv t_th t_rh t_p inst_P p_rw2].
    rewrite D1, D2, D3, D4. rewrite !Rmult_0_l, !Rplus_0_r, exner_1, Rmult_1_r. repeat split; try reflexivity; lra. }
  destruct A1 as (A11 & A12 & A13 & A14 & A15 & A16).
  set (a2 := ad_calc o (ad_apply o d 0 0 (- 1 / 2) a1)).
  assert (A2 : a_rv a2 = 1 / 100 /\ a_th a2 = T_tri /\ a_rh a2 = 11 / 10 /\ a_p a2 = 100000 /\ a_rw2 a2 = w /\ a_Tp a2 = T_tri).
  { unfold a2, ad_calc, ad_apply, T_of, p_of. cbn [a_rv a_th a_rh a_p a_rw2 a_Tp o inst_o o_th_dry o_const_p].
    rewrite D1, D2, D3, D4, A11, A12, A13, A14, A15. rewrite !Rmult_0_l, !Rplus_0_r, exner_1, Rmult_1_r. repeat split; try reflexivity; lra. }
  destruct A2 as (A21 & A22 & A23 & A24 & A25 & A26).
  assert (EV1 : ad_env o lD lK (inst_P rc2) 0 a1 = env0 (12 / 10)) by (rewrite <- A13; apply ad_env0; assumption).
  assert (EV2 : ad_env o lD lK (inst_P rc2) 0 a2 = env0 (11 / 10)) by (rewrite <- A23; apply ad_env0; assumption).
  assert (ER : ad_result o lD lK (inst_P rc2) inst_S d 0 = mk_adres (ad_apply o d 0 0 (- (- 1 / 2)) a2) 1 true new1 (- 1 / 2)).
  { unfold ad_result, ad_start. change (o_sstp o + 1)%nat with 3%nat. change (o_sstp o =? 1)%nat with false.
    change (o_sstp o) with 2%nat.
    cbn [ad_search]. change (o_sstp o) with 2%nat. cbn [Nat.leb Nat.eqb Nat.mul Nat.add r_a r_sstp r_done r_drw2].
    change (p_dssp (inst_P rc2) 0) with 0. fold a0 a1.
    change (INR 1) with 1. change (INR 2) with 2. fold a2.
    rewrite EV1, EV2, A15, A25. change (o_k o) with cfg_double. change (o_dt o) with dt.
    replace (dt / 1) with dt by field. fold new1 new2.
    change (o_adapt_eps o) with (1 / 10000). change (o_adapt_max o) with 4.
    replace (Rleb (Rabs (new2 * 2 - new1)) (1 / 10000 * w)) with true
      by (symmetry; apply Rleb_true; apply Rabs_le; lra).
    replace (Rltb (Rabs new1) (4 * w)) with true by (symmetry; apply Rltb_true; apply Rabs_def1; lra).
    reflexivity. }
  destruct (C23_fraction o lD lK (fun _ => 1) (inst_P rc2) inst_S d 0 ltac:(cbn; lia) ltac:(cbn [inst_P p_rw2]; lra)) as (F & F1 & _ & _ & _ & _ & F3).
  rewrite F1. destruct F3 as (t & T1 & T2 & ->).
  - unfold converged_activating, crossing. rewrite ER. cbn [r_done r_a r_sstp r_drw2 ad_apply a_rw2]. rewrite A25. change (INR 1) with 1.
    change (p_rc2 (inst_P rc2) 0) with rc2.
    replace (Rltb w rc2) with true by (symmetry; apply Rltb_true; unfold rc2; lra).
    replace (Rltb rc2 (w + 1 * new1)) with true by (symmetry; apply Rltb_true; unfold rc2; lra). reflexivity.
  - change (o_sstp o) with 2%nat in T2. assert (t = 1)%nat by lia. subst t. rewrite D3. change (t_rh inst_S 0) with 1.
    change (INR (2 * 1)) with 2. lra.
Qed.

(** ** a case that meets the hypotheses of the theorems on per-cell substeps: the same droplet, two substeps; it grows in the first *)
Definition inst_pc (dt : R) : copts :=
  {| o_parcel := false; o_th_dry := false; o_const_p := true; o_ice := false; o_exact := false; o_mix := true; o_adaptive := false;
     o_RH := pv_cc; o_adapt_eps := 1 / 10000; o_adapt_max := 4; o_turb := false; o_RH_max := 44; o_var_rho := false; o_dt := dt;
     o_sstp := 2; o_act := 1; o_k := cfg_double |}.
Theorem C20_instance : exists o g sijk sid st st',
  use_perparticle o = false /\ (1 <= o_sstp o)%nat /\ steady o /\ pop_ok o sijk sid st /\ cond_part o true g sijk sid st st' /\
  q_liq o (s_P st) (s_E st) 0 < q_liq o (s_P (after o g sijk sid st 1)) (s_E st) 0 /\ total_water o st' 0 = total_water o st 0.
Proof.
  set (o := inst_pc 1). set (st := inst_st 0). set (g := mk_junk (fun _ => 0) (fun _ => 0) (fun _ => 0) (fun _ => 0)).
  assert (HP : pop_ok o [0%nat] [0%nat] st) by apply inst_pop_ok.
  pose proof (cp_percell o true g [0%nat] [0%nat] st eq_refl) as HC. cbv zeta in HC.
  exists o, g, [0%nat], [0%nat], st. eexists. split; [reflexivity|]. split; [cbn; lia|]. split; [left; reflexivity|]. split; [exact HP|].
  split; [exact HC|]. split.
  2:{ apply (C20_percell_water o true g [0%nat] [0%nat] st _ eq_refl ltac:(cbn; lia) (or_introl eq_refl) HP HC). cbn. lia. }
  clear HC HP. unfold q_liq. set (P1 := s_P (after o g [0%nat] [0%nat] st 1)).
  assert (E1 : p_rw2 P1 0 = advance_rw2 cfg_double true
     (cell_env o (mfp_D inst_E) (mfp_K inst_E) (inst_P 0) (hskpng_Tpr o (s_E (sstp_percell_step o 0 st)))
        (fun i => e_RH (hskpng_Tpr o (s_E (sstp_percell_step o 0 st))) 0) 0) (sub_dt o) (1 / 10 ^ 4 * (1 / 10 ^ 4))) by reflexivity.
  assert (Erv : e_rv (s_E (sstp_percell_step o 0 st)) 0 = 1 / 100).
  { cbn [sstp_percell_step o inst_pc o_sstp Nat.eqb s_E e_rv]. unfold sstp_var. cbn [Nat.eqb fst st inst_st s_E s_S inst_E inst_S e_rv t_rv]. unfold Rdiv. ring. }
  assert (Eth : e_th (s_E (sstp_percell_step o 0 st)) 0 = T_tri).
  { cbn [sstp_percell_step o inst_pc o_sstp Nat.eqb s_E e_th]. unfold sstp_var. cbn [Nat.eqb fst st inst_st s_E s_S inst_E inst_S e_th t_th]. unfold Rdiv. ring. }
  assert (Env : cell_env o (mfp_D inst_E) (mfp_K inst_E) (inst_P 0) (hskpng_Tpr o (s_E (sstp_percell_step o 0 st)))
        (fun i => e_RH (hskpng_Tpr o (s_E (sstp_percell_step o 0 st))) 0) 0 = env0 (12 / 10)).
  { assert (HT : e_T (hskpng_Tpr o (s_E (sstp_percell_step o 0 st))) 0 = T_tri).
    { cbn [hskpng_Tpr e_T]. unfold T_of. cbn [o inst_pc o_th_dry]. fold o. rewrite Eth.
      change (e_p (s_E (sstp_percell_step o 0 st)) 0%nat) with 100000. rewrite exner_1. ring. }
    assert (HR : e_RH (hskpng_Tpr o (s_E (sstp_percell_step o 0 st))) 0 = p_v 100000 (1 / 100) / p_vs T_tri).
    { change (e_RH (hskpng_Tpr o (s_E (sstp_percell_step o 0 st))) 0%nat) with
        (p_v 100000 (e_rv (s_E (sstp_percell_step o 0 st)) 0%nat) / p_vs (e_T (hskpng_Tpr o (s_E (sstp_percell_step o 0 st))) 0%nat)).
      rewrite Erv, HT. reflexivity. }
    assert (HV : e_eta (hskpng_Tpr o (s_E (sstp_percell_step o 0 st))) 0 = visc T_tri).
    { change (e_eta (hskpng_Tpr o (s_E (sstp_percell_step o 0 st))) 0%nat) with (visc (e_T (hskpng_Tpr o (s_E (sstp_percell_step o 0 st))) 0%nat)).
      rewrite HT. reflexivity. }
    unfold cell_env, env0. cbn [inst_P p_ijk p_rd3 p_kpa p_vt]. rewrite HT, HR, HV.
    change (e_rv (hskpng_Tpr o (s_E (sstp_percell_step o 0 st))) 0%nat) with (e_rv (s_E (sstp_percell_step o 0 st)) 0%nat). rewrite Erv.
    reflexivity. }
  rewrite Env in E1. clear Env Erv Eth.
  assert (G : 1 / 10 ^ 4 * (1 / 10 ^ 4) < p_rw2 P1 0).
  { rewrite E1. apply env0_grows; [lra|]. unfold sub_dt. change (o_dt o) with 1. change (INR (o_sstp o)) with 2. lra. }
  assert (HA : 0 < air_in (o_parcel o) (e_rhod (s_E st)) (e_dv (s_E st)) 0) by (cbn; lra).
  apply Rmult_lt_compat_r; [apply Rinv_0_lt_compat, HA|].
  assert (CS : forall w, cellsum (p_np (s_P st)) (p_ijk (s_P st)) w 0 = w 0%nat) by (intros w; unfold cellsum; cbn; lra).
  destruct (after_frame o g [0%nat] [0%nat] st 1) as ((F1 & F2 & F3) & _). fold P1 in F1, F2, F3.
  unfold liq_in. rewrite F1, F2, F3, !CS. clear E1. set (w := p_rw2 P1 0%nat) in *. clearbody w.
  change (p_rw2 (s_P st) 0%nat) with (1 / 10 ^ 4 * (1 / 10 ^ 4)). change (p_n (s_P st) 0%nat) with 1%N. apply mass_grows; [lra|exact G].
Qed.

Print Assumptions C20_nomix_water_and_heat.
Print Assumptions C20_mix_density_refuted.
Print Assumptions C23_convergence_and_activation_refuted.
Print Assumptions C20_instance.
