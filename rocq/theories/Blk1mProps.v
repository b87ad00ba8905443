(** C27-C33: the single-moment bulk scheme. *)
From Coq Require Import Reals Lra Psatz List ZArith Lia Bool.
From Verif Require Import Base BaseProofs ThermoModel ThermoProofs Blk1mModel Blk1mProofs.
Import ListNotations.
Local Open Scope R_scope.

(** *** Specification *)

(** the state arrays that saturation adjustment must not touch *)
Definition same_rest (c c' : cell) : Prop :=
  rhod c' = rhod c /\ pres c' = pres c /\ ria c' = ria c /\ rib c' = rib c.
(** temperature of a cell: from the dry potential temperature and density, or from the standard
    potential temperature and pressure *)
Definition temperature (o : opts) (c : cell) : R :=
  if o_th_dry o then dry_T (th c) (rhod c) else th c * exner (pres c).
(** pressure of a cell: from the gas law, or as supplied *)
Definition pressure (o : opts) (c : cell) : R :=
  if o_th_dry o then rhod c * (R_d + rv c * R_v) * temperature o c else pres c.

Lemma Tp_spec o c T p : Tp o (rhod c) (pres c) (th c) (rv c) = Some (T, p) ->
  T = temperature o c /\ p = pressure o c /\ o_const_p o <> o_th_dry o.
Proof.
  unfold Tp, pressure, temperature, dry_p.
  destruct (o_const_p o), (o_th_dry o); cbn; intros H; inversion H; subst; repeat split; congruence.
Qed.

(** *** C27 *)
Theorem C27_nwtrph :
  forall o l,
    (o_cond o = false -> adj_cellwise_nwtrph o l = Ok l) /\
    (o_cond o = true -> o_const_p o = o_th_dry o -> l <> [] -> adj_cellwise_nwtrph o l = Throw l) /\
    (o_cond o = true -> o_const_p o <> o_th_dry o ->
     exists l', adj_cellwise_nwtrph o l = Ok l' /\
     Forall2 (fun c c' =>
       same_rest c c' /\ rr c' = rr c /\
       rv c' + rc c' = rv c + rc c /\
       (0 <= rv c -> 0 <= rc c -> 0 <= rv c' /\ 0 <= rc c') /\
       th c' - th c = th c / temperature o c * (l_v (temperature o c) / c_pd) * (rc c' - rc c) /\
       (rv c = r_vs (temperature o c) (pressure o c) -> 0 <= rv c -> 0 <= rc c -> c' = c)) l l').
Proof.
  intros o l. unfold adj_cellwise_nwtrph. split; [|split].
  - intros ->. reflexivity.
  - intros -> He Hl. cbn [negb]. destruct l as [|c r]; [congruence|].
    cbn [for_cells]. unfold nwt_cell. now rewrite (Tp_none _ _ _ _ _ He).
  - intros -> Hne. cbn [negb]. apply for_cells_all_ok. intros c _.
    unfold nwt_cell. destruct (Tp_some o (rhod c) (pres c) (th c) (rv c) Hne) as (T & p & HT).
    rewrite HT. destruct (Tp_spec _ _ _ _ HT) as (ET & Ep & _).
    eexists. split; [reflexivity|].
    set (s := nwt_iters _ _ _ _ _ _ _ _).
    set (d := cmin (rv c) (cmax (- rc c) (n_drc s))).
    unfold same_rest. cbn [set_adj rhod pres th rv rc rr ria rib].
    split; [auto|]. split; [reflexivity|]. split; [ring|]. split; [|split].
    + intros H1 H2. assert (d <= rv c) by apply cmin_le_l.
      assert (- rc c <= d).
      { apply cmin_glb; [lra|apply cmax_ge_l]. }
      lra.
    + rewrite <- ET. unfold Rdiv. ring.
    + intros Hs H1 H2. rewrite <- ET, <- Ep in Hs.
      assert (Hd : d = 0).
      { unfold d, s. rewrite (nwt_iters_saturated _ _ _ _ _ _ T p _ HT Hs). cbn [n_drc].
        rewrite cmin_Rmin, cmax_Rmax. rewrite Rmax_right, Rmin_right by lra. reflexivity. }
      rewrite Hd, Rmult_0_r, !Rplus_0_r, Rminus_0_r. destruct c; reflexivity.
Qed.

Definition opts_default : opts :=
  {| o_cond := true; o_cevp := true; o_revp := true; o_conv := true; o_accr := true; o_sedi := true;
     o_homA1 := true; o_homA2 := true; o_hetA := true; o_hetB := true; o_depA := true; o_depB := true;
     o_rimA := true; o_rimB := true; o_melA := true; o_melB := true;
     o_r_c0 := 5 / 10000; o_k_acnv := 1 / 1000; o_r_eps := 2 / 100000;
     o_adj_nwtrph := true; o_nwtrph_iters := 3; o_th_dry := true; o_const_p := false |}.
(** the same with the standard potential temperature and a given pressure profile *)
Definition opts_std : opts :=
  {| o_cond := true; o_cevp := true; o_revp := true; o_conv := true; o_accr := true; o_sedi := true;
     o_homA1 := true; o_homA2 := true; o_hetA := true; o_hetB := true; o_depA := true; o_depB := true;
     o_rimA := true; o_rimB := true; o_melA := true; o_melB := true;
     o_r_c0 := 5 / 10000; o_k_acnv := 1 / 1000; o_r_eps := 2 / 100000;
     o_adj_nwtrph := true; o_nwtrph_iters := 3; o_th_dry := false; o_const_p := true |}.
Theorem C27_instance : o_cond opts_default = true /\ o_const_p opts_default <> o_th_dry opts_default.
Proof. split; [reflexivity|discriminate]. Qed.

(** a non-trivial case: one iteration in supersaturated air over a given pressure condenses *)
Theorem C27_condenses :
  let o := {| o_cond := true; o_cevp := true; o_revp := true; o_conv := true; o_accr := true;
     o_sedi := true; o_homA1 := true; o_homA2 := true; o_hetA := true; o_hetB := true; o_depA := true;
     o_depB := true; o_rimA := true; o_rimB := true; o_melA := true; o_melB := true;
     o_r_c0 := 5 / 10000; o_k_acnv := 1 / 1000; o_r_eps := 2 / 100000;
     o_adj_nwtrph := true; o_nwtrph_iters := 1; o_th_dry := false; o_const_p := true |} in
  let c := {| rhod := 1; pres := 100000; th := T_tri; rv := 1 / 100; rc := 0; rr := 0; ria := 0; rib := 0 |} in
  exists c', adj_cellwise_nwtrph o [c] = Ok [c'] /\ rv c' < rv c.
Proof.
  intros o c.
  assert (HT : T_tri * exner 100000 = T_tri).
  { unfold exner. replace (100000 / p_1000) with 1 by (unfold p_1000; lra). rewrite cpow_1. ring. }
  assert (HTp : Tp o 1 100000 T_tri (1 / 100) = Some (T_tri, 100000)).
  { unfold Tp. cbn [o o_const_p o_th_dry negb andb]. now rewrite HT. }
  assert (Hc : nwt_cell o c = Ok (set_adj c
      (T_tri + T_tri / T_tri * l_v T_tri / c_pd * cmin (1 / 100) (cmax (- 0) (0 + (1 / 100 - r_vs T_tri 100000) /
         (1 + l_v T_tri * l_v T_tri / (c_pd * R_v) / (T_tri * T_tri) / (1 - p_vs T_tri / 100000) * r_vs T_tri 100000))))
      (1 / 100 - cmin (1 / 100) (cmax (- 0) (0 + (1 / 100 - r_vs T_tri 100000) /
         (1 + l_v T_tri * l_v T_tri / (c_pd * R_v) / (T_tri * T_tri) / (1 - p_vs T_tri / 100000) * r_vs T_tri 100000))))
      (0 + cmin (1 / 100) (cmax (- 0) (0 + (1 / 100 - r_vs T_tri 100000) /
         (1 + l_v T_tri * l_v T_tri / (c_pd * R_v) / (T_tri * T_tri) / (1 - p_vs T_tri / 100000) * r_vs T_tri 100000)))) 0)).
  { unfold nwt_cell. change (Tp o (rhod c) (pres c) (th c) (rv c)) with (Tp o 1 100000 T_tri (1 / 100)).
    rewrite HTp. reflexivity. }
  unfold adj_cellwise_nwtrph. change (negb (o_cond o)) with false. cbv iota. cbn [for_cells].
  rewrite Hc.
  eexists. split; [reflexivity|]. cbn [rv set_adj c].
  assert (Hps : p_vs T_tri = p_tri).
  { unfold p_vs. pose proof T_tri_pos. replace (T_tri / T_tri) with 1 by (field; lra).
    rewrite ln_1, (Rminus_diag_eq (1 / T_tri)), !Rmult_0_r, Rminus_0_r, exp_0 by reflexivity. ring. }
  assert (Hl : l_v T_tri = l_tri) by (unfold l_v; ring).
  unfold r_vs. rewrite Hps, Hl.
  assert (0 < eps / (100000 / p_tri - 1) < 1 / 200).
  { unfold eps, M_v, M_H, M_OH, M_d, p_tri. lra. }
  set (rs := eps / (100000 / p_tri - 1)) in *.
  set (co := l_tri * l_tri / (c_pd * R_v) / (T_tri * T_tri) / (1 - p_tri / 100000)).
  assert (0 < co).
  { unfold co. repeat apply Rdiv_lt_0_compat; unfold l_tri, T_tri, p_tri; try lra.
    apply Rmult_lt_0_compat; [unfold c_pd; lra|apply R_v_pos]. }
  assert (0 < 1 + co * rs) by nra.
  assert (0 < (1 / 100 - rs) / (1 + co * rs)) by (apply Rdiv_lt_0_compat; lra).
  rewrite cmin_Rmin, cmax_Rmax.
  assert (0 < Rmin (1 / 100) (Rmax (-0) (0 + (1 / 100 - rs) / (1 + co * rs)))); [|lra].
  apply Rmin_glb_lt; [lra|]. eapply Rlt_le_trans; [|apply Rmax_r]. lra.
Qed.

(** *** C28 *)

(** Kessler's limit on the rain evaporated in one call *)
Definition kessler_limit (o : opts) (dt : R) (c : cell) : R :=
  let rvs := r_vs (temperature o c) (pressure o c) in
  if Rlt_dec (rv c) rvs then
    Rmax 0 (dt * evaporation_rate (rv c) rvs (rr c) (rhod c) (pressure o c)) else 0.

Lemma f_update_spec o dt c : o_const_p o <> o_th_dry o ->
  k_F (rk4_init o dt c) =
  {| f_r := rv c; f_rs := r_vs (temperature o c) (pressure o c); f_T := temperature o c;
     f_p := pressure o c |}.
Proof.
  intros Hne. unfold rk4_init, f_update, pressure, temperature, dry_p. cbn [k_F].
  destruct (o_const_p o), (o_th_dry o); cbn; try congruence; reflexivity.
Qed.

(** C28: whenever the adjustment returns, in every cell, for every number of iterations: *)
Theorem C28_rk4 :
  forall fuel o dt l,
    0 < o_r_eps o ->
    (o_cond o = false -> adj_cellwise_rk4 fuel o dt l = Ok l) /\
    (o_cond o = true -> o_const_p o = o_th_dry o -> l <> [] -> adj_cellwise_rk4 fuel o dt l = Throw l) /\
    (forall l', o_cond o = true -> adj_cellwise_rk4 fuel o dt l = Ok l' ->
     Forall2 (fun c c' =>
       same_rest c c' /\
       rv c' + rc c' + rr c' = rv c + rc c + rr c /\
       (0 <= rc c -> 0 <= rc c') /\ (0 <= rr c -> 0 <= rr c') /\
       rr c' <= rr c /\
       (o_revp o = false -> rr c' = rr c) /\
       (o_cevp o = false -> rc c <= rc c' /\ rr c' = rr c /\ rv c' <= rv c) /\
       rr c - rr c' <= kessler_limit o dt c /\
       (Rabs (rv c - r_vs (temperature o c) (pressure o c)) <= o_r_eps o -> c' = c)) l l').
Proof.
  intros fuel o dt l He. unfold adj_cellwise_rk4. split; [|split].
  - intros ->. reflexivity.
  - intros -> Heq Hl. cbn [negb]. destruct l as [|c r]; [congruence|].
    cbn [for_cells]. unfold rk4_cell. rewrite Heq, eqb_reflx. reflexivity.
  - intros l' -> H. cbn [negb] in H. apply for_cells_ok in H.
    eapply Forall2_weaken; [|exact H]. intros c c' Hc. unfold rk4_cell in Hc.
    destruct (eqb (o_const_p o) (o_th_dry o)) eqn:Eq; [discriminate|].
    apply eqb_false_iff in Eq.
    destruct (rk4_loop fuel o (rhod c) (rk4_init o dt c)) as [s|] eqn:El; [|discriminate].
    inversion Hc; subst c'; clear Hc.
    pose proof (rk4_reach_inv _ _ _ _ He (rk4_loop_reach _ _ _ _ _ El)) as I.
    pose proof (f_update_spec o dt c Eq) as HF.
    destruct I as (I1 & I2 & I3 & I4 & I5 & I6 & I7 & I8 & I9).
    unfold rk_total in I1.
    change (k_rv (rk4_init o dt c)) with (rv c) in *.
    change (k_rc (rk4_init o dt c)) with (rc c) in *.
    change (k_rr (rk4_init o dt c)) with (rr c) in *.
    unfold same_rest. cbn [set_adj rhod pres th rv rc rr ria rib].
    split; [auto|]. split; [exact I1|]. split; [exact I2|]. split; [exact I3|].
    split; [exact I4|]. split; [exact I7|]. split; [|split].
    + intros Hce. destruct (I8 Hce). repeat split; lra.
    + rewrite I5. unfold kessler_limit.
      assert (Hd : k_drr_max (rk4_init o dt c) =
        if Rltb (rv c) (r_vs (temperature o c) (pressure o c)) && Rltb 0 (rr c) && o_revp o
        then dt * evaporation_rate (rv c) (r_vs (temperature o c) (pressure o c)) (rr c) (rhod c) (pressure o c)
        else 0).
      { unfold rk4_init in HF |- *. cbn [k_F k_drr_max] in HF |- *. rewrite HF. reflexivity. }
      destruct (Rle_dec (k_drr_max (rk4_init o dt c)) (k_drr_max s)) as [Hle|Hgt].
      * destruct (Rlt_dec _ _); [|lra].
        match goal with |- _ <= Rmax 0 ?x => pose proof (Rmax_l 0 x) end. lra.
      * assert (Hpos : 0 <= k_drr_max s) by (apply I6; lra).
        destruct (Rltb (rv c) (r_vs (temperature o c) (pressure o c))) eqn:E1.
        -- apply Rltb_true in E1. destruct (Rlt_dec _ _); [|contradiction].
           cbn [andb] in Hd. destruct (Rltb 0 (rr c) && o_revp o); [|lra].
           rewrite Hd. match goal with |- _ <= Rmax 0 ?x => pose proof (Rmax_r 0 x) end. lra.
        -- cbn [andb] in Hd. lra.
    + intros Hsat.
      assert (Hcond : rk4_cond o (rk4_init o dt c) = false).
      { unfold rk4_cond. rewrite HF. cbn [f_rs rk4_init k_rv].
        assert (Hb : - o_r_eps o <= rv c - r_vs (temperature o c) (pressure o c) <= o_r_eps o).
        { revert Hsat. unfold Rabs. destruct (Rcase_abs _); lra. }
        assert (E1 : Rltb (o_r_eps o) (rv c - r_vs (temperature o c) (pressure o c)) = false)
          by (apply Rltb_false; lra).
        assert (E2 : Rltb (rv c - r_vs (temperature o c) (pressure o c)) (- o_r_eps o) = false)
          by (apply Rltb_false; lra).
        rewrite E1, E2, andb_false_r. reflexivity. }
      destruct fuel; cbn [rk4_loop] in El; rewrite Hcond in El; cbn [negb] in El;
        inversion El; subst s; cbn; destruct c; reflexivity.
Qed.

(** C28: in every iteration of the adjustment, at most one of the three phase changes happens: vapour
    condenses only where it exceeds saturation; cloud water evaporates only below saturation; rain
    evaporates only below saturation and only once no cloud water is left; no iteration is empty,
    and no vapour is taken below zero while the saturation value is not negative (these are the
    assertions in the code). *)
Theorem C28_order_of_evaporation :
  forall o dt c s brk s', 0 < o_r_eps o ->
    rk4_reach o (rhod c) (rk4_init o dt c) s -> rk4_cond o s = true ->
    rk4_body o (rhod c) s = (brk, s') ->
    k_rv s' <> k_rv s /\
    (k_rr s' < k_rr s -> k_rc s <= 0 /\ k_rv s < f_rs (k_F s) /\ k_rc s' = k_rc s) /\
    (k_rc s' < k_rc s -> k_rv s < f_rs (k_F s) /\ k_rr s' = k_rr s) /\
    (k_rv s' < k_rv s -> f_rs (k_F s) < k_rv s' /\ k_rr s' = k_rr s) /\
    (k_rr s' <= k_rr s) /\
    (0 <= f_rs (k_F s) -> 0 <= k_rv s -> 0 <= k_rv s').
Proof.
  intros o dt c s brk s' He Hr Hc Hb.
  destruct (rk4_body_spec _ _ _ _ _ He Hc Hb) as (h & Hn & Hv & Hf & [C | [C | C]]).
  - destruct C as (C1 & C2 & C3 & C4 & C5 & C6 & C7). rewrite Hv, C5, C6. repeat split; intros; lra.
  - destruct C as (C1 & C2 & C3 & C4 & C5 & C6 & C7 & C8). rewrite Hv, C6, C7. repeat split; intros; lra.
  - destruct C as (C1 & C2 & C3 & C4 & C5 & C6 & C7 & C8 & C9 & C10). rewrite Hv, C8, C9. repeat split; intros; lra.
Qed.

(** C28: not true of the code: rain evaporation (opts.revp) can be used without cloud evaporation
    (opts.cevp).  With cevp off, rain in dry air is left untouched, whatever revp says. *)
Theorem C28_revp_alone_refuted :
  forall fuel o dt c, 0 < o_r_eps o -> o_cond o = true -> o_const_p o <> o_th_dry o ->
    o_revp o = true -> o_cevp o = false ->
    rv c < r_vs (temperature o c) (pressure o c) -> 0 < rr c ->
    adj_cellwise_rk4 fuel o dt [c] = Ok [c].
Proof.
  intros fuel o dt c He Hc Hne Hre Hce Hlt Hrr. unfold adj_cellwise_rk4. rewrite Hc. cbn [negb for_cells].
  unfold rk4_cell. apply eqb_false_iff in Hne. rewrite Hne. apply eqb_false_iff in Hne.
  assert (Hcond : rk4_cond o (rk4_init o dt c) = false).
  { unfold rk4_cond. rewrite (f_update_spec _ _ _ Hne), Hce. cbn [f_rs rk4_init k_rv andb].
    rewrite orb_false_r. apply Rltb_false. lra. }
  assert (Hl : rk4_loop fuel o (rhod c) (rk4_init o dt c) = Some (rk4_init o dt c)).
  { destruct fuel; cbn [rk4_loop]; rewrite Hcond; reflexivity. }
  rewrite Hl. cbn [rk4_init k_th k_rv k_rc k_rr]. destruct c; reflexivity.
Qed.

(** a cell in which the adjustment returns after evaporating some cloud *)
Theorem C28_instance :
  exists o, 0 < o_r_eps o /\ o_cond o = true /\ o_const_p o <> o_th_dry o /\ o_revp o = true /\
    rk4_cond o (rk4_init o 1 {| rhod := 1; pres := 100000; th := T_tri; rv := 0; rc := 1 / 10; rr := 0; ria := 0; rib := 0 |}) = true.
Proof.
  exists opts_std. split; [cbn; lra|]. split; [reflexivity|]. split; [discriminate|]. split; [reflexivity|].
  assert (Hne : o_const_p opts_std <> o_th_dry opts_std) by discriminate.
  unfold rk4_cond. rewrite (f_update_spec _ _ _ Hne).
  unfold temperature, pressure. 
  set (c := Build_cell _ _ _ _ _ _ _ _).
  change (o_th_dry opts_std) with false. cbv iota.
  change (k_rv (rk4_init opts_std 1 c)) with 0. change (k_rc (rk4_init opts_std 1 c)) with (1 / 10).
  change (th c) with T_tri. change (pres c) with 100000. change (o_r_eps opts_std) with (2 / 100000).
  change (o_cevp opts_std) with true. cbn [f_rs].
  assert (HT : T_tri * exner 100000 = T_tri).
  { unfold exner. replace (100000 / p_1000) with 1 by (unfold p_1000; lra). rewrite cpow_1. ring. }
  rewrite HT.
  assert (Hps : p_vs T_tri = p_tri).
  { unfold p_vs. pose proof T_tri_pos. replace (T_tri / T_tri) with 1 by (field; lra).
    rewrite ln_1, (Rminus_diag_eq (1 / T_tri)), !Rmult_0_r, Rminus_0_r, exp_0 by reflexivity. ring. }
  assert (Hrs : 3 / 1000 < r_vs T_tri 100000).
  { unfold r_vs. rewrite Hps. unfold eps, M_v, M_H, M_OH, M_d, p_tri. lra. }
  assert (E2 : Rltb (0 - r_vs T_tri 100000) (- (2 / 100000)) = true) by (apply Rltb_true; lra).
  assert (E3 : Rltb 0 (1 / 10) = true) by (apply Rltb_true; lra).
  rewrite E2, E3. cbn [andb orb]. apply orb_true_r.
Qed.

(** *** C29 *)

(** the conversion of cloud water to rain per unit time *)
Definition cloud_to_rain (o : opts) (c : cell) : R :=
  (if o_conv o then o_k_acnv o * Rmax 0 (rc c - o_r_c0 o) else 0) +
  (if o_accr o then 22 / 10 * rc c * (if Rlt_dec 0 (rr c) then Rpower (rr c) (875 / 1000) else 0) else 0).

(** the warm-rain part of the tendencies: what is added to rain is taken from cloud water *)
Definition warm_rain (o : opts) (c : cell) (d d' : dots) : Prop :=
  drr d' = drr d + cloud_to_rain o c /\ drc d' = drc d - cloud_to_rain o c /\
  dth d' = dth d /\ drv d' = drv d /\ dria d' = dria d /\ drib d' = drib d.

Lemma hlpr_warm o x : fst (hlpr_cell o x) = fst x /\ warm_rain o (fst x) (snd x) (snd (hlpr_cell o x)).
Proof.
  destruct x as [c d]. unfold hlpr_cell, warm_rain, cloud_to_rain, autoconversion_rate, collection_rate, cpow.
  cbn [fst snd add_dots dth drv drc drr dria drib]. rewrite cmax_Rmax.
  split; [reflexivity|].
  destruct (Req_EM_T (875 / 1000) 0); [lra|]. repeat split; try lra.
Qed.

Theorem C29_warm_rain :
  forall o l, exists l', rhs_cellwise o l = Ok l' /\
    Forall2 (fun x x' => fst x' = fst x /\ warm_rain o (fst x) (snd x) (snd x') /\
       (0 <= rc (fst x) -> 0 <= o_k_acnv o -> 0 <= cloud_to_rain o (fst x)) /\
       (rc (fst x) <= o_r_c0 o -> rr (fst x) = 0 -> snd x' = snd x)) l l'.
Proof.
  intros o l. unfold rhs_cellwise. rewrite for_cells_total. eexists. split; [reflexivity|].
  apply Forall2_map_r. intros [c d]. destruct (hlpr_warm o (c, d)) as [H1 H2].
  split; [exact H1|]. split; [exact H2|]. cbn [fst snd] in *.
  assert (Hn : 0 <= (if Rlt_dec 0 (rr c) then Rpower (rr c) (875 / 1000) else 0)).
  { destruct (Rlt_dec 0 (rr c)); [left; apply Rpower_pos|lra]. }
  split.
  - intros Hrc Hk. unfold cloud_to_rain. pose proof (Rmax_l 0 (rc c - o_r_c0 o)).
    apply Rplus_le_le_0_compat.
    + destruct (o_conv o); [now apply Rmult_le_pos|lra].
    + destruct (o_accr o); [|lra]. apply Rmult_le_pos; [lra|exact Hn].
  - intros Hle Hrr. destruct H2 as (E1 & E2 & E3 & E4 & E5 & E6).
    assert (Hz : cloud_to_rain o c = 0).
    { unfold cloud_to_rain. rewrite Rmax_left by lra. rewrite Hrr.
      destruct (Rlt_dec 0 0); [lra|]. destruct (o_conv o), (o_accr o); lra. }
    rewrite Hz in *. destruct (snd (hlpr_cell o (c, d))) as [a1 a2 a3 a4 a5 a6], d as [b1 b2 b3 b4 b5 b6].
    cbn in *. subst. f_equal; lra.
Qed.
Theorem C29_instance :
  cloud_to_rain opts_default {| rhod := 1; pres := 0; th := 300; rv := 1 / 100; rc := 15 / 10000; rr := 0; ria := 0; rib := 0 |} = / 10 ^ 6.
Proof.
  unfold cloud_to_rain. cbn [opts_default o_conv o_accr o_k_acnv o_r_c0 rc rr].
  rewrite Rmax_right by lra. destruct (Rlt_dec 0 0); lra.
Qed.

(** *** C30 *)

(** evaporation of an amount e of rain per unit time, with the corresponding cooling *)
Definition rain_evaporates (o : opts) (c : cell) (e : R) (d d' : dots) : Prop :=
  drr d' = drr d - e /\ drv d' = drv d + e /\
  dth d' = dth d - th c / temperature o c * (l_v (temperature o c) / c_pd) * e /\
  drc d' = drc d /\ dria d' = dria d /\ drib d' = drib d.
(** Kessler's rate *)
Definition kessler_rate (o : opts) (c : cell) : R :=
  evaporation_rate (rv c) (r_vs (temperature o c) (pressure o c)) (rr c) (rhod c) (pressure o c).

Lemma revap_cell_spec o dt x : o_const_p o <> o_th_dry o ->
  exists x', revap_cell o dt x = Ok x' /\ fst x' = fst x /\
    rain_evaporates o (fst x) (Rmin (rr (fst x) / dt) (dt * kessler_rate o (fst x))) (snd x) (snd x').
Proof.
  intros Hne. destruct x as [c d]. unfold revap_cell. cbn [fst snd].
  destruct (Tp_some o (rhod c) (pres c) (th c) (rv c) Hne) as (T & p & HT). rewrite HT.
  destruct (Tp_spec _ _ _ _ HT) as (-> & -> & _).
  eexists. split; [reflexivity|]. cbn [fst snd]. split; [reflexivity|].
  unfold rain_evaporates, kessler_rate. cbn [add_dots dth drv drc drr dria drib].
  rewrite cmin_Rmin. rewrite (Rmult_comm dt). unfold d_th_d_rv. repeat split; try ring.
  unfold Rdiv. ring.
Qed.

(** C30: rain evaporation moves water from rain to vapour only, cools accordingly, is limited by
    rr/dt, and comes on top of the warm-rain conversion; previously accumulated tendencies are kept.
    Missing: "does nothing if revp is false", and "the rate is Kessler's" - both refuted below. *)
Theorem C30_rain_evaporation_partial :
  forall o dt l, 
    (o_const_p o = o_th_dry o -> l <> [] -> exists l', rhs_cellwise_revap o dt l = Throw l') /\
    (o_const_p o <> o_th_dry o ->
     exists l', rhs_cellwise_revap o dt l = Ok l' /\
      Forall2 (fun x x' => fst x' = fst x /\
        exists d1 e, warm_rain o (fst x) (snd x) d1 /\ rain_evaporates o (fst x) e d1 (snd x') /\
          e <= rr (fst x) / dt /\ e <= dt * kessler_rate o (fst x) /\
          (e = rr (fst x) / dt \/ e = dt * kessler_rate o (fst x)) /\
          drv (snd x') + drc (snd x') + drr (snd x') = drv (snd x) + drc (snd x) + drr (snd x)) l l').
Proof.
  intros o dt l. unfold rhs_cellwise_revap. rewrite for_cells_total. split.
  - intros Heq Hl. destruct l as [|x r]; [congruence|]. cbn [map for_cells]. unfold revap_cell.
    rewrite (Tp_none _ _ _ _ _ Heq). eauto.
  - intros Hne.
    destruct (for_cells_all_ok (revap_cell o dt)
       (fun x x' => fst x' = fst x /\
          rain_evaporates o (fst x) (Rmin (rr (fst x) / dt) (dt * kessler_rate o (fst x))) (snd x) (snd x'))
       (map (hlpr_cell o) l)) as (l' & H1 & H2).
    { intros x _. now apply revap_cell_spec. }
    exists l'. split; [exact H1|].
    apply (Forall2_trans (fun x y => fst y = fst x /\ warm_rain o (fst x) (snd x) (snd y)) _ _) with (2 := Forall2_map_r _ _ _ (hlpr_warm o)) (3 := H2).
    intros [c d] [c1 d1] [c2 d2]. cbn [fst snd]. intros [-> Hw] [-> Hev].
    split; [reflexivity|]. exists d1, (Rmin (rr c / dt) (dt * kessler_rate o c)).
    split; [exact Hw|]. split; [exact Hev|].
    split; [apply Rmin_l|]. split; [apply Rmin_r|]. split.
    + unfold Rmin. destruct (Rle_dec _ _); [now left|now right].
    + destruct Hw as (W1 & W2 & W3 & W4 & W5 & W6). destruct Hev as (V1 & V2 & V3 & V4 & V5 & V6).
      rewrite V1, V2, V4, W1, W2, W4. ring.
Qed.

(** a realistic cell used for the counterexamples: dry air at the triple point with some rain *)
Definition rainy : cell :=
  {| rhod := 1; pres := 100000; th := T_tri; rv := 0; rc := 0; rr := 1 / 1000; ria := 0; rib := 0 |}.
Definition no_dots : dots := {| dth := 0; drv := 0; drc := 0; drr := 0; dria := 0; drib := 0 |}.
Definition with_revp (o : opts) (b : bool) : opts :=
  {| o_cond := o_cond o; o_cevp := o_cevp o; o_revp := b; o_conv := o_conv o; o_accr := o_accr o;
     o_sedi := o_sedi o; o_homA1 := o_homA1 o; o_homA2 := o_homA2 o; o_hetA := o_hetA o;
     o_hetB := o_hetB o; o_depA := o_depA o; o_depB := o_depB o; o_rimA := o_rimA o;
     o_rimB := o_rimB o; o_melA := o_melA o; o_melB := o_melB o; o_r_c0 := o_r_c0 o;
     o_k_acnv := o_k_acnv o; o_r_eps := o_r_eps o; o_adj_nwtrph := o_adj_nwtrph o;
     o_nwtrph_iters := o_nwtrph_iters o; o_th_dry := o_th_dry o; o_const_p := o_const_p o |}.

Lemma rainy_T : T_tri * exner 100000 = T_tri.
Proof. unfold exner. replace (100000 / p_1000) with 1 by (unfold p_1000; lra). rewrite cpow_1. ring. Qed.
Lemma p_vs_tri : p_vs T_tri = p_tri.
Proof.
  unfold p_vs. pose proof T_tri_pos. replace (T_tri / T_tri) with 1 by (field; lra).
  rewrite ln_1, (Rminus_diag_eq (1 / T_tri)), !Rmult_0_r, Rminus_0_r, exp_0 by reflexivity. ring.
Qed.
Lemma r_vs_tri : 38 / 10000 < r_vs T_tri 100000 < 39 / 10000.
Proof. unfold r_vs. rewrite p_vs_tri. unfold eps, M_v, M_H, M_OH, M_d, p_tri. lra. Qed.

Lemma rainy_rate o : o_th_dry o = false -> 0 < kessler_rate o rainy < 1 / 4.
Proof.
  intros Ho. unfold kessler_rate, pressure, temperature. rewrite Ho. cbn [rainy th pres rv rr rhod].
  rewrite rainy_T. pose proof r_vs_tri as Hr. unfold evaporation_rate.
  set (rs := r_vs T_tri 100000) in *.
  assert (Hx : 0 < 1 / 1000 * 1 * (1 / 1000) < 1) by lra.
  set (x := 1 / 1000 * 1 * (1 / 1000)) in *.
  assert (Hpow : forall y, 0 < y -> 0 < cpow x y < 1).
  { intros y Hy. rewrite cpow_pos_eq by lra. split; [apply Rpower_pos|].
    rewrite <- exp_0. unfold Rpower. apply exp_increasing.
    assert (ln x < 0) by (rewrite <- ln_1; apply ln_increasing; lra). nra. }
  pose proof (Hpow (2046/10000) ltac:(lra)) as P1. pose proof (Hpow (525/1000) ltac:(lra)) as P2.
  set (a := cpow x (2046/10000)) in *. set (b := cpow x (525/1000)) in *.
  replace ((1 - 0 / rs) / 1) with 1 by (field; lra).
  assert (Hq : 0 < 1 / 100000 / rs) by (apply Rdiv_lt_0_compat; lra).
  set (q := 1 / 100000 / rs) in *.
  assert (0 < 1 * (16 / 10 + 1249 / 10 * a) * b < 1265 / 10) by nra.
  split; [apply Rdiv_lt_0_compat; lra|].
  apply Rmult_lt_reg_r with (540 + 255000 * q); [lra|].
  unfold Rdiv at 1. rewrite Rmult_assoc, Rinv_l by lra. lra.
Qed.

(** C30 is not true of the code: with opts.revp = false rain still evaporates. *)
Theorem C30_revp_ignored_refuted :
  exists o l l', o_revp o = false /\ o_const_p o <> o_th_dry o /\ rhs_cellwise_revap o 1 l = Ok l' /\
    ~ Forall2 (fun x x' => drv (snd x') = drv (snd x)) l l'.
Proof.
  set (o := with_revp opts_std false).
  destruct (C30_rain_evaporation_partial o 1 [(rainy, no_dots)]) as [_ H].
  destruct H as (l' & H1 & H2); [discriminate|].
  exists o, [(rainy, no_dots)], l'. split; [reflexivity|]. split; [discriminate|]. split; [exact H1|].
  intros F. inversion H2 as [|a b la lb Hab Hl]; subst. inversion F as [|a' b' la' lb' Hab' Hl']; subst.
  destruct Hab as (_ & d1 & e & W & V & _ & _ & He & _).
  destruct W as (W1 & W2 & W3 & W4 & W5 & W6). destruct V as (V1 & V2 & V3 & V4 & V5 & V6).
  cbn [fst snd] in *.
  pose proof (rainy_rate o eq_refl) as Hr. change (rr rainy) with (1 / 1000) in He.
  rewrite V2, W4 in Hab'. destruct He as [He|He]; lra.
Qed.

(** C30 is not true of the code in another way: while the limit is not active, the tendency is
    Kessler's rate times the time step. *)
Theorem C30_rate_times_dt_refuted :
  exists o l l' dt, 0 < dt /\ o_const_p o <> o_th_dry o /\ rhs_cellwise_revap o dt l = Ok l' /\
    (forall x, In x l -> kessler_rate o (fst x) < rr (fst x) / dt) /\
    Forall2 (fun x x' => drv (snd x') - drv (snd x) = dt * kessler_rate o (fst x) /\
                         drv (snd x') - drv (snd x) <> kessler_rate o (fst x)) l l'.
Proof.
  set (o := opts_std). set (dt := 1 / 1000).
  destruct (C30_rain_evaporation_partial o dt [(rainy, no_dots)]) as [_ H].
  destruct H as (l' & H1 & H2); [discriminate|].
  exists o, [(rainy, no_dots)], l', dt. pose proof (rainy_rate o eq_refl) as Hr.
  split; [unfold dt; lra|]. split; [discriminate|]. split; [exact H1|]. split.
  - intros x [<-|[]]. cbn [fst]. change (rr rainy) with (1 / 1000). unfold dt. lra.
  - inversion H2 as [|a b la lb Hab Hl]; subst. inversion Hl; subst. constructor; [|constructor].
    destruct Hab as (_ & d1 & e & W & V & Hle1 & Hle2 & He & _).
    destruct W as (W1 & W2 & W3 & W4 & W5 & W6). destruct V as (V1 & V2 & V3 & V4 & V5 & V6).
    cbn [fst snd] in *. rewrite V2, W4. cbn [no_dots drv].
    change (rr rainy) with (1 / 1000) in *. unfold dt in *.
    destruct He as [He|He]; lra.
Qed.

Print Assumptions C27_nwtrph.
Print Assumptions C27_instance.
Print Assumptions C27_condenses.
Print Assumptions C28_rk4.
Print Assumptions C28_order_of_evaporation.
Print Assumptions C28_revp_alone_refuted.
Print Assumptions C28_instance.
Print Assumptions C29_warm_rain.
Print Assumptions C29_instance.
Print Assumptions C30_rain_evaporation_partial.
Print Assumptions C30_revp_ignored_refuted.
Print Assumptions C30_rate_times_dt_refuted.
