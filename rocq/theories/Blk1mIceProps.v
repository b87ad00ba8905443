(** C31-C33: ice tendencies, look-up tables, sedimentation of the single-moment bulk scheme. *)
From Coq Require Import Reals Lra Psatz List ZArith Lia Bool.
From Verif Require Import Base BaseProofs ThermoModel ThermoProofs Blk1mModel Blk1mProofs Blk1mProps.
Import ListNotations.
Local Open Scope R_scope.

(** *** Specification of the ice tendencies *)

(** every conversion is at most its source over the time step *)
Definition limited (dt : R) (c : cell) (f : fluxes) : Prop :=
  rv_ria f <= rv c / dt /\ rv_rib f <= rv c / dt /\ rc_ria f <= rc c / dt /\ rc_rib f <= rc c / dt /\
  rr_rib f <= rr c / dt /\ ria_rib f <= ria c / dt /\ ria_rr f <= ria c / dt /\ rib_rr f <= rib c / dt.
(** a conversion whose processes are all switched off does not happen *)
Definition switched (o : opts) (f : fluxes) : Prop :=
  (o_homA1 o = false -> o_depA o = false -> rv_ria f = 0) /\
  (o_depB o = false -> rv_rib f = 0) /\
  (o_hetA o = false -> o_homA2 o = false -> o_rimA o = false -> rc_ria f = 0) /\
  (o_rimB o = false -> rc_rib f = 0) /\
  (o_hetB o = false -> o_rimB o = false -> rr_rib f = 0) /\
  (o_hetB o = false -> ria_rib f = 0) /\
  (o_melA o = false -> ria_rr f = 0) /\ (o_melB o = false -> rib_rr f = 0).
(** freezing, riming and melting do not run backwards (deposition may: sublimation) *)
Definition forward (f : fluxes) : Prop :=
  0 <= rc_ria f /\ 0 <= rc_rib f /\ 0 <= rr_rib f /\ 0 <= ria_rib f /\ 0 <= ria_rr f /\ 0 <= rib_rr f.
(** no ice forms or grows above 0 C, none melts below *)
Definition gated (T : R) (f : fluxes) : Prop :=
  (27316 / 100 < T -> rv_ria f = 0 /\ rv_rib f = 0 /\ rc_ria f = 0 /\ rc_rib f = 0 /\ rr_rib f = 0 /\ ria_rib f = 0) /\
  (T < 27316 / 100 -> ria_rr f = 0 /\ rib_rr f = 0).
(** the tendencies resulting from given conversions, with latent heats of sublimation and fusion *)
Definition converted (o : opts) (c : cell) (f : fluxes) (d d' : dots) : Prop :=
  drv d' = drv d - rv_ria f - rv_rib f /\
  drc d' = drc d - rc_ria f - rc_rib f /\
  drr d' = drr d - rr_rib f + ria_rr f + rib_rr f /\
  dria d' = dria d + rv_ria f + rc_ria f - ria_rib f - ria_rr f /\
  drib d' = drib d + rv_rib f + rc_rib f + rr_rib f + ria_rib f - rib_rr f /\
  dth d' = dth d + th c / temperature o c / c_pd *
     (l_s (temperature o c) * (rv_ria f + rv_rib f)
      + l_f (temperature o c) * (rc_ria f + rc_rib f + rr_rib f - ria_rr f - rib_rr f)).
Definition total_dot (d : dots) : R := drv d + drc d + drr d + dria d + drib d.
Definition non_negative (c : cell) : Prop :=
  0 <= rv c /\ 0 <= rc c /\ 0 <= rr c /\ 0 <= ria c /\ 0 <= rib c.

Lemma when_false x : when false x = 0. Proof. reflexivity. Qed.

Lemma ice_fluxes_spec o oob dt c T p : 0 < dt -> non_negative c ->
  let f := ice_fluxes o oob dt c T p in limited dt c f /\ switched o f /\ forward f /\ gated T f.
Proof.
  intros Hdt (Hv & Hc & Hr & Ha & Hb) f.
  assert (Dv : 0 <= rv c / dt) by now apply Rdiv_nonneg.
  assert (Dc : 0 <= rc c / dt) by now apply Rdiv_nonneg.
  assert (Dr : 0 <= rr c / dt) by now apply Rdiv_nonneg.
  assert (Da : 0 <= ria c / dt) by now apply Rdiv_nonneg.
  assert (Db : 0 <= rib c / dt) by now apply Rdiv_nonneg.
  split; [|split; [|split]].
  - unfold limited, f. cbn [ice_fluxes rv_ria rv_rib rc_ria rc_rib rr_rib ria_rib ria_rr rib_rr].
    repeat split; apply cmin_le_l.
  - unfold switched, f. cbn [ice_fluxes rv_ria rv_rib rc_ria rc_rib rr_rib ria_rib ria_rr rib_rr].
    repeat split; intros;
      repeat match goal with H : ?b o = false |- _ => rewrite H; clear H end;
      rewrite ?when_false, ?Rplus_0_l; now apply cmin_0.
  - unfold forward, f. cbn [ice_fluxes rv_ria rv_rib rc_ria rc_rib rr_rib ria_rib ria_rr rib_rr].
    repeat split; apply cmin_glb; auto;
      repeat apply Rplus_le_le_0_compat; apply when_nonneg.
    + now apply hetA_nonneg.
    + now apply hom2_nonneg.
    + now apply rimA_nonneg.
    + now apply rimB1_nonneg.
    + now apply hetB1_nonneg.
    + now apply rimB2_nonneg.
    + now apply hetB2_nonneg.
    + now apply meltA_nonneg.
    + now apply meltB_nonneg.
  - unfold gated, f. cbn [ice_fluxes rv_ria rv_rib rc_ria rc_rib rr_rib ria_rib ria_rr rib_rr].
    assert (W : forall b x, x = 0 -> when b x = 0) by (intros b x ->; destruct b; reflexivity).
    split; intros HT.
    + assert (E : Rltb (27316 / 100) T = true) by now apply Rltb_true.
      assert (E2 : Rltb T (23316 / 100) = false) by (apply Rltb_false; lra).
      assert (Z1 : hom_A_nucleation_1 (rv c) (r_vs T p) (r_vsi T p) T dt = 0)
        by (unfold hom_A_nucleation_1; now rewrite E2).
      assert (Z2 : hom_A_nucleation_2 (rc c) T dt = 0) by (unfold hom_A_nucleation_2; now rewrite E2).
      assert (Z3 : het_A_nucleation (ria c) (rc c) T (rhod c) dt = 0)
        by (unfold het_A_nucleation; now rewrite E, orb_true_r).
      assert (Z4 : forall ri m, deposition oob ri m (rv c) (r_vs T p) (r_vsi T p) T = 0)
        by (intros; unfold deposition; now rewrite E, orb_true_r).
      assert (Z5 : riming_A oob (ria c) (rc c) (rv c) (r_vs T p) (r_vsi T p) T (rhod c) = 0)
        by (unfold riming_A; now rewrite E, orb_true_r).
      assert (Z6 : riming_B oob (rib c) (rc c) (rv c) (r_vs T p) (r_vsi T p) T (rhod c) = 0)
        by (unfold riming_B; now rewrite E, orb_true_r).
      unfold deposition_A, deposition_B, riming_B_1, riming_B_2.
      rewrite Z1, Z2, Z3, !Z4, Z5, Z6, !Rmult_0_r.
      assert (Z7 : het_B_nucleation_1 (rr c) (ria c) T (rhod c) = 0)
        by (unfold het_B_nucleation_1; now rewrite E, orb_true_r).
      assert (Z8 : het_B_nucleation_2 (rr c) (ria c) T (rhod c) = 0)
        by (unfold het_B_nucleation_2; now rewrite E, orb_true_r).
      rewrite Z7, Z8. rewrite !W by reflexivity. rewrite !Rplus_0_l.
      repeat split; now apply cmin_0.
    + assert (E : Rltb T (27316 / 100) = true) by now apply Rltb_true.
      unfold melting_A, melting_B. rewrite E, !orb_true_r. rewrite !W by reflexivity.
      split; now apply cmin_0.
Qed.

Lemma ice_cell_spec o oob dt x : o_const_p o <> o_th_dry o ->
  exists x', ice_cell o oob dt x = Ok x' /\ fst x' = fst x /\
   exists f, converted o (fst x) f (snd x) (snd x') /\
    (0 < dt -> non_negative (fst x) ->
     limited dt (fst x) f /\ switched o f /\ forward f /\ gated (temperature o (fst x)) f).
Proof.
  intros Hne. destruct x as [c d]. unfold ice_cell. cbn [fst snd].
  destruct (Tp_some o (rhod c) (pres c) (th c) (rv c) Hne) as (T & p & HT). rewrite HT.
  destruct (Tp_spec _ _ _ _ HT) as (-> & -> & _).
  eexists. split; [reflexivity|]. cbn [fst snd]. split; [reflexivity|].
  set (f := ice_fluxes _ _ _ _ _ _). exists f. split.
  - unfold converted. cbn [add_dots dth drv drc drr dria drib]. unfold Rdiv. repeat split; ring.
  - intros Hdt Hn. now apply ice_fluxes_spec.
Qed.

(** the warm part of the tendencies, as in C29 / C30 *)
Definition warm_part (o : opts) (dt : R) (c : cell) (d d' : dots) : Prop :=
  if o_adj_nwtrph o
  then exists d1 e, warm_rain o c d d1 /\ rain_evaporates o c e d1 d' /\ e <= rr c / dt
  else warm_rain o c d d'.

Lemma warm_part_total o dt c d d' : warm_part o dt c d d' -> total_dot d' = total_dot d.
Proof.
  unfold warm_part, total_dot. destruct (o_adj_nwtrph o).
  - intros (d1 & e & (W1 & W2 & W3 & W4 & W5 & W6) & (V1 & V2 & V3 & V4 & V5 & V6) & _).
    rewrite V1, V2, V4, V5, V6, W1, W2, W4, W5, W6. ring.
  - intros (W1 & W2 & W3 & W4 & W5 & W6). rewrite W1, W2, W4, W5, W6. ring.
Qed.

(** C31: total water is conserved, conversions are limited one by one, switches, directions and
    temperature ranges are respected, and the temperature tendency is the latent heat.
    Missing: "an Euler step cannot make a species negative" - refuted below. *)
Theorem C31_ice_tendencies_partial :
  forall o oob dt l, o_const_p o <> o_th_dry o ->
   exists l', rhs_cellwise_ice o oob dt l = Ok l' /\
   Forall2 (fun x x' =>
     fst x' = fst x /\
     total_dot (snd x') = total_dot (snd x) /\
     exists d1 f, warm_part o dt (fst x) (snd x) d1 /\ converted o (fst x) f d1 (snd x') /\
       (0 < dt -> non_negative (fst x) ->
        limited dt (fst x) f /\ switched o f /\ forward f /\ gated (temperature o (fst x)) f)) l l'.
Proof.
  intros o oob dt l Hne. unfold rhs_cellwise_ice.
  assert (Hw : exists l1, (if o_adj_nwtrph o then rhs_cellwise_revap o dt l else rhs_cellwise o l) = Ok l1 /\
            Forall2 (fun x x' => fst x' = fst x /\ warm_part o dt (fst x) (snd x) (snd x')) l l1).
  { unfold warm_part. destruct (o_adj_nwtrph o).
    - destruct (C30_rain_evaporation_partial o dt l) as [_ H]. destruct (H Hne) as (l1 & H1 & H2).
      exists l1. split; [exact H1|]. eapply Forall2_weaken; [|exact H2].
      intros a b (E & d1 & e & W & V & L & _). split; [exact E|]. exists d1, e. auto.
    - destruct (C29_warm_rain o l) as (l1 & H1 & H2). exists l1. split; [exact H1|].
      eapply Forall2_weaken; [|exact H2]. intros a b (E & W & _). auto. }
  destruct Hw as (l1 & -> & Hw).
  destruct (for_cells_all_ok (ice_cell o oob dt) (fun x x' => fst x' = fst x /\
     exists f, converted o (fst x) f (snd x) (snd x') /\
      (0 < dt -> non_negative (fst x) ->
       limited dt (fst x) f /\ switched o f /\ forward f /\ gated (temperature o (fst x)) f)) l1) as (l' & H1 & H2).
  { intros x _. now apply ice_cell_spec. }
  exists l'. split; [exact H1|]. refine (Forall2_trans _ _ _ _ _ _ _ Hw H2).
  intros [c d] [c1 d1] [c2 d2]. cbn [fst snd]. intros [-> W] [-> (f & Cv & P)].
  split; [reflexivity|]. split; [|exists d1, f; auto].
  rewrite <- (warm_part_total _ _ _ _ _ W).
  destruct Cv as (V1 & V2 & V3 & V4 & V5 & _). unfold total_dot. rewrite V1, V2, V3, V4, V5. ring.
Qed.

(** a cold, moist cell with some graupel *)
Definition cold : cell :=
  {| rhod := 1; pres := 100000; th := 230; rv := 1 / 10; rc := 0; rr := 0; ria := 0; rib := 1 / 1000 |}.

Lemma cold_T : 230 * exner 100000 = 230.
Proof. unfold exner. replace (100000 / p_1000) with 1 by (unfold p_1000; lra). rewrite cpow_1. ring. Qed.
Lemma p_vs_230 : p_vs 230 < p_tri.
Proof.
  rewrite <- p_vs_tri, !p_vs_psat. apply psat_incr; [lra|unfold T_tri; lra|].
  intros T HT. unfold l_tri, c_pw, c_pv, T_tri in *. lra.
Qed.

Lemma hyp_sat : forall q, 0 < q -> q < p_tri -> 0 < eps / (100000 / q - 1) < 39 / 10000.
Proof.
  intros q H1 H2. pose proof eps_pos.
  assert (0 < 100000 / q - 1).
  { apply Rmult_lt_reg_r with q; [auto|]. rewrite Rmult_0_l.
    replace ((100000 / q - 1) * q) with (100000 - q) by (field; lra). unfold p_tri in *. lra. }
  split; [apply Rdiv_lt_0_compat; auto|].
  apply Rmult_lt_reg_r with (100000 / q - 1); [auto|].
  unfold Rdiv at 1. rewrite Rmult_assoc, Rinv_l, Rmult_1_r by lra.
  apply Rmult_lt_reg_r with q; [auto|].
  replace (39 / 10000 * (100000 / q - 1) * q) with (39 / 10000 * (100000 - q)) by (field; lra).
  unfold eps, M_v, M_H, M_OH, M_d, p_tri in *. nra.
Qed.

(** C31 is not true of the code: starting from non-negative mixing ratios, an Euler step with the
    same dt makes water vapour negative, because the two conversions of vapour are limited
    separately. *)
Theorem C31_euler_step_refuted :
  exists o dt c l', 0 < dt /\ o_const_p o <> o_th_dry o /\ non_negative c /\
    (forall oob, rhs_cellwise_ice o oob dt [(c, no_dots)] = Ok (l' oob)) /\
    (forall oob, Forall (fun x => rv c + dt * drv (snd x) < 0) (l' oob)).
Proof.
  set (o := {| o_cond := true; o_cevp := true; o_revp := true; o_conv := true; o_accr := true; o_sedi := true;
     o_homA1 := true; o_homA2 := true; o_hetA := true; o_hetB := true; o_depA := true; o_depB := true;
     o_rimA := true; o_rimB := true; o_melA := true; o_melB := true;
     o_r_c0 := 5 / 10000; o_k_acnv := 1 / 1000; o_r_eps := 2 / 100000;
     o_adj_nwtrph := false; o_nwtrph_iters := 3; o_th_dry := false; o_const_p := true |}).
  set (d1 := snd (hlpr_cell o (cold, no_dots))).
  set (f := fun oob => ice_fluxes o oob 10 cold 230 100000).
  set (out := fun oob => [(cold, add_dots d1
      (230 / 230 * l_s 230 / c_pd * (rv_ria (f oob) + rv_rib (f oob))
       + 230 / 230 * l_f 230 / c_pd * (rc_ria (f oob) + rc_rib (f oob) + rr_rib (f oob) - rib_rr (f oob) - ria_rr (f oob)))
      (- rv_ria (f oob) - rv_rib (f oob)) (- rc_ria (f oob) - rc_rib (f oob))
      (ria_rr (f oob) - rr_rib (f oob) + rib_rr (f oob))
      (rc_ria (f oob) + rv_ria (f oob) - ria_rib (f oob) - ria_rr (f oob))
      (rr_rib (f oob) + ria_rib (f oob) + rv_rib (f oob) + rc_rib (f oob) - rib_rr (f oob)))]).
  exists o, 10, cold, out.
  split; [lra|]. split; [discriminate|].
  split; [unfold non_negative; cbn [cold rv rc rr ria rib]; lra|]. split.
  - intros oob. unfold rhs_cellwise_ice. change (o_adj_nwtrph o) with false. cbv iota.
    unfold rhs_cellwise. rewrite for_cells_total. cbn [map for_cells].
    assert (HT : Tp o 1 100000 230 (1 / 10) = Some (230, 100000)).
    { unfold Tp. change (o_const_p o) with true. change (o_th_dry o) with false. cbn [negb andb].
      now rewrite cold_T. }
    change (hlpr_cell o (cold, no_dots)) with (cold, d1).
    unfold ice_cell. cbn [fst snd].
    change (Tp o (rhod cold) (pres cold) (th cold) (rv cold)) with (Tp o 1 100000 230 (1 / 10)).
    rewrite HT. reflexivity.
  - intros oob. constructor; [|constructor]. unfold snd at 1.
    assert (Hd1 : drv d1 = 0) by (unfold d1, hlpr_cell, no_dots; cbn [snd add_dots drv]; lra).
    cbn [add_dots drv]. rewrite Hd1. change (rv cold) with (1 / 10).
    (* saturation values *)
    pose proof p_vs_230 as P1. pose proof (p_vsi_lt_p_vs 230 ltac:(lra) ltac:(unfold T_tri; lra)) as P2.
    pose proof (hyp_sat (p_vs 230) (p_vs_pos _) P1) as S1.
    pose proof (hyp_sat (p_vsi 230) (p_vsi_pos _) ltac:(lra)) as S2.
    fold (r_vs 230 100000) in S1. fold (r_vsi 230 100000) in S2.
    assert (S3 : r_vsi 230 100000 < r_vs 230 100000).
    { unfold r_vs, r_vsi. apply Rmult_lt_compat_l; [apply eps_pos|].
      pose proof (p_vsi_pos 230). pose proof (p_vs_pos 230).
      assert (Hq : 100000 / p_vs 230 < 100000 / p_vsi 230).
      { apply Rmult_lt_compat_l; [lra|]. apply Rinv_lt_contravar; [apply Rmult_lt_0_compat; auto|auto]. }
      assert (0 < 100000 / p_vs 230 - 1).
      { apply Rmult_lt_reg_r with (p_vs 230); [auto|]. rewrite Rmult_0_l.
        replace ((100000 / p_vs 230 - 1) * p_vs 230) with (100000 - p_vs 230) by (field; lra).
        unfold p_tri in *. lra. }
      apply Rinv_lt_contravar; [apply Rmult_lt_0_compat; lra|lra]. }
    set (rs := r_vs 230 100000) in *. set (ri := r_vsi 230 100000) in *.
    assert (F2 : 0 < rv_rib (f oob)).
    { unfold f. cbn [ice_fluxes rv_rib]. change (rv cold) with (1 / 10). change (rib cold) with (1 / 1000).
      apply cmin_pos; [lra|]. change (o_depB o) with true. cbn [when].
      unfold deposition_B, deposition.
      assert (E1 : Reqb (1 / 1000) 0 = false) by (apply Reqb_false; lra).
      assert (E2 : Rltb (27316 / 100) 230 = false) by (apply Rltb_false; lra).
      rewrite E1, E2. cbn [orb].
      apply Rmult_lt_0_compat; [apply Rdiv_lt_0_compat; [lra|apply mass_b_pos]|].
      unfold dm_AE. fold rs ri. apply Rmult_lt_0_compat.
      - apply Rmult_lt_0_compat.
        + unfold Rdiv. rewrite Rmult_assoc. apply Rmult_lt_0_compat; [lra|].
          apply Rmult_lt_0_compat; [lra|]. apply Rinv_0_lt_compat. unfold feps. lra.
        + rewrite coeff_cold by lra. cbn [nth alpha_list]. lra.
      - apply cpow_pos. apply Rmult_lt_0_compat; [apply mass_b_pos|lra]. }
    assert (F1 : rv_ria (f oob) = 1 / 100).
    { unfold f. cbn [ice_fluxes rv_ria]. change (rv cold) with (1 / 10). change (ria cold) with 0.
      change (o_homA1 o) with true. change (o_depA o) with true. cbn [when].
      unfold deposition_A, deposition. assert (E0 : Reqb 0 0 = true) by now apply Reqb_true.
      rewrite E0. cbn [orb]. unfold hom_A_nucleation_1. fold rs ri.
      assert (E1 : Rltb (21316 / 100) 230 = true) by (apply Rltb_true; lra).
      assert (E2 : Rltb 230 (23316 / 100) = true) by (apply Rltb_true; lra). rewrite E1, E2.
      replace (-10 / 10) with (-1) by lra.
      assert (He : exp (-1) <= 1 / 2).
      { replace (-1) with (- (1)) by lra. rewrite exp_Ropp. pose proof (exp_ineq1 1 ltac:(lra)).
        replace (1 / 2) with (/ 2) by lra. apply Rinv_le_contravar; lra. }
      rewrite cmax_Rmax, cmin_Rmin.
      set (b := 1 / 10 + 9 / 10 * (230 - 21316 / 100) / 20).
      assert (Hb : 0 <= b <= 1) by (unfold b; lra).
      assert (Hadj : b * rs + (1 - b) * ri <= 39 / 10000) by nra.
      set (adj := b * rs + (1 - b) * ri) in *.
      rewrite (Rmax_right 0) by lra. rewrite Rmin_left; [lra|].
      match goal with |- _ <= (1 - ?e) * _ + _ => assert (Hee : e = exp (-1)) by (f_equal; lra); rewrite Hee end.
      assert (1 / 2 * (961 / 10000) <= (1 - exp (-1)) * (1 / 10 - adj)) by (apply Rmult_le_compat; lra).
      lra. }
    rewrite F1. lra.
Qed.

(** *** C32 *)

(** the flux through the lower edge of every level is the mean of the terminal momenta of the two
    adjacent levels times the mixing ratio above; nothing flows in from above the top *)
Definition is_flux_profile (n : nat) (rhod r v : nat -> R) (dz : R) (J : nat -> R) : Prop :=
  J n = 0 /\
  J 0%nat = - rhod 0%nat * v 0%nat * r 0%nat / dz /\
  forall k, (1 <= k < n)%nat ->
    J k = - ((rhod (k - 1)%nat * v (k - 1)%nat + rhod k * v k) / 2) * r k / dz.

(** the column budget: the change of every tendency is the flux convergence, the density-weighted
    sum of the changes is what is returned, all fluxes are downward *)
Definition column_budget (n : nat) (rhod r v : nat -> R) (dz : R) (dot dot' : nat -> R) (flux : R) : Prop :=
  sumR n (fun k => rhod k * (dot' k - dot k)) = flux /\
  (forall k, (n <= k)%nat -> dot' k = dot k) /\
  exists J, is_flux_profile n rhod r v dz J /\ flux = J 0%nat /\ (forall k, J k <= 0) /\
    forall k, (k < n)%nat -> rhod k * (dot' k - dot k) = J k - J (S k).

Lemma column_budget_holds n rhod r v dz dot : (1 <= n)%nat -> 0 < dz ->
  (forall k, (k < n)%nat -> 0 < rhod k) -> (forall k, (k < n)%nat -> 0 <= r k) -> (forall k, 0 <= v k) ->
  column_budget n rhod r v dz dot (snd (column true n rhod r v dz dot)) (fst (column true n rhod r v dz dot)).
Proof.
  intros Hn Hdz Hrho Hr Hv.
  destruct (column_spec n rhod r v dz dot Hn) as [H1 H2].
  set (res := column true n rhod r v dz dot) in *.
  set (J := edge_flux n rhod r v dz) in *.
  assert (Hloc : forall k, (k < n)%nat -> rhod k * (snd res k - dot k) = J k - J (S k)).
  { intros k Hk. rewrite H2. replace (k <? n)%nat with true by (symmetry; apply Nat.ltb_lt; lia).
    specialize (Hrho k Hk). field. lra. }
  assert (HJn : J n = 0) by (unfold J, edge_flux; now rewrite Nat.ltb_irrefl).
  unfold column_budget. split; [|split].
  - rewrite (sumR_ext n _ (fun k => - (J (S k) - J k))).
    + assert (E : forall m, sumR m (fun k => - (J (S k) - J k)) = - sumR m (fun k => J (S k) - J k)).
      { intros m. induction m as [|m IH]; cbn [sumR]; [lra|]. rewrite IH. lra. }
      rewrite E, sumR_telescope, HJn, H1. lra.
    + intros k Hk. rewrite Hloc by auto. lra.
  - intros k Hk. rewrite H2. replace (k <? n)%nat with false by (symmetry; apply Nat.ltb_ge; lia). reflexivity.
  - exists J. split; [|split; [exact H1|split; [|exact Hloc]]].
    + split; [exact HJn|]. split.
      * unfold J, edge_flux. replace (0 <? n)%nat with true by (symmetry; apply Nat.ltb_lt; lia).
        cbn [phi]. unfold Rdiv. ring.
      * intros k Hk. unfold J, edge_flux. replace (k <? n)%nat with true by (symmetry; apply Nat.ltb_lt; lia).
        destruct k as [|j]; [lia|]. cbn [phi]. replace (S j - 1)%nat with j by lia. unfold Rdiv. ring.
    + intros k. now apply edge_flux_nonpos.
Qed.

Theorem C32_rain :
  forall o n dot rhod rr dz,
    (o_sedi o = false -> rhs_columnwise o n dot rhod rr dz = (0, dot)) /\
    (o_sedi o = true -> (1 <= n)%nat -> 0 < dz ->
     (forall k, (k < n)%nat -> 0 < rhod k) -> (forall k, (k < n)%nat -> 0 <= rr k) ->
     let res := rhs_columnwise o n dot rhod rr dz in
     column_budget n rhod rr (fun k => v_term (rr k) (rhod k) (rhod 0%nat)) dz dot (snd res) (fst res)).
Proof.
  intros. unfold rhs_columnwise. split.
  - intros ->. reflexivity.
  - intros -> H1 H2 H3 H4. apply column_budget_holds; auto. intros. apply v_term_nonneg.
Qed.
Theorem C32_ice :
  forall o n dot rhod ri dz t,
    (o_sedi o = false -> rhs_columnwise_ice o n dot rhod ri dz t = (0, dot)) /\
    (o_sedi o = true -> (1 <= n)%nat -> 0 < dz ->
     (forall k, (k < n)%nat -> 0 < rhod k) -> (forall k, (k < n)%nat -> 0 <= ri k) ->
     let res := rhs_columnwise_ice o n dot rhod ri dz t in
     column_budget n rhod ri
       (fun k => match t with iceA => velocity_iceA (ri k) (rhod k) | iceB => velocity_iceB (ri k) (rhod k) end)
       dz dot (snd res) (fst res)).
Proof.
  intros. unfold rhs_columnwise_ice. split.
  - intros ->. reflexivity.
  - intros -> H1 H2 H3 H4. apply column_budget_holds; auto.
    intros k. destruct t; [apply velocity_iceA_nonneg|apply velocity_iceB_nonneg].
Qed.
(** non-vacuity: a two-level column with rain aloft has a non-zero surface flux only if rain is in
    the lowest level *)
Theorem C32_instance :
  fst (rhs_columnwise opts_default 2 (fun _ => 0) (fun _ => 1) (fun k => if (k =? 0)%nat then 1 / 1000 else 0) 100) < 0.
Proof.
  unfold rhs_columnwise. change (o_sedi opts_default) with true.
  destruct (column_spec 2 (fun _ => 1) (fun k => if (k =? 0)%nat then 1 / 1000 else 0)
    (fun k => v_term (if (k =? 0)%nat then 1 / 1000 else 0) 1 1) 100 (fun _ => 0) ltac:(lia)) as [-> _].
  unfold edge_flux. cbn [Nat.ltb Nat.leb phi Nat.eqb].
  assert (0 < v_term (1 / 1000) 1 1).
  { unfold v_term. apply Rmult_lt_0_compat; [lra|]. apply Rmult_lt_0_compat; [apply cpow_pos; lra|].
    apply sqrt_lt_R0. lra. }
  lra.
Qed.

(** *** C33 *)

(** C33, the part that holds: the first index is always valid, the second is valid exactly above
    242.16 K, and the value returned lies between the two table entries next to the temperature,
    whatever is stored behind the table.  Missing: "only existing entries are read", refuted below. *)
Theorem C33_table_lookup_partial :
  forall tab oob T, length tab = 32%nat ->
    (index1 T < 32)%nat /\
    ((index2 T < 32)%nat <-> 24216 / 100 < T) /\
    (exists k, (k <= 31)%nat /\
       (T <= 27316 / 100 -> 24216 / 100 < T -> 27316 / 100 - INR (k + 1) <= T <= 27316 / 100 - INR k) /\
       (27316 / 100 <= T -> k = 0%nat) /\ (T <= 24216 / 100 -> k = 31%nat) /\
       let a := nth k tab 0 in let b := nth (Nat.min (k + 1) 31) tab 0 in
       Rmin a b <= coeff tab oob T <= Rmax a b) /\
    (forall k, (k <= 31)%nat -> T = 27316 / 100 - INR k -> coeff tab oob T = nth k tab 0) /\
    (27316 / 100 <= T -> coeff tab oob T = nth 0 tab 0) /\
    (T <= 24216 / 100 -> coeff tab oob T = nth 31 tab 0).
Proof.
  intros tab oob T Hl. pose proof (index1_le T) as Hi. pose proof (index1_spec T) as Hs.
  pose proof (ttcoe_range T) as Ht.
  assert (Hwarm : 27316 / 100 <= T -> ttcoe T = 0).
  { intros H. unfold ttcoe. rewrite cmin_Rmin, cmax_Rmax. rewrite Rmin_left; [reflexivity|].
    eapply Rle_trans; [|apply Rmax_r]. lra. }
  assert (Hmid : T <= 27316 / 100 -> 24216 / 100 <= T -> ttcoe T = T - 27316 / 100).
  { intros H1 H2. unfold ttcoe. rewrite cmin_Rmin, cmax_Rmax. rewrite Rmax_right by lra.
    apply Rmin_right. lra. }
  assert (Hidx : forall k, INR k <= - ttcoe T < INR k + 1 -> index1 T = k).
  { intros k Hk.
    assert (INR (index1 T) < INR (S k)) by (rewrite S_INR; lra).
    assert (INR k < INR (S (index1 T))) by (rewrite S_INR; lra).
    apply INR_lt in H. apply INR_lt in H0. lia. }
  assert (Hw0 : 27316 / 100 <= T -> index1 T = 0%nat).
  { intros H. apply Hidx. rewrite (Hwarm H). cbn. lra. }
  assert (Hnth : forall k, (k <= 31)%nat -> nth k tab oob = nth k tab 0).
  { intros k Hk. apply nth_indep. lia. }
  assert (Hexact : forall k, (k <= 31)%nat -> - ttcoe T = INR k -> coeff tab oob T = nth k tab 0).
  { intros k Hk E. assert (E1 : index1 T = k) by (apply Hidx; lra).
    unfold coeff. rewrite E1, E, (Rminus_diag_eq (INR k)) by reflexivity. rewrite Rmult_0_l, Rminus_0_r, Rmult_1_l, Rplus_0_r.
    now apply Hnth. }
  split; [lia|]. split; [|split; [|split; [|split]]].
  - unfold index2. split.
    + intros H. destruct (Rlt_dec (24216 / 100) T) as [h|h]; [exact h|].
      assert (index1 T = 31%nat) by (apply index1_31; lra). lia.
    + intros H. destruct (Nat.eq_dec (index1 T) 31) as [E|E]; [|lia].
      apply index1_31 in E. lra.
  - exists (index1 T). split; [lia|]. split; [|split; [exact Hw0|split; [apply index1_31|]]].
    + intros H1 H2. rewrite (Hmid H1 ltac:(lra)) in Hs. rewrite plus_INR. cbn [INR]. lra.
    + cbv zeta. destruct (Rle_dec T (24216 / 100)) as [h|h].
      * rewrite coeff_cold by auto. pose proof (proj2 (index1_31 T) h) as E. rewrite E.
        cbn [Nat.add Nat.min]. rewrite Hnth by lia.
        split; [apply Rmin_l|apply Rmax_l].
      * assert (Hlt : (index1 T < 31)%nat).
        { destruct (Nat.eq_dec (index1 T) 31) as [E|E]; [|lia]. apply index1_31 in E. lra. }
        replace (Nat.min (index1 T + 1) 31) with (S (index1 T)) by lia.
        unfold coeff, index2. rewrite !Hnth by lia. pose proof (coeff_del T).
        set (a := nth (index1 T) tab 0). set (b := nth (S (index1 T)) tab 0).
        set (del := - ttcoe T - INR (index1 T)) in *.
        split.
        -- assert (Rmin a b <= a) by apply Rmin_l. assert (Rmin a b <= b) by apply Rmin_r. nra.
        -- assert (a <= Rmax a b) by apply Rmax_l. assert (b <= Rmax a b) by apply Rmax_r. nra.
  - intros k Hk E. apply Hexact; [exact Hk|].
    assert (INR k <= 31) by (apply le_INR in Hk; cbn [INR] in Hk; lra).
    pose proof (pos_INR k). rewrite Hmid by lra. lra.
  - intros H. apply Hexact; [lia|]. rewrite (Hwarm H). cbn. lra.
  - intros H. rewrite coeff_cold by auto. apply Hnth. lia.
Qed.

(** C33 is not true of the code: at and below 242.16 K entry 32 of the 32-entry table is read. *)
Theorem C33_out_of_bounds_refuted :
  forall T, T <= 24216 / 100 -> index2 T = 32%nat /\ length alpha_list = 32%nat /\ length beta_list = 32%nat.
Proof. intros T H. unfold index2. rewrite (proj2 (index1_31 T) H). repeat split. Qed.
Theorem C33_instance : coeff alpha_list 0 (27316 / 100 - 15) = 3348 / 10 ^ 8.
Proof.
  destruct (C33_table_lookup_partial alpha_list 0 (27316 / 100 - 15) eq_refl) as (_ & _ & _ & H & _).
  rewrite (H 15%nat); [reflexivity|lia|cbn [INR]; lra].
Qed.

Print Assumptions C31_ice_tendencies_partial.
Print Assumptions C31_euler_step_refuted.
Print Assumptions C32_rain.
Print Assumptions C32_ice.
Print Assumptions C32_instance.
Print Assumptions C33_table_lookup_partial.
Print Assumptions C33_out_of_bounds_refuted.
Print Assumptions C33_instance.
