(** * C89: water, rain and drops in whole runs of the kinematic model with double-moment bulk microphysics *)
From Coq Require Import List Arith ZArith Reals Bool Lia Lra Psatz.
From Verif Require Import Base BaseProofs ThermoModel ThermoProofs CondModel InitModel Blk2mModel Blk2mProps Blk2mFall Blk2mColumn Kin2mModel.
From Verif Require KinModel KinDrive Kin1mModel Kin1mProps.
Import ListNotations.
Local Open Scope R_scope.

(** ** Specification *)
Section Spec.
Variables (tgamma erfc erf : R -> R) (num_eps : R) (P : run_params2).
Definition inside2 (i j : nat) : Prop := (i < q_nx P)%nat /\ (j < q_nz P)%nat.
(** mass of something in the domain; [wt] are any weights of the columns (the two edge columns are the same place) *)
Definition mass2 (wt : nat -> R) (q : cell2 -> R) (g : grid2) : R :=
  sumR (q_nx P) (fun i => wt i * sumR (q_nz P) (fun j => rhod (g i j) * q (g i j))).
Definition water2 (c : cell2) : R := rv c + rc c + rr c.
(** what is asked of advection: it leaves the density alone and only moves water *)
Definition carries2 (wt : nat -> R) (advect : grid2 -> grid2) : Prop := forall g,
  (forall i j, inside2 i j -> rhod (advect g i j) = rhod (g i j)) /\ mass2 wt water2 (advect g) = mass2 wt water2 g.
(** rain forms and vapour is relaxed in the k-th step (from 0) *)
Definition rains (k : nat) : bool := b_acnv (q_opts P) && (q_spinup P <=? Z.of_nat k)%Z.
Definition relaxes2 (k : nat) : bool := q_relax P && rains k.
(** the options in the k-th step: no autoconversion and at most 1% of supersaturation for activation during the spin-up, no limit after it *)
Definition options_in (k : nat) : opts2 :=
  {| b_acti := b_acti (q_opts P); b_cond := b_cond (q_opts P); b_acnv := rains k; b_accr := b_accr (q_opts P); b_sedi := b_sedi (q_opts P);
     b_RH_max := if b_acnv (q_opts P) && negb (q_spinup P =? 0)%Z then (if (Z.of_nat k <? q_spinup P)%Z then 101 / 100 else 44) else b_RH_max (q_opts P);
     b_A := b_A (q_opts P); b_b := b_b (q_opts P); b_c := b_c (q_opts P); b_modes := b_modes (q_opts P); b_th_dry := true; b_const_p := false |}.
(** what a call of the cell-wise scheme for this cell adds to the tendencies in the k-th step *)
Definition rates (k : nat) (c : cell2) : dots2 :=
  match rhs_cellwise2 tgamma erfc num_eps (options_in k) (q_dt P) [(c, no_dots)] with (true, [(_, d)]) => d | _ => no_dots end.
(** water that appears in a cell per unit time *)
Definition created (k : nat) (c : cell2) : R := drv (rates k c) + drc (rates k c) + drr (rates k c).
(** rain reaching the ground per unit time: what falls through the bottom at the fall speed of C65, but not more than is there by the end of the step *)
Definition rain_at_ground2 (k : nat) (wt : nat -> R) (g : grid2) : R :=
  if b_sedi (q_opts P) then sumR (q_nx P) (fun i => let c := g i 0%nat in
    wt i * Rmin (rhod c * v_term_m tgamma erf num_eps (rhod c) (rr c) (nr c) * rr c / q_dz P) (rhod c * (rr c + q_dt P * drr (rates k c)) / q_dt P)) else 0.
(** relaxation of vapour per unit time towards [eq], weaker aloft *)
Definition relaxation2 (wt : nat -> R) (eq : nat -> R) (g : grid2) : R :=
  sumR (q_nx P) (fun i => wt i * sumR (q_nz P) (fun j => rhod (g i j) * ((eq j - rv (g i j)) / (q_tau P * exp (INR j * q_dz P / q_z_rlx P))))).
End Spec.
(** the fields a run starts from: those that are not given are zero *)
Definition given2 (f : option (nat -> nat -> R)) (i j : nat) : R := match f with Some f => f i j | None => 0 end.
Definition initial_water2 (P : run_params2) (wt : nat -> R) (rhod0 rv0 : nat -> nat -> R) (rc0 rr0 : option (nat -> nat -> R)) : R :=
  sumR (q_nx P) (fun i => wt i * sumR (q_nz P) (fun j => rhod0 i j * (rv0 i j + given2 rc0 i j + given2 rr0 i j))).

(** ** one cell, whatever the signs of vapour and cloud water *)
Section Cell.
  Variables (tgamma erfc : R -> R) (num_eps : R) (o : opts2) (dt : R) (c : cell2) (T p : R).
  Hypotheses (Hdt : 0 < dt) (He : 0 <= num_eps) (HA : 0 <= b_A o).
  Lemma acnv_on_pos : acnv_on num_eps o c = true -> b_acnv o = true /\ 0 < rc c /\ 0 < nc c.
  Proof.
    unfold acnv_on. intros E. apply andb_prop in E. destruct E as (E0 & E). apply andb_prop in E. destruct E as (E1 & E2). apply Rltb_true in E1. apply Rltb_true in E2.
    unfold rc_eps, nc_eps in *. split; [exact E0|]. lra.
  Qed.
  Lemma accr_on_pos : accr_on tgamma num_eps o dt c T p = true -> b_accr o = true /\ 0 < rc c /\ 0 < nc c /\ 0 < rr c.
  Proof.
    unfold accr_on. intros E. apply andb_prop in E. destruct E as (E0 & E). apply andb_prop in E0. destruct E0 as (E0 & _). apply andb_prop in E0. destruct E0 as (E0 & _).
    apply andb_prop in E. destruct E as (E & E3). apply andb_prop in E. destruct E as (E1 & E2). apply Rltb_true in E1. apply Rltb_true in E2. apply Rltb_true in E3.
    unfold rc_eps, nc_eps, rr_eps in *. split; [exact E0|]. lra.
  Qed.
  Lemma acnv_bounds : 0 <= acnv_rate num_eps o dt c /\ acnv_rate num_eps o dt c <= Rmax 0 (rc c) / dt.
  Proof.
    assert (I := Rinv_0_lt_compat dt Hdt). assert (M : 0 <= Rmax 0 (rc c) / dt) by (apply Rmult_le_pos; [apply Rmax_l|lra]).
    unfold acnv_rate. destruct (acnv_on num_eps o c) eqn:E; [|lra]. destruct (acnv_on_pos E) as (_ & Hc & _). rewrite (Rmax_right 0 (rc c)) in * by lra. split.
    - rewrite cmin_Rmin. apply Rmin_glb; [|exact M]. unfold autoconv_rate. apply Rmult_le_pos; [apply Rmult_le_pos; [exact HA|apply cpow_nonneg]|apply cpow_nonneg].
    - apply cmin_le_r.
  Qed.
  Lemma second_rc_lower : - (Rmax 0 (rc c) / dt) <= second_rc tgamma num_eps o dt c T p.
  Proof.
    destruct acnv_bounds as (A1 & A2). unfold second_rc. destruct (accr_on _ _ _ _ _ _ _) eqn:E; [|lra].
    destruct (accr_on_pos E) as (_ & Hc & _). rewrite (Rmax_right 0 (rc c)) in * by lra. eapply Rle_trans; [|apply cmax_ge_r]. unfold Rdiv. lra.
  Qed.
  Notation d' := (dots_of tgamma erfc num_eps o dt c T p no_dots).
  Lemma cell_signs : 0 <= rr c -> 0 <= nr c -> 0 <= nc c ->
    0 <= rr c + dt * drr d' /\ 0 <= nr c + dt * dnr d' /\ 0 <= nc c + dt * dnc d' /\ - Rmax 0 (rc c) <= rc c + dt * drc d' /\
    (b_acnv o = false -> b_accr o = false \/ rr c = 0 -> 0 <= rc c + dt * drc d').
  Proof.
    intros Hr Hn Hd. unfold dots_of.
    assert (F1 := first_rc_lower tgamma erfc num_eps o dt c T p). assert (F2 := first_rr_lower tgamma num_eps o dt c T p). assert (S1 := second_rc_lower).
    destruct acnv_bounds as (A & A'). assert (B := accr_nonneg tgamma num_eps o dt c T p). assert (AN := act_nonneg erfc o dt c T p).
    set (cl := cloud_limiter tgamma erfc num_eps o dt c T p) in *. set (fr := first_rc tgamma erfc num_eps o dt c T p) in *. set (fR := first_rr tgamma num_eps o dt c T p) in *.
    set (sr := second_rc tgamma num_eps o dt c T p) in *.
    assert (G : forall q x, - q / dt <= x -> 0 <= q + dt * x).
    { intros q x H. apply (Rmult_le_compat_l dt) in H; [|lra]. rewrite (div_dt dt Hdt) in H. lra. }
    assert (SR : 0 <= second_rr tgamma num_eps o dt c T p) by (unfold second_rr; lra).
    assert (FN : - nr c / dt <= first_nr tgamma num_eps o dt c T p).
    { unfold first_nr. destruct (rain_limiter _ _ _ _ _ _ _); [lra|apply cmax_ge_r]. }
    assert (SN : 0 <= second_nr num_eps o dt c).
    { unfold second_nr. destruct (acnv_on _ _ _); [|lra]. apply Rmult_le_pos; [exact A|]. left. apply Rinv_0_lt_compat. assert (P := PI_RGT_0). unfold rho_w, drizzle_radius.
      assert (0 < 4 / 3 * PI * 1000) by lra. nra. }
    assert (FC : cl = false -> 0 <= first_nc tgamma erfc num_eps o dt c T p) by (intros E; unfold first_nc; fold cl; rewrite E; exact AN).
    assert (SC : - nc c / dt <= second_nc tgamma num_eps o dt c T p).
    { assert (Q : - nc c / dt <= 0) by (apply quot_neg; assumption). unfold second_nc. destruct (b_acnv o || b_accr o); [|exact Q].
      destruct (all_collected _ _ _ _ _ _ _); [lra|]. destruct (_ && _); [|exact Q].
      assert (M := cmin_le_r (collision_sink_rate (second_rr tgamma num_eps o dt c T p) (r_drop_c tgamma (rc c) (nc c) (rhod c))) (nc c / dt)). unfold Rdiv in *. lra. }
    assert (QC : 0 <= Rmax 0 (rc c)) by apply Rmax_l.
    assert (Off : b_acnv o = false -> b_accr o = false \/ rr c = 0 -> sr = 0).
    { intros E1 E2. unfold sr, second_rc. replace (accr_on tgamma num_eps o dt c T p) with false.
      - unfold acnv_rate, acnv_on. rewrite E1. cbn [andb]. lra.
      - symmetry. destruct (accr_on tgamma num_eps o dt c T p) eqn:E; [|reflexivity]. destruct (accr_on_pos E) as (E3 & _ & _ & E4). destruct E2 as [E2|E2]; [congruence|lra]. }
    assert (CLE : cl = true -> fr = - rc c / dt) by (intros E; unfold cl, cloud_limiter in E; now apply Reqb_true in E).
    split; [|split; [|split; [|split]]].
    - destruct cl; cbn [drr no_dots]; apply G; lra.
    - destruct cl; cbn [dnr no_dots]; apply G; lra.
    - destruct cl eqn:E; cbn [dnc no_dots].
      + unfold first_nc. fold cl. rewrite E. apply G. lra.
      + specialize (FC eq_refl). apply G. lra.
    - assert (G1 : 0 <= rc c + dt * fr) by now apply G. assert (G2 : - Rmax 0 (rc c) <= dt * sr).
      { apply (Rmult_le_compat_l dt) in S1; [|lra]. replace (dt * - (Rmax 0 (rc c) / dt)) with (- Rmax 0 (rc c)) in S1 by (field; lra). exact S1. }
      destruct cl; cbn [drc no_dots]; lra.
    - intros E1 E2. specialize (Off E1 E2). destruct cl; cbn [drc no_dots]; apply G; lra.
  Qed.
  Lemma cell_water : 0 < rhod c ->
    0 <= drv d' + drc d' + drr d' /\
    ((0 < rc c -> 0 < nc c -> 0 < rr c -> b_accr o = true -> (if b_acnv o then kk_autoconversion o c else 0) + kk_accretion c <= rc c / dt) ->
      drv d' + drc d' + drr d' = 0).
  Proof.
    intros Hr. unfold dots_of.
    set (cl := cloud_limiter _ _ _ _ _ _ _ _). assert (S := second_rc_sum tgamma num_eps o dt c T p).
    set (fr := first_rc _ _ _ _ _ _ _ _). set (fR := first_rr _ _ _ _ _ _ _). set (sr := second_rc _ _ _ _ _ _ _) in *. set (sR := second_rr _ _ _ _ _ _ _) in *.
    assert (P : 0 <= sr + sR). { rewrite S. destruct (accr_on _ _ _ _ _ _ _); [apply Rmax_l|lra]. }
    split.
    - destruct cl; cbn [drv drc drr no_dots]; lra.
    - intros H. assert (Z : sr + sR = 0).
      { rewrite S. destruct (accr_on tgamma num_eps o dt c T p) eqn:E; [|reflexivity]. destruct (accr_on_pos E) as (E1 & H1 & H2 & H3).
        specialize (H H1 H2 H3 E1). rewrite Rmax_left; [reflexivity|].
        assert (B : accr_rate tgamma num_eps o dt c T p = kk_accretion c).
        { unfold accr_rate. rewrite E. unfold accretion_rate, kk_accretion. rewrite cpow_pos_eq by nra. reflexivity. }
        assert (A : acnv_rate num_eps o dt c <= if b_acnv o then kk_autoconversion o c else 0).
        { unfold acnv_rate, acnv_on. destruct (b_acnv o); [|cbn [andb]; lra]. unfold rc_eps, nc_eps. cbn [andb].
          destruct (_ && _).
          - eapply Rle_trans; [apply cmin_le_l|]. unfold autoconv_rate, kk_autoconversion.
            rewrite !cpow_pos_eq by nra. right. f_equal. f_equal. lra.
          - unfold kk_autoconversion. apply Rmult_le_pos; [apply Rmult_le_pos; [exact HA|left; apply exp_pos]|left; apply exp_pos]. }
        lra. }
      destruct cl; cbn [drv drc drr no_dots]; lra.
  Qed.
  (** without rain and without autoconversion: no rain, no drops, no water from nowhere *)
  Lemma cell_dry : b_acnv o = false -> rr c = 0 -> nr c = 0 -> drr d' = 0 /\ dnr d' = 0 /\ drv d' + drc d' + drr d' = 0.
  Proof.
    intros E1 E2 E3. assert (EA : accr_on tgamma num_eps o dt c T p = false).
    { destruct (accr_on tgamma num_eps o dt c T p) eqn:E; [|reflexivity]. destruct (accr_on_pos E) as (_ & _ & _ & E4). lra. }
    assert (EN : acnv_on num_eps o c = false) by (unfold acnv_on; rewrite E1; reflexivity).
    assert (RR : rain_rate tgamma num_eps o c T p = 0 /\ rain_number_rate tgamma num_eps o c T p = 0).
    { unfold rain_rate, rain_number_rate. replace (Rltb (rr_eps num_eps) (rr c)) with false; [cbn [andb]; destruct (b_cond o); auto|]. symmetry. apply Rltb_false. unfold rr_eps. lra. }
    destruct RR as (R1 & R2). assert (Z : - 0 / dt = 0) by (unfold Rdiv; ring).
    assert (F1 : first_rr tgamma num_eps o dt c T p = 0) by (unfold first_rr; rewrite R1, E2, Z, cmax_Rmax; apply Rmax_left; lra).
    assert (F2 : first_nr tgamma num_eps o dt c T p = 0).
    { unfold first_nr. rewrite R2, E3, Z, cmax_Rmax. destruct (rain_limiter _ _ _ _ _ _ _); [reflexivity|apply Rmax_left; lra]. }
    assert (S1 : second_rr tgamma num_eps o dt c T p = 0) by (unfold second_rr, acnv_rate, accr_rate; rewrite EN, EA; lra).
    assert (S2 : second_nr num_eps o dt c = 0) by (unfold second_nr; rewrite EN; reflexivity).
    assert (S3 : second_rc tgamma num_eps o dt c T p = 0) by (unfold second_rc, acnv_rate; rewrite EN, EA; lra).
    unfold dots_of. rewrite F1, F2, S1, S2, S3. destruct (cloud_limiter _ _ _ _ _ _ _ _); cbn [drr dnr drv drc no_dots]; lra.
  Qed.
  Lemma dots_add d : let d1 := dots_of tgamma erfc num_eps o dt c T p d in
    drv d1 = drv d + drv d' /\ drc d1 = drc d + drc d' /\ dnc d1 = dnc d + dnc d' /\ drr d1 = drr d + drr d' /\ dnr d1 = dnr d + dnr d' /\ dth d1 = dth d + dth d'.
  Proof. cbv zeta. unfold dots_of. destruct (cloud_limiter _ _ _ _ _ _ _ _); cbn [drv drc dnc drr dnr dth no_dots]; repeat split; ring. Qed.
End Cell.

(** ** tendencies *)
Section Rhs.
Variables (tgamma erfc erf : R -> R) (num_eps : R) (P : run_params2) (k0 : nat).
Notation o := (options_in P k0).
Notation rate := (rates tgamma erfc num_eps P k0).
Lemma rates_eq c : rate c = dots_of tgamma erfc num_eps o (q_dt P) c (dry_T (th c) (rhod c)) (dry_p (rhod c) (rv c) (dry_T (th c) (rhod c))) no_dots.
Proof. unfold rates. cbn [rhs_cellwise2]. unfold Tp. cbn [options_in b_const_p b_th_dry negb andb]. reflexivity. Qed.
Definition mass_speed (g : grid2) (i k : nat) : R := v_term_m tgamma erf num_eps (rhod (g i k)) (rr (g i k)) (nr (g i k)).
Definition number_speed (g : grid2) (i k : nat) : R := v_term_n tgamma erf num_eps (rhod (g i k)) (rr (g i k)) (nr (g i k)).
(** downward fluxes of rain and of drops through the bottom of level k *)
Definition rain_down (g : grid2) (i k : nat) : R :=
  if b_sedi (q_opts P) then downflux (q_nz P) (fun k => rhod (g i k)) (fun k => rr (g i k)) (mass_speed g i) (q_dt P) (q_dz P) (fun k => drr (rate (g i k))) k else 0.
Definition drops_down (g : grid2) (i k : nat) : R :=
  if b_sedi (q_opts P) then downflux (q_nz P) (fun k => rhod (g i k)) (fun k => nr (g i k)) (number_speed g i) (q_dt P) (q_dz P) (fun k => dnr (rate (g i k))) k else 0.
Lemma downflux_ext n rho q v dt dz dot dot' k : (forall m, (m < n)%nat -> dot m = dot' m) -> downflux n rho q v dt dz dot k = downflux n rho q v dt dz dot' k.
Proof. intros H. unfold downflux. destruct (Nat.ltb_spec k n) as [L|L]; [|reflexivity]. rewrite (H k L). reflexivity. Qed.

Lemma update_spec rlx th_eq rv_eq g i j : inside2 P i j ->
  let d := update_rhs2 tgamma erfc erf num_eps P o rlx th_eq rv_eq g i j in let d0 := common_rhs2 P rlx th_eq rv_eq g i j in let r := rate (g i j) in
  drv d = drv d0 + drv r /\ dth d = dth d0 + dth r /\ drc d = drc r /\ dnc d = dnc r /\
  drr d = drr r + (rain_down g i (S j) - rain_down g i j) / rhod (g i j) /\ dnr d = dnr r + (drops_down g i (S j) - drops_down g i j) / rhod (g i j).
Proof.
  intros (Hi & Hj). cbv zeta. set (d0 := common_rhs2 P rlx th_eq rv_eq g). unfold update_rhs2. fold d0.
  set (f := fun i j => (g i j, d0 i j)). set (l0 := Kin1mModel.flat (q_nx P) (q_nz P) f).
  destruct (rhs_cellwise2 tgamma erfc num_eps o (q_dt P) l0) as [ok l] eqn:E.
  destruct (call_cells _ _ _ _ _ _ _ _ E) as (C1 & C2).
  assert (Hok : ok = true) by (destruct ok; [reflexivity|]; destruct (C2 eq_refl) as (_ & C2'); discriminate C2').
  destruct (C1 Hok) as (CL & C3). clear C1 C2.
  set (d1 := fun i j => snd (Kin1mModel.unflat (q_nx P) (q_nz P) l f i j)).
  assert (Zd : forall k, drc (d0 i k) = 0 /\ dnc (d0 i k) = 0 /\ drr (d0 i k) = 0 /\ dnr (d0 i k) = 0) by (intros k; unfold d0, common_rhs2; destruct rlx; repeat split; reflexivity).
  assert (D1 : forall k, (k < q_nz P)%nat -> drv (d1 i k) = drv (d0 i k) + drv (rate (g i k)) /\ dth (d1 i k) = dth (d0 i k) + dth (rate (g i k)) /\
     drc (d1 i k) = drc (rate (g i k)) /\ dnc (d1 i k) = dnc (rate (g i k)) /\ drr (d1 i k) = drr (rate (g i k)) /\ dnr (d1 i k) = dnr (rate (g i k))).
  { intros k Hk. destruct (Kin1mProps.flat_index (q_nx P) (q_nz P) i k Hi Hk) as (X1 & _).
    assert (N : nth_error l0 (i * q_nz P + k) = Some (f i k)).
    { rewrite (nth_error_nth' l0 (f i k)) by (unfold l0; rewrite Kin1mProps.flat_length; exact X1). unfold l0. rewrite Kin1mProps.nth_flat by assumption. reflexivity. }
    destruct (C3 _ _ _ N) as (T & p & Ha & N').
    assert (ED : d1 i k = dots_of tgamma erfc num_eps o (q_dt P) (g i k) T p (d0 i k)).
    { unfold d1, Kin1mModel.unflat. rewrite (proj2 (Nat.ltb_lt i (q_nx P)) Hi), (proj2 (Nat.ltb_lt k (q_nz P)) Hk). cbn [andb]. rewrite (nth_error_nth _ _ _ N'). reflexivity. }
    assert (ER : rate (g i k) = dots_of tgamma erfc num_eps o (q_dt P) (g i k) T p no_dots).
    { rewrite rates_eq. destruct Ha as [(_ & _ & ET & EP)|(F & _)]; [|discriminate F]. rewrite EP, ET. unfold dry_p. reflexivity. }
    rewrite ED, ER. destruct (dots_add tgamma erfc num_eps o (q_dt P) (g i k) T p (d0 i k)) as (A1 & A2 & A3 & A4 & A5 & A6). cbv zeta in A1, A2, A3, A4, A5, A6.
    destruct (Zd k) as (Z1 & Z2 & Z3 & Z4). rewrite A1, A2, A3, A4, A5, A6, Z1, Z2, Z3, Z4, !Rplus_0_l. repeat split; reflexivity. }
  rewrite (proj2 (Nat.ltb_lt i (q_nx P)) Hi). change (fun k : nat => drr (snd (Kin1mModel.unflat (q_nx P) (q_nz P) l f i k))) with (fun k => drr (d1 i k)).
  change (fun k : nat => dnr (snd (Kin1mModel.unflat (q_nx P) (q_nz P) l f i k))) with (fun k => dnr (d1 i k)).
  destruct (rhs_columnwise2 tgamma erf num_eps o (q_nz P) (fun k => drr (d1 i k)) (fun k => dnr (d1 i k)) (fun k => rhod (g i k)) (fun k => rr (g i k)) (fun k => nr (g i k)) (q_dt P) (q_dz P)) as [[fl r] n] eqn:EC.
  cbn [drv dth drc dnc drr dnr]. change (snd (Kin1mModel.unflat (q_nx P) (q_nz P) l f i j)) with (d1 i j).
  destruct (D1 j Hj) as (A1 & A2 & A3 & A4 & A5 & A6). split; [exact A1|]. split; [exact A2|]. split; [exact A3|]. split; [exact A4|].
  unfold rhs_columnwise2 in EC. cbn [options_in b_sedi] in EC. unfold rain_down, drops_down. destruct (b_sedi (q_opts P)).
  - assert (Hz : (0 < q_nz P)%nat) by lia.
    destruct (column2_eq (q_nz P) (fun k => rhod (g i k)) (fun k => rr (g i k)) (mass_speed g i) (q_dt P) (q_dz P) (fun k => drr (d1 i k)) Hz) as (_ & B1).
    destruct (column2_eq (q_nz P) (fun k => rhod (g i k)) (fun k => nr (g i k)) (number_speed g i) (q_dt P) (q_dz P) (fun k => dnr (d1 i k)) Hz) as (_ & B2).
    unfold mass_speed at 1 in B1. unfold number_speed at 1 in B2.
    destruct (column2 true (q_nz P) (fun k => rhod (g i k)) (fun k => rr (g i k)) _ (q_dt P) (q_dz P) (fun k => drr (d1 i k))) as [x1 y1].
    destruct (column2 true (q_nz P) (fun k => rhod (g i k)) (fun k => nr (g i k)) _ (q_dt P) (q_dz P) (fun k => dnr (d1 i k))) as [x2 y2].
    injection EC as <- <- <-. cbn [snd] in B1, B2. rewrite B1, B2. unfold after_col. rewrite (proj2 (Nat.ltb_lt j (q_nz P)) Hj). cbn [Nat.leb andb].
    assert (X1 : forall m, (m < q_nz P)%nat -> drr (d1 i m) = drr (rate (g i m))) by (intros m Hm; apply (D1 m Hm)).
    assert (X2 : forall m, (m < q_nz P)%nat -> dnr (d1 i m) = dnr (rate (g i m))) by (intros m Hm; apply (D1 m Hm)).
    rewrite !(downflux_ext _ _ _ _ _ _ (fun k => drr (d1 i k)) (fun k => drr (rate (g i k))) _ X1), !(downflux_ext _ _ _ _ _ _ (fun k => dnr (d1 i k)) (fun k => dnr (rate (g i k))) _ X2).
    rewrite A5, A6. split; reflexivity.
  - unfold column2 in EC. cbn [negb] in EC. injection EC as <- <- <-. rewrite A5, A6. split; unfold Rdiv; ring.
Qed.

(** ** mass *)
Lemma apply_mass rlx th_eq rv_eq g wt : (1 <= q_nz P)%nat -> (forall i j, inside2 P i j -> 0 < rhod (g i j)) ->
  mass2 P wt water2 (apply_rhs2 (q_dt P) (update_rhs2 tgamma erfc erf num_eps P o rlx th_eq rv_eq g) g) =
  mass2 P wt water2 g + q_dt P * ((if rlx then relaxation2 P wt rv_eq g else 0) + mass2 P wt (created tgamma erfc num_eps P k0) g - rain_at_ground2 tgamma erfc erf num_eps P k0 wt g).
Proof.
  intros Hz Hr. set (g' := apply_rhs2 _ _ g). set (cm := fun i j => drv (common_rhs2 P rlx th_eq rv_eq g i j)).
  assert (A : forall i, (i < q_nx P)%nat ->
    sumR (q_nz P) (fun j => rhod (g' i j) * water2 (g' i j)) = sumR (q_nz P) (fun j => rhod (g i j) * water2 (g i j)) +
      q_dt P * (sumR (q_nz P) (fun j => rhod (g i j) * cm i j) + sumR (q_nz P) (fun j => rhod (g i j) * created tgamma erfc num_eps P k0 (g i j)) - rain_down g i 0)).
  { intros i Hi.
    rewrite (sumR_ext _ _ (fun j => rhod (g i j) * water2 (g i j) + q_dt P * ((rhod (g i j) * cm i j + rhod (g i j) * created tgamma erfc num_eps P k0 (g i j)) + (rain_down g i (S j) - rain_down g i j)))).
    - rewrite (sumR_plus (q_nz P) (fun j => rhod (g i j) * water2 (g i j))), (sumR_scal _ (q_dt P)). f_equal. f_equal.
      rewrite (sumR_plus (q_nz P) (fun j => rhod (g i j) * cm i j + rhod (g i j) * created tgamma erfc num_eps P k0 (g i j))), sumR_telescope.
      rewrite (sumR_plus (q_nz P) (fun j => rhod (g i j) * cm i j)).
      assert (Z : rain_down g i (q_nz P) = 0) by (unfold rain_down, downflux; rewrite Nat.ltb_irrefl; destruct (b_sedi (q_opts P)); reflexivity). rewrite Z. lra.
    - intros j Hj. destruct (update_spec rlx th_eq rv_eq g i j (conj Hi Hj)) as (U1 & _ & U3 & _ & U4 & _).
      unfold g', apply_rhs2, water2, created, cm. cbn [rhod rv rc rr]. rewrite U1, U3, U4. specialize (Hr i j (conj Hi Hj)). field. lra. }
  unfold mass2. rewrite (sumR_ext _ _ (fun i => wt i * sumR (q_nz P) (fun j => rhod (g i j) * water2 (g i j)) +
     q_dt P * ((wt i * sumR (q_nz P) (fun j => rhod (g i j) * cm i j) + wt i * sumR (q_nz P) (fun j => rhod (g i j) * created tgamma erfc num_eps P k0 (g i j))) + (Ropp 1) * (wt i * rain_down g i 0)))).
  2:{ intros i Hi. rewrite (A i Hi). ring. }
  rewrite (sumR_plus (q_nx P) (fun i => wt i * sumR (q_nz P) (fun j => rhod (g i j) * water2 (g i j)))), (sumR_scal _ (q_dt P)). f_equal. f_equal.
  rewrite (sumR_plus (q_nx P) (fun i => wt i * sumR (q_nz P) (fun j => rhod (g i j) * cm i j) + wt i * sumR (q_nz P) (fun j => rhod (g i j) * created tgamma erfc num_eps P k0 (g i j)))), (sumR_scal _ (Ropp 1)).
  rewrite (sumR_plus (q_nx P) (fun i => wt i * sumR (q_nz P) (fun j => rhod (g i j) * cm i j))).
  assert (B1 : sumR (q_nx P) (fun i => wt i * sumR (q_nz P) (fun j => rhod (g i j) * cm i j)) = if rlx then relaxation2 P wt rv_eq g else 0).
  { unfold cm. destruct rlx.
    - unfold relaxation2. apply sumR_ext. intros i Hi. f_equal.
    - apply sumR_0. intros i Hi. rewrite (sumR_0 (q_nz P)); [lra|]. intros j Hj. unfold common_rhs2. cbn [drv]. lra. }
  assert (B2 : sumR (q_nx P) (fun i => wt i * rain_down g i 0) = rain_at_ground2 tgamma erfc erf num_eps P k0 wt g).
  { unfold rain_at_ground2, rain_down. destruct (b_sedi (q_opts P)).
    - apply sumR_ext. intros i Hi. cbv zeta. unfold downflux. rewrite (proj2 (Nat.ltb_lt 0 (q_nz P))) by lia. reflexivity.
    - apply sumR_0. intros i Hi. lra. }
  rewrite B1, B2. lra.
Qed.
End Rhs.

(** ** runs *)
Section Run.
Variables (tgamma erfc erf : R -> R) (num_eps : R) (P : run_params2) (advect : nat -> grid2 -> grid2).
Variables (junk : nat -> R) (rhod0 th0 rv0 : nat -> nat -> R) (rc0 nc0 rr0 nr0 : option (nat -> nat -> R)).
Hypothesis Hspin : (0 <= q_spinup P)%Z.
Let w0 := start_run2 P junk rhod0 th0 rv0 rc0 nc0 rr0 nr0.
Let run k := steps2 tgamma erfc erf num_eps P advect k w0.
Let s0 := KinModel.hook_ante_loop (KinModel.fresh (KinModel.Blk2m (b_acnv (q_opts P)) (b_RH_max (q_opts P))) (q_spinup P) (q_relax P)).
Lemma run_solver2 n : KinModel.hook_ante_step (Z.of_nat n) (w2_s (run n)) = KinModel.solver_at s0 n.
Proof. induction n as [|n IH]; [reflexivity|]. unfold run in *. cbn [steps2 step2 w2_s]. rewrite IH. reflexivity. Qed.
Lemma solver_opts2 n : with_micro (driver_opts2 (q_opts P)) (KinModel.opts (KinModel.solver_at s0 n)) = options_in P n /\ KinModel.relaxing (KinModel.solver_at s0 n) = relaxes2 P n.
Proof.
  destruct (KinDrive.C85_spinup (KinModel.Blk2m (b_acnv (q_opts P)) (b_RH_max (q_opts P))) (q_spinup P) (q_relax P) n Hspin) as (A & B). fold s0 in A, B. cbn [KinModel.get_rain] in A, B.
  unfold options_in, relaxes2, rains. destruct (b_acnv (q_opts P)) eqn:Ea; cbn [andb].
  - destruct (B eq_refl) as (B1 & _ & B3 & _). rewrite B1, B3. split; [|reflexivity]. destruct (Z.eqb_spec (q_spinup P) 0) as [Z|Z]; cbn [negb].
    + cbn [with_micro driver_opts2 b_acti b_cond b_accr b_sedi b_A b_b b_c b_modes b_th_dry b_const_p]. rewrite Z. replace (0 <=? Z.of_nat n)%Z with true by (symmetry; apply Z.leb_le; lia). reflexivity.
    + destruct (Z.ltb_spec (Z.of_nat n) (q_spinup P)) as [L|L].
      * replace (q_spinup P <=? Z.of_nat n)%Z with false by (symmetry; apply Z.leb_gt; lia). reflexivity.
      * replace (q_spinup P <=? Z.of_nat n)%Z with true by (symmetry; apply Z.leb_le; lia). reflexivity.
  - destruct (A eq_refl) as (A1 & A2). rewrite A1, A2, andb_false_r. split; reflexivity.
Qed.
Lemma solver_now2 n : KinModel.relax (w2_s (run n)) = (q_relax P && b_acnv (q_opts P)) /\ KinModel.spinup (w2_s (run n)) = if b_acnv (q_opts P) then q_spinup P else 0%Z.
Proof.
  assert (S : KinModel.relax s0 = (q_relax P && b_acnv (q_opts P)) /\ KinModel.spinup s0 = if b_acnv (q_opts P) then q_spinup P else 0%Z).
  { unfold s0, KinModel.hook_ante_loop, KinModel.fresh. cbn [KinModel.opts KinModel.relax KinModel.spinup KinModel.get_rain].
    destruct (b_acnv (q_opts P)); cbn [negb]; rewrite ?andb_true_r, ?andb_false_r; auto. }
  destruct n as [|n]; [exact S|]. unfold run. cbn [steps2 step2 w2_s]. fold (run n). rewrite (run_solver2 n).
  destruct (KinDrive.solver_fields s0 n) as (_ & F2 & F3). rewrite F2, F3. exact S.
Qed.
Lemma run_target2 n : relaxes2 P n = true ->
  w2_rv_eq (run (S n)) = level_mean2 P rv (w2_g (run (Z.to_nat (q_spinup P)))) /\ w2_th_eq (run (S n)) = level_mean2 P th (w2_g (run (Z.to_nat (q_spinup P)))).
Proof.
  induction n as [|n IH]; intros HR; unfold relaxes2, rains in HR; apply andb_true_iff in HR; destruct HR as (R1 & HR); apply andb_true_iff in HR; destruct HR as (R2 & R3); apply Z.leb_le in R3.
  - assert (E0 : q_spinup P = 0%Z) by lia. destruct (solver_now2 0) as (N1 & N2). unfold run in *. cbn [steps2] in *. unfold step2. rewrite N1, N2, R1, R2, E0. cbn [andb Z.eqb Z.of_nat w2_rv_eq w2_th_eq Z.to_nat steps2]. auto.
  - destruct (solver_now2 (S n)) as (N1 & N2). unfold run in *. remember (steps2 tgamma erfc erf num_eps P advect (S n) w0) as v eqn:Ev.
    change (steps2 tgamma erfc erf num_eps P advect (S (S n)) w0) with (step2 tgamma erfc erf num_eps P (advect (S n)) (S n) (steps2 tgamma erfc erf num_eps P advect (S n) w0)). rewrite <- Ev.
    unfold step2. rewrite N1, N2, R1, R2. cbn [andb w2_rv_eq w2_th_eq].
    destruct (Z.eqb_spec (q_spinup P) (Z.of_nat (S n))) as [E1|E1].
    + rewrite E1, Nat2Z.id, Ev. split; reflexivity.
    + apply IH. unfold relaxes2, rains. rewrite R1, R2. cbn [andb]. apply Z.leb_le. lia.
Qed.
Lemma run_step2 n : let g := advect n (w2_g (run n)) in
  w2_g (run (S n)) = apply_rhs2 (q_dt P) (update_rhs2 tgamma erfc erf num_eps P (options_in P n) (relaxes2 P n) (w2_th_eq (run (S n))) (w2_rv_eq (run (S n))) g) g.
Proof.
  cbv zeta. destruct (solver_opts2 n) as (S1 & S2). assert (S0 := run_solver2 n). unfold run in *. cbn [steps2]. set (v := steps2 tgamma erfc erf num_eps P advect n w0) in *. clearbody v.
  unfold step2. rewrite S0, S1, S2. cbn [w2_g w2_th_eq w2_rv_eq]. reflexivity.
Qed.
End Run.

(** C89.  Whatever the advection does, as long as it only moves water: after any number of steps the water in the domain is what there was, plus what relaxation
    added, minus the rain that reached the ground, plus what the scheme creates; it never destroys water, and creates some only where autoconversion and accretion
    together exceed the cloud water per time step.  Relaxation acts after the spin-up only, towards the level means at its end. *)
Theorem C89_water_partial tgamma erfc erf num_eps P wt junk rhod0 th0 rv0 rc0 nc0 rr0 nr0 advect n :
  let run k := steps2 tgamma erfc erf num_eps P advect k (start_run2 P junk rhod0 th0 rv0 rc0 nc0 rr0 nr0) in
  let mid k := advect k (w2_g (run k)) in
  (1 <= q_nz P)%nat -> (0 <= q_spinup P)%Z -> 0 < q_dt P -> 0 <= num_eps -> 0 <= b_A (q_opts P) -> (forall i j, inside2 P i j -> 0 < rhod0 i j) ->
  (forall k, (k < n)%nat -> carries2 P wt (advect k)) ->
  (forall i j, inside2 P i j -> rhod (w2_g (run n) i j) = rhod0 i j) /\
  (exists target : nat -> R,
    (forall k, (k < n)%nat -> relaxes2 P k = true -> forall j, target j = sumR (q_nx P) (fun i => rv (w2_g (run (Z.to_nat (q_spinup P))) i j)) / INR (q_nx P)) /\
    mass2 P wt water2 (w2_g (run n)) = initial_water2 P wt rhod0 rv0 rc0 rr0 +
      q_dt P * sumR n (fun k => (if relaxes2 P k then relaxation2 P wt target (mid k) else 0) + mass2 P wt (created tgamma erfc num_eps P k) (mid k)
                                 - rain_at_ground2 tgamma erfc erf num_eps P k wt (mid k))) /\
  (forall k i j, (k < n)%nat -> inside2 P i j -> let c := mid k i j in
     0 <= created tgamma erfc num_eps P k c /\
     ((0 < rc c -> 0 < nc c -> 0 < rr c -> b_accr (q_opts P) = true -> (if rains P k then kk_autoconversion (q_opts P) c else 0) + kk_accretion c <= rc c / q_dt P) ->
        created tgamma erfc num_eps P k c = 0)).
Proof.
  intros run mid Hz Hs Hdt He HA Hr Hc.
  assert (Hrho : forall m, (m <= n)%nat -> forall i j, inside2 P i j -> rhod (w2_g (run m) i j) = rhod0 i j).
  { induction m as [|m IH]; intros Hm i j Hij; [reflexivity|]. unfold run. rewrite run_step2 by exact Hs. cbn [apply_rhs2 rhod]. fold (run m).
    destruct (Hc m ltac:(lia) (w2_g (run m))) as (K1 & _). rewrite (K1 i j Hij). apply IH; [lia|exact Hij]. }
  assert (Hmid : forall k, (k < n)%nat -> forall i j, inside2 P i j -> rhod (mid k i j) = rhod0 i j).
  { intros k Hk i j Hij. unfold mid. destruct (Hc k Hk (w2_g (run k))) as (K1 & _). rewrite (K1 i j Hij). apply Hrho; [lia|exact Hij]. }
  split; [apply Hrho; lia|]. split.
  - exists (level_mean2 P rv (w2_g (run (Z.to_nat (q_spinup P))))). split; [reflexivity|].
    assert (A : forall m, (m <= n)%nat -> mass2 P wt water2 (w2_g (run m)) = initial_water2 P wt rhod0 rv0 rc0 rr0 +
      q_dt P * sumR m (fun k => (if relaxes2 P k then relaxation2 P wt (level_mean2 P rv (w2_g (run (Z.to_nat (q_spinup P))))) (mid k) else 0) + mass2 P wt (created tgamma erfc num_eps P k) (mid k)
                                 - rain_at_ground2 tgamma erfc erf num_eps P k wt (mid k))); [|apply A; lia].
    induction m as [|m IH]; intros Hm.
    + cbn [sumR]. rewrite Rmult_0_r, Rplus_0_r. unfold mass2, initial_water2, run. cbn [steps2 start_run2 w2_g]. apply sumR_ext. intros i Hi. f_equal. apply sumR_ext. intros j Hj.
      unfold water2. cbn [rhod rv rc rr]. destruct rc0, rr0; reflexivity.
    + unfold run at 1. rewrite run_step2 by exact Hs. fold (run m). fold (mid m). rewrite apply_mass; [|exact Hz|intros i j Hij; rewrite (Hmid m ltac:(lia) i j Hij); apply Hr, Hij].
      destruct (Hc m ltac:(lia) (w2_g (run m))) as (_ & K2). fold (mid m) in K2. rewrite K2, (IH ltac:(lia)). cbn [sumR]. rewrite Rplus_assoc, <- Rmult_plus_distr_l. 
      assert (Q : (if relaxes2 P m then relaxation2 P wt (w2_rv_eq (steps2 tgamma erfc erf num_eps P advect (S m) (start_run2 P junk rhod0 th0 rv0 rc0 nc0 rr0 nr0))) (mid m) else 0) =
         (if relaxes2 P m then relaxation2 P wt (level_mean2 P rv (w2_g (run (Z.to_nat (q_spinup P))))) (mid m) else 0)).
      { destruct (relaxes2 P m) eqn:R; [|reflexivity]. destruct (run_target2 tgamma erfc erf num_eps P advect junk rhod0 th0 rv0 rc0 nc0 rr0 nr0 Hs m R) as (T1 & _). rewrite T1. reflexivity. }
      rewrite Q. reflexivity.
  - intros k i j Hk Hij c. unfold created. rewrite rates_eq.
    assert (Hrc : 0 < rhod c) by (unfold c; rewrite (Hmid k Hk i j Hij); apply Hr, Hij).
    exact (cell_water tgamma erfc num_eps (options_in P k) (q_dt P) c (dry_T (th c) (rhod c)) (dry_p (rhod c) (rv c) (dry_T (th c) (rhod c))) He HA Hrc).
Qed.

(** Whatever the length of the steps, and even if vapour or cloud water get negative: rain water and the numbers of droplets and of rain drops stay non-negative,
    if advection keeps them so.  Cloud water may become negative, but in one step not further than by what there was; negative cloud water is made up for in
    the next step; and it never becomes negative without collisions, so not in a spin-up that starts without rain. *)
Theorem C89_signs tgamma erfc erf num_eps P junk rhod0 th0 rv0 rc0 nc0 rr0 nr0 advect n :
  let run k := steps2 tgamma erfc erf num_eps P advect k (start_run2 P junk rhod0 th0 rv0 rc0 nc0 rr0 nr0) in
  gamma_like tgamma -> erf_like erf -> 0 < num_eps ->
  (0 <= q_spinup P)%Z -> 0 < q_dt P -> 0 < q_dz P -> 0 <= b_A (q_opts P) -> (forall i j, inside2 P i j -> 0 < rhod0 i j) ->
  (forall k g, (k < n)%nat -> forall i j, inside2 P i j -> rhod (advect k g i j) = rhod (g i j)) ->
  (forall k g, (k < n)%nat -> (forall i j, inside2 P i j -> 0 <= rr (g i j) /\ 0 <= nr (g i j) /\ 0 <= nc (g i j)) ->
     forall i j, inside2 P i j -> 0 <= rr (advect k g i j) /\ 0 <= nr (advect k g i j) /\ 0 <= nc (advect k g i j)) ->
  (forall i j, inside2 P i j -> 0 <= given2 rr0 i j /\ 0 <= given2 nr0 i j /\ 0 <= given2 nc0 i j) ->
  (forall i j, inside2 P i j -> 0 <= rr (w2_g (run n) i j) /\ 0 <= nr (w2_g (run n) i j) /\ 0 <= nc (w2_g (run n) i j)) /\
  (forall k i j, (k < n)%nat -> inside2 P i j -> let c := advect k (w2_g (run k)) i j in let c' := w2_g (run (S k)) i j in
     - Rmax 0 (rc c) <= rc c' /\ (rc c <= 0 -> 0 <= rc c') /\
     (rains P k = false -> b_accr (q_opts P) = false \/ rr c = 0 -> 0 <= rc c')).
Proof.
  intros run HG HE He Hs Hdt Hdz HA Hr Hadv Hpos Hini.
  assert (A : forall m, (m <= n)%nat -> forall i j, inside2 P i j -> rhod (w2_g (run m) i j) = rhod0 i j /\ 0 <= rr (w2_g (run m) i j) /\ 0 <= nr (w2_g (run m) i j) /\ 0 <= nc (w2_g (run m) i j)).
  { induction m as [|m IH]; intros Hm.
    - intros i j Hij. destruct (Hini i j Hij) as (I1 & I2 & I3). unfold run. cbn [steps2 start_run2 w2_g rhod rr nr nc]. split; [reflexivity|]. destruct rr0, nr0, nc0; cbn; repeat split; assumption.
    - specialize (IH ltac:(lia)). set (g := advect m (w2_g (run m))).
      assert (G : forall i j, inside2 P i j -> rhod (g i j) = rhod0 i j /\ 0 <= rr (g i j) /\ 0 <= nr (g i j) /\ 0 <= nc (g i j)).
      { intros i j Hij. split; [unfold g; rewrite (Hadv m _ ltac:(lia) i j Hij); apply IH, Hij|]. apply (Hpos m (w2_g (run m)) ltac:(lia)); [|exact Hij]. intros a b Hab. apply IH, Hab. }
      assert (CS : forall i j, inside2 P i j -> 0 <= rr (g i j) + q_dt P * drr (rates tgamma erfc num_eps P m (g i j)) /\ 0 <= nr (g i j) + q_dt P * dnr (rates tgamma erfc num_eps P m (g i j)) /\
         0 <= nc (g i j) + q_dt P * dnc (rates tgamma erfc num_eps P m (g i j))).
      { intros i j Hij. destruct (G i j Hij) as (_ & G1 & G2 & G3). rewrite rates_eq.
        destruct (cell_signs tgamma erfc num_eps (options_in P m) (q_dt P) (g i j) (dry_T (th (g i j)) (rhod (g i j))) (dry_p (rhod (g i j)) (rv (g i j)) (dry_T (th (g i j)) (rhod (g i j)))) Hdt ltac:(lra) HA G1 G2 G3) as (C1 & C2 & C3 & _).
        auto. }
      intros i j Hij. unfold run. rewrite run_step2 by exact Hs. fold (run m). fold g. set (th_eq := w2_th_eq _). set (rv_eq := w2_rv_eq _).
      destruct (update_spec tgamma erfc erf num_eps P m (relaxes2 P m) th_eq rv_eq g i j Hij) as (_ & _ & _ & U3 & U4 & U5). cbn [apply_rhs2 rhod rr nr nc]. rewrite U3, U4, U5.
      split; [apply G, Hij|]. destruct (CS i j Hij) as (C1 & C2 & C3). destruct Hij as (Hi & Hj).
      assert (Hz : (0 < q_nz P)%nat) by lia.
      assert (V : forall k, (k < q_nz P)%nat -> 0 <= mass_speed tgamma erf num_eps g i k /\ 0 <= number_speed tgamma erf num_eps g i k).
      { intros k Hk. destruct (G i k (conj Hi Hk)) as (G0 & _). unfold mass_speed, number_speed.
        destruct (C65_fall_speeds tgamma erf num_eps (rhod (g i k)) (rr (g i k)) (nr (g i k)) HG HE He ltac:(rewrite G0; apply Hr; split; assumption)) as (_ & _ & V1 & V2). split; assumption. }
      assert (R0 : forall k, (k < q_nz P)%nat -> 0 < rhod (g i k)) by (intros k Hk; destruct (G i k (conj Hi Hk)) as (G0 & _); rewrite G0; apply Hr; split; assumption).
      split; [|split; [|exact C3]].
      + unfold rain_down. destruct (b_sedi (q_opts P)).
        * pose proof (after_nonneg (q_nz P) (fun k => rhod (g i k)) (fun k => rr (g i k)) (mass_speed tgamma erf num_eps g i) (q_dt P) (q_dz P) (fun k => drr (rates tgamma erfc num_eps P m (g i k))) Hdt Hdz R0
            ltac:(intros k Hk; apply (G i k (conj Hi Hk))) ltac:(intros k Hk; apply V, Hk) ltac:(intros k Hk; apply (CS i k (conj Hi Hk))) j Hj) as AN.
          cbv beta in AN. unfold after_col in AN. rewrite (proj2 (Nat.ltb_lt j (q_nz P)) Hj) in AN. exact AN.
        * replace (0 - 0) with 0 by lra. unfold Rdiv. rewrite Rmult_0_l, Rplus_0_r. exact C1.
      + unfold drops_down. destruct (b_sedi (q_opts P)).
        * pose proof (after_nonneg (q_nz P) (fun k => rhod (g i k)) (fun k => nr (g i k)) (number_speed tgamma erf num_eps g i) (q_dt P) (q_dz P) (fun k => dnr (rates tgamma erfc num_eps P m (g i k))) Hdt Hdz R0
            ltac:(intros k Hk; apply (G i k (conj Hi Hk))) ltac:(intros k Hk; apply V, Hk) ltac:(intros k Hk; apply (CS i k (conj Hi Hk))) j Hj) as AN.
          cbv beta in AN. unfold after_col in AN. rewrite (proj2 (Nat.ltb_lt j (q_nz P)) Hj) in AN. exact AN.
        * replace (0 - 0) with 0 by lra. unfold Rdiv. rewrite Rmult_0_l, Rplus_0_r. exact C2. }
  split; [intros i j Hij; apply (A n); [lia|exact Hij]|].
  intros k i j Hk Hij c c'.
  assert (G : 0 <= rr c /\ 0 <= nr c /\ 0 <= nc c).
  { apply (Hpos k (w2_g (run k)) Hk); [|exact Hij]. intros a b Hab. apply (A k); [lia|exact Hab]. }
  destruct G as (G1 & G2 & G3).
  destruct (cell_signs tgamma erfc num_eps (options_in P k) (q_dt P) c (dry_T (th c) (rhod c)) (dry_p (rhod c) (rv c) (dry_T (th c) (rhod c))) Hdt ltac:(lra) HA G1 G2 G3) as (_ & _ & _ & C4 & C5).
  assert (E : rc c' = rc c + q_dt P * drc (rates tgamma erfc num_eps P k c)).
  { unfold c', run. rewrite run_step2 by exact Hs. fold (run k). cbn [apply_rhs2 rc]. fold c.
    set (th_eq := w2_th_eq _). set (rv_eq := w2_rv_eq _). destruct (update_spec tgamma erfc erf num_eps P k (relaxes2 P k) th_eq rv_eq (advect k (w2_g (run k))) i j Hij) as (_ & _ & U2 & _). rewrite U2. reflexivity. }
  rewrite E, rates_eq. split; [exact C4|]. split; [|exact C5]. intros Hc0. rewrite (Rmax_left 0 (rc c)) in C4 by exact Hc0. lra.
Qed.

(** During the spin-up, or without autoconversion, no rain forms where there was none, and the water in the domain does not change at all. *)
Theorem C89_spinup tgamma erfc erf num_eps P wt junk rhod0 th0 rv0 rc0 nc0 rr0 nr0 advect n :
  let run k := steps2 tgamma erfc erf num_eps P advect k (start_run2 P junk rhod0 th0 rv0 rc0 nc0 rr0 nr0) in
  (1 <= q_nz P)%nat -> (0 <= q_spinup P)%Z -> 0 < q_dt P -> 0 <= num_eps -> 0 <= b_A (q_opts P) -> (forall i j, inside2 P i j -> 0 < rhod0 i j) ->
  (forall k, (k < n)%nat -> carries2 P wt (advect k) /\
     forall g, (forall i j, inside2 P i j -> rr (g i j) = 0 /\ nr (g i j) = 0) -> forall i j, inside2 P i j -> rr (advect k g i j) = 0 /\ nr (advect k g i j) = 0) ->
  (forall i j, inside2 P i j -> given2 rr0 i j = 0 /\ given2 nr0 i j = 0) ->
  (Z.of_nat n <= q_spinup P)%Z \/ b_acnv (q_opts P) = false ->
  (forall i j, inside2 P i j -> rr (w2_g (run n) i j) = 0 /\ nr (w2_g (run n) i j) = 0) /\ mass2 P wt water2 (w2_g (run n)) = initial_water2 P wt rhod0 rv0 rc0 rr0.
Proof.
  intros run Hz Hs Hdt He HA Hr Hc Hrr Hn.
  assert (Hdry : forall k, (k < n)%nat -> rains P k = false).
  { intros k Hk. unfold rains. destruct Hn as [Hn|Hn]; [|rewrite Hn; reflexivity]. rewrite (proj2 (Z.leb_gt _ _)) by lia. apply andb_false_r. }
  assert (F0 : forall rho q v dt dz dot k, 0 < dt -> (forall j, (j < q_nz P)%nat -> q j = 0 /\ dot j = 0) -> downflux (q_nz P) rho q v dt dz dot k = 0).
  { intros rho q v dt dz dot k Hd Hq. unfold downflux. destruct (Nat.ltb_spec k (q_nz P)) as [L|L]; [|reflexivity]. destruct (Hq k L) as (Q1 & Q2). rewrite Q1, Q2.
    replace (face_momentum rho v k * 0 / dz) with 0 by (unfold Rdiv; ring). replace (rho k * (0 + dt * 0) / dt) with 0 by (unfold Rdiv; ring). apply Rmin_left. lra. }
  assert (A : forall m, (m <= n)%nat -> forall i j, inside2 P i j -> rr (w2_g (run m) i j) = 0 /\ nr (w2_g (run m) i j) = 0).
  { induction m as [|m IH]; intros Hm.
    - intros i j Hij. destruct (Hrr i j Hij) as (I1 & I2). unfold run. cbn [steps2 start_run2 w2_g rr nr]. destruct rr0, nr0; cbn; split; assumption.
    - specialize (IH ltac:(lia)). set (g := advect m (w2_g (run m))).
      assert (G : forall i j, inside2 P i j -> rr (g i j) = 0 /\ nr (g i j) = 0) by (apply (proj2 (Hc m ltac:(lia))); exact IH).
      assert (D : forall i j, inside2 P i j -> drr (rates tgamma erfc num_eps P m (g i j)) = 0 /\ dnr (rates tgamma erfc num_eps P m (g i j)) = 0).
      { intros i j Hij. destruct (G i j Hij) as (G1 & G2). rewrite rates_eq.
        destruct (cell_dry tgamma erfc num_eps (options_in P m) (q_dt P) (g i j) (dry_T (th (g i j)) (rhod (g i j))) (dry_p (rhod (g i j)) (rv (g i j)) (dry_T (th (g i j)) (rhod (g i j)))) He (Hdry m ltac:(lia)) G1 G2) as (D1 & D2 & _). auto. }
      intros i j Hij. unfold run. rewrite run_step2 by exact Hs. fold (run m). fold g. set (th_eq := w2_th_eq _). set (rv_eq := w2_rv_eq _).
      destruct (update_spec tgamma erfc erf num_eps P m (relaxes2 P m) th_eq rv_eq g i j Hij) as (_ & _ & _ & _ & U4 & U5). cbn [apply_rhs2 rr nr]. rewrite U4, U5.
      destruct (G i j Hij) as (G1 & G2). destruct (D i j Hij) as (D1 & D2). rewrite G1, G2, D1, D2.
      assert (B1 : forall k, rain_down tgamma erfc erf num_eps P m g i k = 0) by (intros k; unfold rain_down; destruct (b_sedi (q_opts P)); [apply F0; [exact Hdt|intros a Ha; split; [apply (G i a (conj (proj1 Hij) Ha))|apply (D i a (conj (proj1 Hij) Ha))]]|reflexivity]).
      assert (B2 : forall k, drops_down tgamma erfc erf num_eps P m g i k = 0) by (intros k; unfold drops_down; destruct (b_sedi (q_opts P)); [apply F0; [exact Hdt|intros a Ha; split; [apply (G i a (conj (proj1 Hij) Ha))|apply (D i a (conj (proj1 Hij) Ha))]]|reflexivity]).
      rewrite !B1, !B2. unfold Rdiv. split; ring. }
  split; [apply A; lia|].
  destruct (C89_water_partial tgamma erfc erf num_eps P wt junk rhod0 th0 rv0 rc0 nc0 rr0 nr0 advect n Hz Hs Hdt He HA Hr (fun k Hk => proj1 (Hc k Hk))) as (_ & (tg & _ & M3) & M4).
  fold run in M3, M4. unfold run at 1. rewrite M3, sumR_0; [lra|]. intros k Hk. unfold relaxes2. rewrite (Hdry k Hk), andb_false_r.
  assert (G := proj2 (Hc k Hk) (w2_g (run k)) (A k ltac:(lia))). set (g := advect k (w2_g (run k))) in *.
  assert (Z1 : mass2 P wt (created tgamma erfc num_eps P k) g = 0).
  { unfold mass2. apply sumR_0. intros i Hi. rewrite sumR_0; [lra|]. intros j Hj. destruct (M4 k i j Hk (conj Hi Hj)) as (_ & M5). change (created tgamma erfc num_eps P k (g i j)) with (created tgamma erfc num_eps P k (advect k (w2_g (steps2 tgamma erfc erf num_eps P advect k (start_run2 P junk rhod0 th0 rv0 rc0 nc0 rr0 nr0))) i j)). rewrite M5; [unfold g; lra|].
    intros _ _ Hp. destruct (G i j (conj Hi Hj)) as (G1 & _). unfold g, run in G1. lra. }
  change (advect k (w2_g (steps2 tgamma erfc erf num_eps P advect k (start_run2 P junk rhod0 th0 rv0 rc0 nc0 rr0 nr0)))) with g.
  rewrite Z1. unfold rain_at_ground2. destruct (b_sedi (q_opts P)); [|lra].
  rewrite sumR_0; [lra|]. intros i Hi. cbv zeta. assert (Hi0 : inside2 P i 0) by (split; [exact Hi|lia]). destruct (G i 0%nat Hi0) as (G1 & G2).
  assert (D1 : drr (rates tgamma erfc num_eps P k (g i 0%nat)) = 0).
  { rewrite rates_eq. destruct (cell_dry tgamma erfc num_eps (options_in P k) (q_dt P) (g i 0%nat) (dry_T (th (g i 0%nat)) (rhod (g i 0%nat))) (dry_p (rhod (g i 0%nat)) (rv (g i 0%nat)) (dry_T (th (g i 0%nat)) (rhod (g i 0%nat)))) He (Hdry k Hk) G1 G2) as (D1 & _). exact D1. }
  rewrite G1, D1. rewrite Rmin_left; [unfold Rdiv; ring|]. unfold Rdiv. right. ring.
Qed.

Print Assumptions C89_water_partial.
Print Assumptions C89_signs.
Print Assumptions C89_spinup.
