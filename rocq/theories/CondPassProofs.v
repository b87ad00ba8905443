(** Condensation pass: specification of water contents, contents before and after growth, one substep. *)
From Coq Require Import List Arith NArith ZArith Lia Reals Lra Bool.
From Verif Require Import Base BaseProofs HskpngModel SpaceModel ThermoModel ThermoProofs TomsModel CondModel MomsModel MomsProofs CondPassModel.
Import ListNotations.
Local Open Scope R_scope.

(** ** specification *)

(** mass of liquid water, of ice, in cell [c]: number of particles times the mass of a sphere of the wet radius (of a spheroid) *)
Definition liq_in (P : parts) (c : nat) : R :=
  cellsum (p_np P) (p_ijk P) (fun i => N2R (p_n P i) * (4 / 3 * PI * 1000 * (sqrt (p_rw2 P i)) ^ 3)) c.
Definition ice_in (P : parts) (c : nat) : R :=
  cellsum (p_np P) (p_ijk P)
    (fun i => if Rlt_dec 0 (p_ia P i) then N2R (p_n P i) * (4 / 3 * PI * p_irho P i * p_ia P i * p_ia P i * p_ic P i) else 0) c.
(** mass of dry air of cell [c]; numbers of droplets are per 1 kg of dry air in a parcel model *)
Definition air_in (parcel : bool) (rhod dv : nat -> R) (c : nat) : R := if parcel then 1 else rhod c * dv c.
(** mixing ratios *)
Definition q_liq (o : copts) (P : parts) (E : cells) (c : nat) : R := liq_in P c / air_in (o_parcel o) (e_rhod E) (e_dv E) c.
Definition q_ice (o : copts) (P : parts) (E : cells) (c : nat) : R :=
  if o_ice o then ice_in P c / air_in (o_parcel o) (e_rhod E) (e_dv E) c else 0.
Definition total_water (o : copts) (st : cst) (c : nat) : R :=
  e_rv (s_E st) c + q_liq o (s_P st) (s_E st) c + q_ice o (s_P st) (s_E st) c.

(** an admissible population and grid: sorted by cell, cells in range, sizes not negative, positive density and volume of cells *)
Definition pop_ok (o : copts) (sijk sid : list nat) (st : cst) : Prop :=
  let P := s_P st in let E := s_E st in
  sorted_pop (p_np P) (p_ijk P) sijk sid /\
  (forall i, (i < p_np P)%nat -> (p_ijk P i < e_nc E)%nat) /\
  (forall i, 0 <= p_rw2 P i) /\
  (forall c, (c < e_nc E)%nat -> 0 < e_rhod E c /\ 0 < e_dv E c).

(** ** auxiliary *)

Lemma cpow_3_2 x : 0 <= x -> cpow x (3 / 2) = sqrt x ^ 3.
Proof.
  intros H. unfold cpow. destruct (Rlt_dec 0 x) as [Hx|Hx].
  - rewrite <- Rpower_pow by (apply sqrt_lt_R0; exact Hx). rewrite <- Rpower_sqrt by exact Hx.
    rewrite Rpower_mult. f_equal. cbn. lra.
  - assert (x = 0) by lra. subst. destruct (Req_EM_T (3 / 2) 0); [lra|]. rewrite sqrt_0. cbn. lra.
Qed.
Lemma cpow_one x : 0 <= x -> cpow x 1 = x.
Proof.
  intros H. unfold cpow. destruct (Rlt_dec 0 x) as [Hx|Hx]; [apply Rpower_1, Hx|].
  destruct (Req_EM_T 1 0); lra.
Qed.
Lemma moment_32 n x : 0 <= x -> moment_counter (3 / 2) n x = n * sqrt x ^ 3.
Proof.
  intros H. unfold moment_counter. replace (Rleb 0 x) with true by (symmetry; apply Rleb_true, H).
  rewrite cpow_3_2 by exact H. reflexivity.
Qed.
Lemma truncZ_1 : truncZ 1 = 1%Z.
Proof.
  unfold truncZ. destruct (Rle_dec 0 1); [|lra]. unfold Int_part. replace 1 with (IZR 1) by reflexivity.
  rewrite <- (tech_up (IZR 1) 2); [reflexivity|lra|lra].
Qed.
Lemma moment_1 n x : moment_counter 1 n x = n * x.
Proof.
  unfold moment_counter. destruct (Rleb 0 x) eqn:E.
  - apply Rleb_true in E. rewrite cpow_one by exact E. reflexivity.
  - rewrite truncZ_1. change (powerRZ x 1) with (x ^ 1). rewrite pow_1. reflexivity.
Qed.
Lemma rw2torw3_eq w : 0 <= w -> rw2torw3 w = sqrt w ^ 3.
Proof. intros H. unfold rw2torw3. rewrite <- (sqrt_sqrt w) at 1 by exact H. ring. Qed.

Lemma advance_nonneg k e dt old : 0 <= old -> 0 <= advance_rw2 k true e dt old.
Proof.
  intros H. unfold advance_rw2, advance_rw2_rate. destruct (Rleb old 0); [exact H|].
  destruct (Reqb _ 0); [exact H|]. destruct (Reqb _ _); [exact H|].
  match goal with |- 0 <= (if Rltb ?x ?y then _ else _) => destruct (Rltb x y) eqn:E end.
  - nra.
  - apply Rltb_false in E. nra.
Qed.
Lemma advance_diff_nonneg k e dt old : 0 <= old -> 0 <= old + advance_rw2 k false e dt old.
Proof.
  intros H. unfold advance_rw2, advance_rw2_rate. destruct (Rleb old 0) eqn:E0; [apply Rleb_true in E0; lra|].
  destruct (Reqb _ 0); [lra|]. destruct (Reqb _ _); [lra|].
  match goal with |- 0 <= old + ((if Rltb ?x ?y then _ else _) - old) => destruct (Rltb x y) eqn:E end.
  - nra.
  - apply Rltb_false in E. nra.
Qed.

Lemma drop_mlt_eq : drop_mlt = 4 / 3 * PI * 1000.
Proof. unfold drop_mlt, rho_w. lra. Qed.

(** contents in the units of the code *)
Definition Wet (o : copts) (P : parts) (E : cells) (c : nat) : R :=
  per_air (negb (o_parcel o)) (e_dv E) (e_rhod E) c
    (cellsum (p_np P) (p_ijk P) (fun i => moment_counter (3 / 2) (n_real P i) (p_rw2 P i)) c).
Definition Ice (o : copts) (P : parts) (E : cells) (c : nat) : R :=
  per_air (negb (o_parcel o)) (e_dv E) (e_rhod E) c
    (cellsum (p_np P) (p_ijk P)
       (fun i => moment_counter 1 (gt0_filter (n_real P i) (p_ia P i)) (ice_mass (p_ia P i) (p_ic P i) (p_irho P i))) c).

Lemma per_air_scal sp dv rhod c x a : per_air sp dv rhod c (a * x) = a * per_air sp dv rhod c x.
Proof. unfold per_air. destruct sp; [unfold Rdiv; ring|reflexivity]. Qed.
Lemma per_air_0 sp dv rhod c : per_air sp dv rhod c 0 = 0.
Proof. unfold per_air. destruct sp; unfold Rdiv; ring. Qed.
Lemma per_air_eq parcel dv rhod c x : 0 < rhod c -> 0 < dv c ->
  per_air (negb parcel) dv rhod c x = x / air_in parcel rhod dv c.
Proof.
  intros H1 H2. unfold per_air, air_in. destruct parcel; cbn; [lra|]. field. lra.
Qed.

Lemma Wet_q o P E c : (forall i, 0 <= p_rw2 P i) -> 0 < e_rhod E c -> 0 < e_dv E c ->
  q_liq o P E c = drop_mlt * Wet o P E c.
Proof.
  intros Hr H1 H2. unfold q_liq, Wet. rewrite <- per_air_scal, <- cellsum_scal, per_air_eq by assumption. f_equal.
  apply cellsum_ext. intros i _ _. rewrite moment_32 by apply Hr. rewrite drop_mlt_eq. unfold n_real. ring.
Qed.
Lemma Ice_q o P E c : 0 < e_rhod E c -> 0 < e_dv E c ->
  q_ice o P E c = if o_ice o then Ice o P E c else 0.
Proof.
  intros H1 H2. unfold q_ice, Ice. destruct (o_ice o); [|reflexivity]. rewrite per_air_eq by assumption. f_equal.
  apply cellsum_ext. intros i _ _. rewrite moment_1. unfold gt0_filter, ice_mass, n_real.
  destruct (Rlt_dec 0 (p_ia P i)) as [H|H].
  - replace (Rltb 0 (p_ia P i)) with true by (symmetry; apply Rltb_true, H). ring.
  - replace (Rltb 0 (p_ia P i)) with false by (symmetry; apply Rltb_false; lra). ring.
Qed.

Section Contents.
  Variables (o : copts) (sijk sid : list nat) (P : parts) (E : cells).
  Hypothesis Hs : sorted_pop (p_np P) (p_ijk P) sijk sid.
  Hypothesis Hb : forall i, (i < p_np P)%nat -> (p_ijk P i < e_nc E)%nat.

  Lemma Wet_empty c : ~ occupied (p_np P) (p_ijk P) c -> Wet o P E c = 0.
  Proof. intros H. unfold Wet. rewrite cellsum_empty by exact H. apply per_air_0. Qed.
  Lemma Ice_empty c : ~ occupied (p_np P) (p_ijk P) c -> Ice o P E c = 0.
  Proof. intros H. unfold Ice. rewrite cellsum_empty by exact H. apply per_air_0. Qed.

  Lemma blank_wet g c : (c < e_nc E)%nat -> ~ occupied (p_np P) (p_ijk P) c -> blank (e_nc E) (wet_mom3 o sijk sid P E) g c = 0.
  Proof.
    intros Hc Ho. unfold blank. destruct (Nat.eqb_spec (length (wet_mom3 o sijk sid P E)) (e_nc E)) as [El|]; [|reflexivity].
    exfalso. apply Ho. unfold wet_mom3 in El. exact (moms_length _ _ _ _ Hs _ _ _ _ _ _ _ Hb El c Hc).
  Qed.
  Lemma blank_ice g c : (c < e_nc E)%nat -> ~ occupied (p_np P) (p_ijk P) c -> blank (e_nc E) (ice_mom o sijk sid P E) g c = 0.
  Proof.
    intros Hc Ho. unfold blank. destruct (Nat.eqb_spec (length (ice_mom o sijk sid P E)) (e_nc E)) as [El|]; [|reflexivity].
    exfalso. apply Ho. unfold ice_mom in El. exact (moms_length _ _ _ _ Hs _ _ _ _ _ _ _ Hb El c Hc).
  Qed.

  Lemma save_liq_eq g c : (c < e_nc E)%nat -> save_liq o sijk sid P E g c = - Wet o P E c.
  Proof.
    intros Hc. unfold save_liq. cbv zeta. unfold wet_mom3 at 1. rewrite (scatter_moms _ _ _ _ Hs).
    destruct (occupied_dec _ _ _ _ Hs c) as [H|H].
    - unfold neg_store, Wet. reflexivity.
    - rewrite blank_wet by assumption. rewrite Wet_empty by exact H. ring.
  Qed.
  Lemma save_ice_eq g c : (c < e_nc E)%nat -> save_ice o sijk sid P E g c = - Ice o P E c.
  Proof.
    intros Hc. unfold save_ice. cbv zeta. unfold ice_mom at 1. rewrite (scatter_moms _ _ _ _ Hs).
    destruct (occupied_dec _ _ _ _ Hs c) as [H|H].
    - unfold neg_store, Ice. reflexivity.
    - rewrite blank_ice by assumption. rewrite Ice_empty by exact H. ring.
  Qed.
  Lemma add_liq_eq d c : add_liq o sijk sid P E d c = d c + Wet o P E c.
  Proof.
    unfold add_liq, wet_mom3. rewrite (scatter_moms _ _ _ _ Hs). destruct (occupied_dec _ _ _ _ Hs c) as [H|H]; [reflexivity|].
    rewrite Wet_empty by exact H. ring.
  Qed.
  Lemma add_ice_eq d c : add_ice o sijk sid P E d c = d c + Ice o P E c.
  Proof.
    unfold add_ice, ice_mom. rewrite (scatter_moms _ _ _ _ Hs). destruct (occupied_dec _ _ _ _ Hs c) as [H|H]; [reflexivity|].
    rewrite Ice_empty by exact H. ring.
  Qed.
  Lemma store_liq_eq d c : (~ occupied (p_np P) (p_ijk P) c -> d c = 0) ->
    scatter store (wet_mom3 o sijk sid P E) d c = Wet o P E c.
  Proof.
    intros Hd. unfold wet_mom3. rewrite (scatter_moms _ _ _ _ Hs). destruct (occupied_dec _ _ _ _ Hs c) as [H|H]; [reflexivity|].
    rewrite Wet_empty by exact H. apply Hd, H.
  Qed.
  Lemma store_ice_eq d c : (~ occupied (p_np P) (p_ijk P) c -> d c = 0) ->
    scatter store (ice_mom o sijk sid P E) d c = Ice o P E c.
  Proof.
    intros Hd. unfold ice_mom. rewrite (scatter_moms _ _ _ _ Hs). destruct (occupied_dec _ _ _ _ Hs c) as [H|H]; [reflexivity|].
    rewrite Ice_empty by exact H. apply Hd, H.
  Qed.
End Contents.

(** ** one per-cell substep *)

(** what a condensation pass never changes *)
Definition same_pop (P P' : parts) : Prop := p_np P' = p_np P /\ p_ijk P' = p_ijk P /\ p_n P' = p_n P.
Definition factor_v (T q : R) : R := 1 + l_v T / c_pd / T * q.
Definition factor_s (T q : R) : R := 1 + l_s T / c_pd / T * q.

Lemma sstp_percell_frame o k st : s_P (sstp_percell_step o k st) = s_P st /\
  e_nc (s_E (sstp_percell_step o k st)) = e_nc (s_E st) /\ e_dv (s_E (sstp_percell_step o k st)) = e_dv (s_E st) /\
  (o_var_rho o = false -> e_rhod (s_E (sstp_percell_step o k st)) = e_rhod (s_E st)).
Proof.
  unfold sstp_percell_step. destruct (o_sstp o =? 1)%nat; [repeat split; reflexivity|]. repeat split; try reflexivity.
  intros H. cbn [s_E e_rhod]. rewrite H. reflexivity.
Qed.

Lemma percell_substep_spec o g lD lK sijk sid k l c :
  let P := s_P (l_st l) in
  sorted_pop (p_np P) (p_ijk P) sijk sid ->
  (forall i, (i < p_np P)%nat -> (p_ijk P i < e_nc (s_E (l_st l)))%nat) ->
  (c < e_nc (s_E (l_st l)))%nat ->
  (k <> 0%nat -> ~ occupied (p_np P) (p_ijk P) c -> l_rw l c = 0 /\ l_ice l c = 0) ->
  let st1 := sstp_percell_step o k (l_st l) in
  let E1 := hskpng_Tpr o (s_E st1) in
  let l' := percell_substep o g lD lK sijk sid k l in
  let P' := s_P (l_st l') in let E' := s_E (l_st l') in
  let dL := Wet o P' E1 c - (if (k =? 0)%nat then Wet o P E1 c else l_rw l c) in
  let dI := Ice o P' E1 c - (if (k =? 0)%nat then Ice o P E1 c else l_ice l c) in
  e_rv E' c = e_rv (s_E st1) c - drop_mlt * dL - (if o_ice o then dI else 0) /\
  e_th E' c = e_th (s_E st1) c * factor_v (e_T E1 c) (drop_mlt * dL) * (if o_ice o then factor_s (e_T E1 c) dI else 1) /\
  (S k <> o_sstp o -> l_rw l' c = Wet o P' E1 c /\ l_ice l' c = Ice o P' E1 c).
Proof.
  intros P Hs Hb Hc H0 st1 E1 l' P' E' dL dI.
  destruct (sstp_percell_frame o k (l_st l)) as (F1 & F2 & _). fold st1 in F1, F2.
  assert (Hnc : e_nc E1 = e_nc (s_E (l_st l))) by exact F2.
  set (P1 := apply_sgs_supersat o (s_P st1)) in *.
  assert (S1 : p_np P1 = p_np P /\ p_ijk P1 = p_ijk P /\ p_n P1 = p_n P /\ p_rw2 P1 = p_rw2 P /\ p_ia P1 = p_ia P /\ p_ic P1 = p_ic P /\
               p_irho P1 = p_irho P).
  { unfold P1, apply_sgs_supersat. rewrite F1. destruct (o_turb o); repeat split; reflexivity. }
  destruct S1 as (S1 & S2 & S3 & S4 & S5 & S6 & S7).
  set (P2 := grow_liq o lD lK P1 E1) in *.
  set (P3 := if o_ice o then grow_ice o lD lK P2 E1 else P2) in *.
  assert (HP' : P' = P3) by reflexivity.
  assert (T1 : p_np P2 = p_np P) by exact S1. assert (T2 : p_ijk P2 = p_ijk P) by exact S2. assert (T3 : p_n P2 = p_n P) by exact S3.
  assert (T4 : p_ia P2 = p_ia P) by exact S5.
  assert (U1 : p_np P3 = p_np P2 /\ p_ijk P3 = p_ijk P2 /\ p_n P3 = p_n P2 /\ p_rw2 P3 = p_rw2 P2).
  { unfold P3. destruct (o_ice o); repeat split; reflexivity. }
  destruct U1 as (U1 & U2 & U3 & U4).
  assert (W1 : forall E, Wet o P1 E c = Wet o P E c) by (intros E; unfold Wet, n_real; rewrite S1, S2, S3, S4; reflexivity).
  assert (I1 : forall E, Ice o P1 E c = Ice o P E c)
    by (intros E; unfold Ice, n_real; rewrite S1, S2, S3, S5, S6, S7; reflexivity).
  assert (W2 : forall E, Wet o P3 E c = Wet o P2 E c) by (intros E; unfold Wet, n_real; rewrite U1, U2, U3, U4; reflexivity).
  assert (Hs1 : sorted_pop (p_np P1) (p_ijk P1) sijk sid) by (rewrite S1, S2; exact Hs).
  assert (Hs2 : sorted_pop (p_np P2) (p_ijk P2) sijk sid) by exact Hs1.
  assert (Hs3 : sorted_pop (p_np P3) (p_ijk P3) sijk sid) by (rewrite U1, U2; exact Hs1).
  assert (Hb1 : forall i, (i < p_np P1)%nat -> (p_ijk P1 i < e_nc E1)%nat) by (rewrite S1, S2, Hnc; exact Hb).
  assert (Hb2 : forall i, (i < p_np P2)%nat -> (p_ijk P2 i < e_nc E1)%nat) by exact Hb1.
  assert (Hc1 : (c < e_nc E1)%nat) by (rewrite Hnc; exact Hc).
  assert (Ho : forall Q, p_np Q = p_np P -> p_ijk Q = p_ijk P -> ~ occupied (p_np Q) (p_ijk Q) c -> ~ occupied (p_np P) (p_ijk P) c)
    by (intros Q -> ->; auto).
  (* drw0, dice0 *)
  set (drw0 := if (k =? 0)%nat then save_liq o sijk sid P1 E1 (g_drw g) else fun c => - l_rw l c).
  set (rw0 := if (k =? 0)%nat then blank (e_nc E1) (wet_mom3 o sijk sid P1 E1) (g_rw g) else l_rw l).
  set (dice0 := if (k =? 0)%nat then save_ice o sijk sid P1 E1 (g_dice g) else fun c => - l_ice l c).
  set (m := wet_mom3 o sijk sid P2 E1).
  set (ice0 := if (k =? 0)%nat then blank (e_nc E1) m (g_ice g) else l_ice l).
  set (mi := ice_mom o sijk sid P3 E1).
  set (last := (S k =? o_sstp o)%nat).
  set (rw1 := if last then rw0 else scatter store m rw0).
  set (drw1 := if last then scatter Rplus m drw0 else fun c => rw1 c + drw0 c).
  set (ice1 := if last then ice0 else scatter store mi ice0).
  set (dice1 := if last then scatter Rplus mi dice0 else fun c => ice1 c + dice0 c).
  assert (HE' : E' = update_th_rv o drw1 dice1 E1) by reflexivity.
  assert (Hrw' : l_rw l' = rw1) by reflexivity. assert (Hic' : l_ice l' = ice1) by reflexivity.
  assert (D0 : drw0 c = - (if (k =? 0)%nat then Wet o P E1 c else l_rw l c)).
  { unfold drw0. destruct (k =? 0)%nat; [|reflexivity]. rewrite save_liq_eq by assumption. rewrite W1. reflexivity. }
  assert (D0' : dice0 c = - (if (k =? 0)%nat then Ice o P E1 c else l_ice l c)).
  { unfold dice0. destruct (k =? 0)%nat; [|reflexivity]. rewrite save_ice_eq by assumption. rewrite I1. reflexivity. }
  assert (R0 : ~ occupied (p_np P2) (p_ijk P2) c -> rw0 c = 0).
  { intros H. unfold rw0. destruct (Nat.eqb_spec k 0) as [|Hk].
    - apply blank_wet; assumption.
    - apply (H0 Hk). apply (Ho P2); assumption. }
  assert (R0' : ~ occupied (p_np P3) (p_ijk P3) c -> ice0 c = 0).
  { intros H. rewrite U1, U2 in H. unfold ice0. destruct (Nat.eqb_spec k 0) as [|Hk].
    - apply blank_wet; assumption.
    - apply (H0 Hk). apply (Ho P2); assumption. }
  assert (D1 : drw1 c = dL).
  { unfold drw1, dL. rewrite HP', W2. destruct last eqn:El.
    - change (scatter Rplus m drw0 c) with (add_liq o sijk sid P2 E1 drw0 c). rewrite add_liq_eq by assumption. rewrite D0. lra.
    - unfold rw1, m. cbv iota. rewrite store_liq_eq by assumption. rewrite D0. lra. }
  assert (D1' : dice1 c = dI).
  { unfold dice1, dI. rewrite HP'. destruct last eqn:El.
    - change (scatter Rplus mi dice0 c) with (add_ice o sijk sid P3 E1 dice0 c). rewrite add_ice_eq by assumption. rewrite D0'. lra.
    - unfold ice1, mi. cbv iota. rewrite store_ice_eq by assumption. rewrite D0'. lra. }
  rewrite HE', Hrw', Hic'. unfold update_th_rv. cbn [set_rvth e_rv e_th].
  change (e_rv E1 c) with (e_rv (s_E st1) c). change (e_th E1 c) with (e_th (s_E st1) c).
  split; [|split].
  - destruct (o_ice o); rewrite ?D1, ?D1'; change (e_rv E1 c) with (e_rv (s_E st1) c); lra.
  - unfold d_th_d_rv, d_th_d_rv_dep, factor_v, factor_s.
    destruct (o_ice o); cbv beta; rewrite ?D1, ?D1'; change (e_th E1 c) with (e_th (s_E st1) c); unfold Rdiv; ring.
  - intros Hl. assert (El : last = false) by (apply Nat.eqb_neq; exact Hl).
    rewrite HP', W2. unfold rw1, ice1. rewrite El. split; [apply store_liq_eq; assumption|apply store_ice_eq; assumption].
Qed.
