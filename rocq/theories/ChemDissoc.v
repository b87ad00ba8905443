(** * C67: dissociation in droplets: ions, electroneutrality, pH; which droplets take part *)
From Coq Require Import List Arith NArith ZArith Lia Reals Ranalysis5 Lra Bool.
From Coquelicot Require Import Coquelicot.
From Verif Require Import Base BaseProofs ThermoModel ThermoProofs TomsModel TomsProps MomsModel InitModel ChemModel ChemHenry.
Import ListNotations.
Local Open Scope R_scope.

(** ** Specification *)
(** concentrations (mol/m3) of everything dissolved in a droplet *)
Record ions := { oh : R; so2 : R; hso3 : R; so3 : R; hso4 : R; so4 : R; co2 : R; hco3 : R; co3 : R; hno3 : R; no3 : R; nh3 : R; nh4 : R }.
(** totals of S(IV), C(IV), N(V), N(-III), S(VI) *)
Record totals := { tS4 : R; tC4 : R; tN5 : R; tN3 : R; tS6 : R }.
(** laws of mass action at temperature T and H+ concentration h (sulfuric acid has no undissociated form), and the balances *)
Definition mass_action (T h : R) (t : totals) (x : ions) : Prop :=
  oh x * h = K_H2O /\
  (hso3 x * h = Kt_SO2 T * so2 x /\ so3 x * h = Kt_HSO3 T * hso3 x /\ so2 x + hso3 x + so3 x = tS4 t) /\
  (so4 x * h = Kt_HSO4 T * hso4 x /\ hso4 x + so4 x = tS6 t) /\
  (hco3 x * h = Kt_CO2 T * co2 x /\ co3 x * h = Kt_HCO3 T * hco3 x /\ co2 x + hco3 x + co3 x = tC4 t) /\
  (no3 x * h = Kt_HNO3 T * hno3 x /\ hno3 x + no3 x = tN5 t) /\
  (nh4 x * oh x = Kt_NH3 T * nh3 x /\ nh3 x + nh4 x = tN3 t).
(** net charge per volume (in moles of elementary charge) and ionic strength *)
Definition net_charge (h : R) (x : ions) : R :=
  h + nh4 x - (oh x + hso3 x + 2 * so3 x + hso4 x + 2 * so4 x + hco3 x + 2 * co3 x + no3 x).
Definition strength (h : R) (x : ions) : R :=
  1 / 2 * (h + nh4 x + oh x + hso3 x + 2 ^ 2 * so3 x + hso4 x + 2 ^ 2 * so4 x + hco3 x + 2 ^ 2 * co3 x + no3 x).
(** totals in a droplet of volume V from its masses *)
Definition totals_of (mSIV mCIV mNV mNIII mSVI V : R) : totals :=
  {| tS4 := mSIV / M_SO2_H2O / V; tC4 := mCIV / M_CO2_H2O / V; tN5 := mNV / M_HNO3 / V; tN3 := mNIII / M_NH3_H2O / V;
     tS6 := mSVI / M_H2SO4 / V |}.

(** ** The ions *)
Definition ions_of (T h : R) (t : totals) : ions :=
  let dS := h * h + Kt_SO2 T * h + Kt_SO2 T * Kt_HSO3 T in
  let dC := h * h + Kt_CO2 T * h + Kt_CO2 T * Kt_HCO3 T in
  {| oh := K_H2O / h;
     so2 := tS4 t * (h * h) / dS; hso3 := tS4 t * (Kt_SO2 T * h) / dS; so3 := tS4 t * (Kt_SO2 T * Kt_HSO3 T) / dS;
     hso4 := tS6 t * h / (h + Kt_HSO4 T); so4 := tS6 t * Kt_HSO4 T / (h + Kt_HSO4 T);
     co2 := tC4 t * (h * h) / dC; hco3 := tC4 t * (Kt_CO2 T * h) / dC; co3 := tC4 t * (Kt_CO2 T * Kt_HCO3 T) / dC;
     hno3 := tN5 t * h / (h + Kt_HNO3 T); no3 := tN5 t * Kt_HNO3 T / (h + Kt_HNO3 T);
     nh3 := tN3 t * K_H2O / (K_H2O + Kt_NH3 T * h); nh4 := tN3 t * (Kt_NH3 T * h) / (K_H2O + Kt_NH3 T * h) |}.

Lemma diprotic h K1 K2 S a b c : 0 < h -> 0 < K1 -> 0 < K2 ->
  (b * h = K1 * a /\ c * h = K2 * b /\ a + b + c = S <->
   a = S * (h * h) / (h * h + K1 * h + K1 * K2) /\ b = S * (K1 * h) / (h * h + K1 * h + K1 * K2) /\
   c = S * (K1 * K2) / (h * h + K1 * h + K1 * K2)).
Proof.
  intros Hh H1 H2. assert (Hd : 0 < h * h + K1 * h + K1 * K2) by nra.
  set (d := h * h + K1 * h + K1 * K2) in *.
  split.
  - intros (A & B & C).
    assert (Ea : a * d = S * (h * h)).
    { unfold d. rewrite <- C. replace (a * (h * h + K1 * h + K1 * K2)) with (a * (h * h) + (K1 * a) * h + (K1 * a) * K2) by ring.
      rewrite <- A. replace (b * h * K2) with (K2 * b * h) by ring. rewrite <- B. ring. }
    assert (Eb : b * d = S * (K1 * h)).
    { apply Rmult_eq_reg_r with h; [|lra]. replace (b * d * h) with (b * h * d) by ring. rewrite A.
      replace (K1 * a * d) with (K1 * (a * d)) by ring. rewrite Ea. ring. }
    assert (Ec : c * d = S * (K1 * K2)).
    { apply Rmult_eq_reg_r with h; [|lra]. replace (c * d * h) with (c * h * d) by ring. rewrite B.
      replace (K2 * b * d) with (K2 * (b * d)) by ring. rewrite Eb. ring. }
    rewrite <- Ea, <- Eb, <- Ec. repeat split; field; lra.
  - intros (-> & -> & ->). split; [field; lra|]. split; [field; lra|]. unfold d. field. fold d. lra.
Qed.
Lemma monoprotic h K S a b : 0 < h -> 0 < K ->
  (b * h = K * a /\ a + b = S <-> a = S * h / (h + K) /\ b = S * K / (h + K)).
Proof.
  intros Hh HK. split.
  - intros (A & B).
    assert (Ea : a * (h + K) = S * h) by (rewrite <- B; nra).
    assert (Eb : b * (h + K) = S * K) by (rewrite <- B; nra).
    rewrite <- Ea, <- Eb. split; field; lra.
  - intros (-> & ->). split; field; lra.
Qed.

(** C67: the laws of mass action determine every concentration, for every temperature and H+ concentration *)
Theorem C67_ions T h t : 0 < h -> exists x, mass_action T h t x /\ forall y, mass_action T h t y -> y = x.
Proof.
  intros Hh. pose proof (Kt_SO2_pos T). pose proof (Kt_HSO3_pos T). pose proof (Kt_HSO4_pos T). pose proof (Kt_CO2_pos T).
  pose proof (Kt_HCO3_pos T). pose proof (Kt_HNO3_pos T). pose proof (Kt_NH3_pos T). pose proof K_H2O_pos.
  assert (NH : forall o a b S, o * h = K_H2O -> (b * o = Kt_NH3 T * a /\ a + b = S <->
      a = S * K_H2O / (K_H2O + Kt_NH3 T * h) /\ b = S * (Kt_NH3 T * h) / (K_H2O + Kt_NH3 T * h))).
  { intros o a b S Ho. assert (Hd : 0 < K_H2O + Kt_NH3 T * h) by nra. assert (Eo : o = K_H2O / h) by (rewrite <- Ho; field; lra). split.
    - intros (A & B). assert (A' : b * K_H2O = Kt_NH3 T * h * a) by (rewrite <- Ho; nra).
      assert (Ea : a * (K_H2O + Kt_NH3 T * h) = S * K_H2O) by (rewrite <- B; nra).
      assert (Eb : b * (K_H2O + Kt_NH3 T * h) = S * (Kt_NH3 T * h)) by (rewrite <- B; nra).
      rewrite <- Ea, <- Eb. split; field; lra.
    - intros (-> & ->). rewrite Eo. split; field; lra. }
  exists (ions_of T h t). split.
  - unfold mass_action, ions_of; cbn [oh so2 hso3 so3 hso4 so4 co2 hco3 co3 hno3 no3 nh3 nh4].
    split; [field; lra|]. split; [apply diprotic; auto|]. split; [apply monoprotic; auto|]. split; [apply diprotic; auto|].
    split; [apply monoprotic; auto|]. apply NH; [field; lra|auto].
  - intros y (A & B & C & D & E & F). destruct y. cbn [oh so2 hso3 so3 hso4 so4 co2 hco3 co3 hno3 no3 nh3 nh4] in *.
    apply diprotic in B, D; try assumption. apply monoprotic in C, E; try assumption. apply (NH _ _ _ _ A) in F.
    destruct B as (-> & -> & ->), C as (-> & ->), D as (-> & -> & ->), E as (-> & ->), F as (-> & ->).
    assert (oh0 = K_H2O / h) by (rewrite <- A; field; lra). subst oh0. reflexivity.
Qed.
Lemma mass_action_ions T h t x : 0 < h -> mass_action T h t x -> x = ions_of T h t.
Proof.
  intros Hh Hx. destruct (C67_ions T h t Hh) as (y & Hy & U).
  rewrite (U x Hx). symmetry. apply U.
  pose proof (Kt_SO2_pos T). pose proof (Kt_HSO3_pos T). pose proof (Kt_HSO4_pos T). pose proof (Kt_CO2_pos T).
  pose proof (Kt_HCO3_pos T). pose proof (Kt_HNO3_pos T). pose proof (Kt_NH3_pos T). pose proof K_H2O_pos.
  unfold mass_action, ions_of; cbn [oh so2 hso3 so3 hso4 so4 co2 hco3 co3 hno3 no3 nh3 nh4].
  split; [field; lra|]. split; [apply diprotic; auto|]. split; [apply monoprotic; auto|]. split; [apply diprotic; auto|].
  split; [apply monoprotic; auto|]. assert (0 < K_H2O + Kt_NH3 T * h) by nra. split; field; lra.
Qed.

(** net charge as a function of h *)
Definition charge_fun (T : R) (t : totals) (h : R) : R := net_charge h (ions_of T h t).

Section Droplet.
  Variables (mSIV mCIV mNV mNIII mSVI V T : R).
  Hypothesis HV : 0 < V.
  Let t := totals_of mSIV mCIV mNV mNIII mSVI V.

  Lemma minfun_charge mH : 0 < mH -> chem_minfun mSIV mCIV mNV mNIII mSVI V T mH = - (M_H * V) * charge_fun T t (mH / M_H / V).
  Proof.
    intros Hm.
    pose proof (Kt_SO2_pos T) as K1. pose proof (Kt_HSO3_pos T) as K2. pose proof (Kt_HSO4_pos T) as K3. pose proof (Kt_CO2_pos T) as K4.
    pose proof (Kt_HCO3_pos T) as K5. pose proof (Kt_HNO3_pos T) as K6. pose proof (Kt_NH3_pos T) as K7. pose proof K_H2O_pos as K8.
    pose proof M_H_pos as HM.
    unfold chem_minfun, charge_fun, net_charge, ions_of, t, totals_of.
    cbn [oh so2 hso3 so3 hso4 so4 co2 hco3 co3 hno3 no3 nh3 nh4 tS4 tC4 tN5 tN3 tS6].
    assert (Hh : 0 < mH / M_H / V) by (apply Rdiv_lt_0_compat; [apply Rdiv_lt_0_compat|]; assumption).
    assert (Em : mH = mH / M_H / V * M_H * V) by (field; lra).
    set (h := mH / M_H / V) in *. clearbody h. subst mH. clear Hm.
    set (k1 := Kt_SO2 T) in *. set (k2 := Kt_HSO3 T) in *. set (k3 := Kt_HSO4 T) in *. set (k4 := Kt_CO2 T) in *.
    set (k5 := Kt_HCO3 T) in *. set (k6 := Kt_HNO3 T) in *. set (k7 := Kt_NH3 T) in *. set (k8 := K_H2O) in *. set (mh := M_H) in *.
    assert (A1 : 0 < M_SO2_H2O) by (unfold M_SO2_H2O; lra). assert (A2 : 0 < M_CO2_H2O) by (unfold M_CO2_H2O; lra).
    assert (A3 : 0 < M_HNO3) by (unfold M_HNO3; lra). assert (A4 : 0 < M_NH3_H2O) by (unfold M_NH3_H2O; lra).
    assert (A5 : 0 < M_H2SO4) by (unfold M_H2SO4; lra).
    set (a1 := M_SO2_H2O) in *. set (a2 := M_CO2_H2O) in *. set (a3 := M_HNO3) in *. set (a4 := M_NH3_H2O) in *. set (a5 := M_H2SO4) in *.
    clearbody k1 k2 k3 k4 k5 k6 k7 k8 mh a1 a2 a3 a4 a5.
    assert (D1 : 0 < h * h + k1 * h + k1 * k2) by nra. assert (D2 : 0 < h * h + k4 * h + k4 * k5) by nra.
    assert (D3 : 0 < k8 + k7 * h) by nra.
    assert (T1 : mSIV / a1 * k1 / h / (1 + k1 / h + k1 * k2 / h / h) = V * (mSIV / a1 / V * (k1 * h) / (h * h + k1 * h + k1 * k2))).
    { field. repeat split; lra. }
    assert (T2 : 2 * mSIV / a1 * k1 * k2 / h / h / (1 + k1 / h + k1 * k2 / h / h) = V * (2 * (mSIV / a1 / V * (k1 * k2) / (h * h + k1 * h + k1 * k2)))).
    { field. repeat split; lra. }
    assert (T3 : h * mSVI / a5 / (h + k3) = V * (mSVI / a5 / V * h / (h + k3))) by (field; repeat split; lra).
    assert (T4 : 2 * k3 * mSVI / a5 / (h + k3) = V * (2 * (mSVI / a5 / V * k3 / (h + k3)))) by (field; repeat split; lra).
    assert (T5 : mCIV / a2 * k4 / h / (1 + k4 / h + k4 * k5 / h / h) = V * (mCIV / a2 / V * (k4 * h) / (h * h + k4 * h + k4 * k5))).
    { field. repeat split; lra. }
    assert (T6 : 2 * mCIV / a2 * k4 * k5 / h / h / (1 + k4 / h + k4 * k5 / h / h) = V * (2 * (mCIV / a2 / V * (k4 * k5) / (h * h + k4 * h + k4 * k5)))).
    { field. repeat split; lra. }
    assert (T7 : mNV / a3 * k6 / h / (1 + k6 / h) = V * (mNV / a3 / V * k6 / (h + k6))) by (field; repeat split; lra).
    assert (T8 : mNIII / a4 * k7 / k8 * h / (1 + k7 / k8 * h) = V * (mNIII / a4 / V * (k7 * h) / (k8 + k7 * h))) by (field; repeat split; lra).
    assert (T9 : k8 * mh * (V * V) / (h * mh * V) = V * (k8 / h)) by (field; repeat split; lra).
    rewrite T1, T2, T3, T4, T5, T6, T7, T8, T9. ring.
  Qed.

  Lemma strength_flag mH : 0 < mH ->
    ionic_strength mSIV mCIV mNV mNIII mSVI mH V T = strength (mH / M_H / V) (ions_of T (mH / M_H / V) t).
  Proof.
    intros Hm. unfold ionic_strength, strength, ions_of, t, totals_of.
    cbn [oh so2 hso3 so3 hso4 so4 co2 hco3 co3 hno3 no3 nh3 nh4 tS4 tC4 tN5 tN3 tS6].
    unfold Rdiv. ring.
  Qed.
End Droplet.

(** C67: the function whose zero is sought is the net charge of the droplet (with H+ as the unknown), up to a negative factor *)
Theorem C67_charge mSIV mCIV mNV mNIII mSVI V T mH x :
  0 < V -> 0 < mH ->
  mass_action T (mH / M_H / V) (totals_of mSIV mCIV mNV mNIII mSVI V) x ->
  chem_minfun mSIV mCIV mNV mNIII mSVI V T mH = - (M_H * V) * net_charge (mH / M_H / V) x.
Proof.
  intros HV Hm Hx.
  assert (Hh : 0 < mH / M_H / V) by (pose proof M_H_pos; apply Rdiv_lt_0_compat; [apply Rdiv_lt_0_compat|]; assumption).
  rewrite (mass_action_ions _ _ _ _ Hh Hx). apply minfun_charge; assumption.
Qed.

(** C67: the droplets that take part in chemistry are exactly those with some H+ whose ionic strength is below 0.02 mol/l *)
Theorem C67_dilute mSIV mCIV mNV mNIII mSVI V T mH x :
  0 < V -> 0 < mH ->
  mass_action T (mH / M_H / V) (totals_of mSIV mCIV mNV mNIII mSVI V) x ->
  (set_chem_flag mSIV mCIV mNV mNIII mSVI mH V T = true <-> strength (mH / M_H / V) x < 20).
Proof.
  intros HV Hm Hx.
  assert (Hh : 0 < mH / M_H / V) by (pose proof M_H_pos; apply Rdiv_lt_0_compat; [apply Rdiv_lt_0_compat|]; assumption).
  rewrite (mass_action_ions _ _ _ _ Hh Hx). unfold set_chem_flag.
  destruct (Reqb mH 0) eqn:E; [apply Reqb_true in E; lra|].
  rewrite Rltb_true, (strength_flag mSIV mCIV mNV mNIII mSVI V T mH Hm).
  replace (2 / 100 * 1000) with 20 by lra. reflexivity.
Qed.

(** ** The net charge increases with H+ *)
Definition totals_ok (t : totals) : Prop := 0 <= tS4 t /\ 0 <= tC4 t /\ 0 <= tN5 t /\ 0 <= tN3 t /\ 0 <= tS6 t.

Lemma frac_le a b c d : 0 < b -> 0 < d -> a * d <= c * b -> a / b <= c / d.
Proof.
  intros Hb Hd H. apply Rmult_le_reg_r with (b * d); [nra|].
  replace (a / b * (b * d)) with (a * d) by (field; lra). replace (c / d * (b * d)) with (c * b) by (field; lra). exact H.
Qed.
Lemma dip_dec K1 K2 h h' : 0 < K1 -> 0 < K2 -> 0 < h < h' ->
  (K1 * h' + 2 * (K1 * K2)) / (h' * h' + K1 * h' + K1 * K2) <= (K1 * h + 2 * (K1 * K2)) / (h * h + K1 * h + K1 * K2).
Proof.
  intros H1 H2 (Hh & Hlt). apply frac_le; [nra|nra|].
  apply Rminus_le.
  replace ((K1 * h' + 2 * (K1 * K2)) * (h * h + K1 * h + K1 * K2) - (K1 * h + 2 * (K1 * K2)) * (h' * h' + K1 * h' + K1 * K2))
    with (- (K1 * ((h' - h) * (h * h' + 2 * K2 * (h + h') + K1 * K2)))) by ring.
  assert (0 <= K1 * ((h' - h) * (h * h' + 2 * K2 * (h + h') + K1 * K2))); [|lra].
  apply Rmult_le_pos; [lra|]. apply Rmult_le_pos; [lra|]. assert (0 < h * h') by nra. assert (0 < K1 * K2) by nra. nra.
Qed.

Definition anions (T : R) (t : totals) (h : R) : R :=
  K_H2O / h
  + tS4 t * ((Kt_SO2 T * h + 2 * (Kt_SO2 T * Kt_HSO3 T)) / (h * h + Kt_SO2 T * h + Kt_SO2 T * Kt_HSO3 T))
  + tS6 t * ((h + 2 * Kt_HSO4 T) / (h + Kt_HSO4 T))
  + tC4 t * ((Kt_CO2 T * h + 2 * (Kt_CO2 T * Kt_HCO3 T)) / (h * h + Kt_CO2 T * h + Kt_CO2 T * Kt_HCO3 T))
  + tN5 t * (Kt_HNO3 T / (h + Kt_HNO3 T)).
Definition cations (T : R) (t : totals) (h : R) : R := h + tN3 t * (Kt_NH3 T * h / (K_H2O + Kt_NH3 T * h)).
Lemma charge_split T t h : charge_fun T t h = cations T t h - anions T t h.
Proof.
  unfold charge_fun, net_charge, ions_of, cations, anions.
  cbn [oh so2 hso3 so3 hso4 so4 co2 hco3 co3 hno3 no3 nh3 nh4]. unfold Rdiv. ring.
Qed.
Lemma charge_inc T t h h' : totals_ok t -> 0 < h < h' -> charge_fun T t h < charge_fun T t h'.
Proof.
  intros (A1 & A2 & A3 & A4 & A5) (Hh & Hlt). rewrite !charge_split.
  pose proof (Kt_SO2_pos T) as K1. pose proof (Kt_HSO3_pos T) as K2. pose proof (Kt_HSO4_pos T) as K3. pose proof (Kt_CO2_pos T) as K4.
  pose proof (Kt_HCO3_pos T) as K5. pose proof (Kt_HNO3_pos T) as K6. pose proof (Kt_NH3_pos T) as K7. pose proof K_H2O_pos as K8.
  assert (C1 : tN3 t * (Kt_NH3 T * h / (K_H2O + Kt_NH3 T * h)) <= tN3 t * (Kt_NH3 T * h' / (K_H2O + Kt_NH3 T * h'))).
  { apply Rmult_le_compat_l; [assumption|]. assert (0 < Kt_NH3 T * h) by nra. assert (0 < Kt_NH3 T * h') by nra.
    apply frac_le; [lra|lra|]. assert (0 <= Kt_NH3 T * K_H2O * (h' - h)) by (apply Rmult_le_pos; [nra|lra]). nra. }
  assert (C2 : K_H2O / h' <= K_H2O / h) by (apply frac_le; nra).
  assert (C3 := Rmult_le_compat_l _ _ _ A1 (dip_dec _ _ h h' K1 K2 (conj Hh Hlt))).
  assert (C4 := Rmult_le_compat_l _ _ _ A2 (dip_dec _ _ h h' K4 K5 (conj Hh Hlt))).
  assert (C5 : tS6 t * ((h' + 2 * Kt_HSO4 T) / (h' + Kt_HSO4 T)) <= tS6 t * ((h + 2 * Kt_HSO4 T) / (h + Kt_HSO4 T))).
  { apply Rmult_le_compat_l; [assumption|]. apply frac_le; [lra|lra|]. nra. }
  assert (C6 : tN5 t * (Kt_HNO3 T / (h' + Kt_HNO3 T)) <= tN5 t * (Kt_HNO3 T / (h + Kt_HNO3 T))).
  { apply Rmult_le_compat_l; [assumption|]. apply frac_le; nra. }
  unfold cations, anions. lra.
Qed.

Lemma charge_cont T t h : 0 < h -> continuity_pt (charge_fun T t) h.
Proof.
  intros Hh.
  pose proof (Kt_SO2_pos T) as K1. pose proof (Kt_HSO3_pos T) as K2. pose proof (Kt_HSO4_pos T) as K3. pose proof (Kt_CO2_pos T) as K4.
  pose proof (Kt_HCO3_pos T) as K5. pose proof (Kt_HNO3_pos T) as K6. pose proof (Kt_NH3_pos T) as K7. pose proof K_H2O_pos as K8.
  apply continuity_pt_ext with (f := fun x => cations T t x - anions T t x); [intros x; symmetry; apply charge_split|].
  apply derivable_continuous_pt. apply ex_derive_Reals_0. unfold cations, anions. 
  auto_derive. repeat split; nra.
Qed.

(** bounds: charge < 0 for small h, > 0 for large h *)
Lemma charge_large T t h : totals_ok t -> 1 <= h -> 2 * tS4 t + 2 * tS6 t + 2 * tC4 t + tN5 t + K_H2O < h -> 0 < charge_fun T t h.
Proof.
  intros (A1 & A2 & A3 & A4 & A5) Hh Hb. rewrite charge_split.
  pose proof (Kt_SO2_pos T) as K1. pose proof (Kt_HSO3_pos T) as K2. pose proof (Kt_HSO4_pos T) as K3. pose proof (Kt_CO2_pos T) as K4.
  pose proof (Kt_HCO3_pos T) as K5. pose proof (Kt_HNO3_pos T) as K6. pose proof (Kt_NH3_pos T) as K7. pose proof K_H2O_pos as K8.
  assert (F : forall a b c, 0 <= a -> 0 < b -> c * b >= a -> a / b <= c).
  { intros a b c Ha Hb0 H. apply Rmult_le_reg_r with b; [assumption|]. replace (a / b * b) with a by (field; lra). lra. }
  assert (C1 : 0 <= tN3 t * (Kt_NH3 T * h / (K_H2O + Kt_NH3 T * h))).
  { apply Rmult_le_pos; [assumption|]. assert (0 < Kt_NH3 T * h) by nra. apply Rle_mult_inv_pos; lra. }
  assert (C2 : K_H2O / h <= K_H2O) by (apply F; nra).
  assert (D : forall a b, 0 < a -> 0 < b -> (a * h + 2 * (a * b)) / (h * h + a * h + a * b) <= 2).
  { intros a b Ha Hb0. assert (0 < a * b) by nra. assert (0 < a * h) by nra. apply F; nra. }
  assert (C3 := Rmult_le_compat_l _ _ _ A1 (D _ _ K1 K2)).
  assert (C4 := Rmult_le_compat_l _ _ _ A2 (D _ _ K4 K5)).
  assert (C5 : tS6 t * ((h + 2 * Kt_HSO4 T) / (h + Kt_HSO4 T)) <= tS6 t * 2) by (apply Rmult_le_compat_l; [assumption|]; apply F; lra).
  assert (C6 : tN5 t * (Kt_HNO3 T / (h + Kt_HNO3 T)) <= tN5 t * 1) by (apply Rmult_le_compat_l; [assumption|]; apply F; lra).
  unfold cations, anions. lra.
Qed.
Lemma charge_small T t h : totals_ok t -> 0 < h <= 1 -> h * (1 + tN3 t) < K_H2O -> charge_fun T t h < 0.
Proof.
  intros (A1 & A2 & A3 & A4 & A5) (Hh & Hh1) Hb. rewrite charge_split.
  pose proof (Kt_SO2_pos T) as K1. pose proof (Kt_HSO3_pos T) as K2. pose proof (Kt_HSO4_pos T) as K3. pose proof (Kt_CO2_pos T) as K4.
  pose proof (Kt_HCO3_pos T) as K5. pose proof (Kt_HNO3_pos T) as K6. pose proof (Kt_NH3_pos T) as K7. pose proof K_H2O_pos as K8.
  assert (P : forall a b c, 0 <= c -> 0 <= a -> 0 < b -> 0 <= c * (a / b)).
  { intros a b c Hc Ha Hb0. apply Rmult_le_pos; [assumption|]. apply Rle_mult_inv_pos; lra. }
  assert (D : forall a b, 0 < a -> 0 < b -> 0 < a * h + 2 * (a * b) /\ 0 < h * h + a * h + a * b) by (intros; split; nra).
  destruct (D _ _ K1 K2) as (D1 & D2). destruct (D _ _ K4 K5) as (D3 & D4).
  assert (C3 := P _ _ _ A1 (Rlt_le _ _ D1) D2). assert (C4 := P _ _ _ A2 (Rlt_le _ _ D3) D4).
  assert (C5 : 0 <= tS6 t * ((h + 2 * Kt_HSO4 T) / (h + Kt_HSO4 T))) by (apply P; lra).
  assert (C6 : 0 <= tN5 t * (Kt_HNO3 T / (h + Kt_HNO3 T))) by (apply P; lra).
  assert (C1 : tN3 t * (Kt_NH3 T * h / (K_H2O + Kt_NH3 T * h)) <= tN3 t * 1).
  { apply Rmult_le_compat_l; [assumption|]. assert (0 < Kt_NH3 T * h) by nra.
    apply Rmult_le_reg_r with (K_H2O + Kt_NH3 T * h); [lra|]. unfold Rdiv. rewrite Rmult_assoc, Rinv_l by lra. lra. }
  assert (C2 : 1 + tN3 t < K_H2O / h).
  { apply Rmult_lt_reg_r with h; [assumption|]. unfold Rdiv. rewrite Rmult_assoc, Rinv_l by lra. lra. }
  unfold cations, anions. lra.
Qed.

Lemma neutral_exists T t : totals_ok t -> exists z, 0 < z /\ charge_fun T t z = 0.
Proof.
  intros Ht. pose proof K_H2O_pos as K8. pose proof Ht as (A1 & A2 & A3 & A4 & A5).
  set (lo := Rmin 1 (K_H2O / (2 * (1 + tN3 t)))).
  assert (Q : 0 < K_H2O / (2 * (1 + tN3 t))) by (apply Rdiv_lt_0_compat; lra).
  assert (L0 : 0 < lo) by (unfold lo; apply Rmin_glb_lt; lra).
  assert (L1 : lo <= 1) by apply Rmin_l.
  assert (L2 : lo * (1 + tN3 t) < K_H2O).
  { assert (lo <= K_H2O / (2 * (1 + tN3 t))) by apply Rmin_r.
    assert (lo * (1 + tN3 t) <= K_H2O / (2 * (1 + tN3 t)) * (1 + tN3 t)) by (apply Rmult_le_compat_r; lra).
    assert (K_H2O / (2 * (1 + tN3 t)) * (1 + tN3 t) = K_H2O / 2) by (field; lra). lra. }
  set (hi := 2 + (2 * tS4 t + 2 * tS6 t + 2 * tC4 t + tN5 t + K_H2O)).
  assert (N1 := charge_small T t lo Ht (conj L0 L1) L2).
  assert (N2 : 0 < charge_fun T t hi) by (apply charge_large; [assumption|unfold hi; lra|unfold hi; lra]).
  assert (Hlh : lo < hi) by (unfold hi; lra).
  destruct (IVT_interv (charge_fun T t) lo hi) as (z & Hz & Ez); try assumption.
  - intros a Ha. apply charge_cont. lra.
  - exists z. split; [lra|exact Ez].
Qed.

(** C67: for every non-negative composition there is exactly one H+ concentration at which the droplet is neutral; below it the net
    charge is negative, above it positive *)
Theorem C67_neutral_unique T t : totals_ok t ->
  exists z, 0 < z /\ forall h x, 0 < h -> mass_action T h t x ->
    (net_charge h x = 0 <-> h = z) /\ (net_charge h x < 0 <-> h < z) /\ (0 < net_charge h x <-> z < h).
Proof.
  intros Ht. destruct (neutral_exists T t Ht) as (z & Hz & Ez). exists z. split; [exact Hz|].
  intros h x Hh Hx. rewrite (mass_action_ions _ _ _ _ Hh Hx). fold (charge_fun T t h).
  destruct (Rtotal_order h z) as [H|[H|H]].
  - pose proof (charge_inc T t h z Ht (conj Hh H)). rewrite Ez in *. repeat split; intros; (lra || (exfalso; lra)).
  - subst h. rewrite Ez. repeat split; intros; (lra || (exfalso; lra) || reflexivity).
  - pose proof (charge_inc T t z h Ht (conj Hz H)). rewrite Ez in *. repeat split; intros; (lra || (exfalso; lra)).
Qed.

(** ** The root finder without a sign change *)
Definition ss_inv (f : R -> R) (L B : R) (s : tst) : Prop :=
  L <= ba (tb s) <= B /\ bb (tb s) = B /\ bfa (tb s) = f (ba (tb s)) /\ bfb (tb s) = f B.

Section SameSign.
  Variables (p : fptype) (f : R -> R) (tol : R -> R -> bool) (A B : R).
  Hypothesis Hp : fp_ok p.
  Hypothesis Htol : tol_wide p tol.
  Hypothesis HA : 0 < A.
  Hypothesis HAB : 4 * A < B.
  Hypothesis Hss : forall x y, A <= x <= B -> A <= y <= B -> 0 < f x * f y.
  Hypothesis Hne : f A <> f B.
  Hypothesis Htol0 : tol A B = false.

  Lemma ss_nz x : A <= x <= B -> f x <> 0.
  Proof. intros H E. pose proof (Hss x x H H). rewrite E in *. lra. Qed.

  Lemma ss_step L s c : A <= L -> ss_inv f L B s -> going tol s = true ->
    ss_inv f L B (tstep p f s c) /\ ba (tb s) <= ba (tb (tstep p f s c)) /\
    ba (tb (tstep p f s c)) = bracket_point p (ba (tb s)) (bb (tb s)) c /\
    tcount (tstep p f s c) = (tcount s - 1)%N /\ tcount s <> 0%N.
  Proof.
    intros HL (H1 & H2 & H3 & H4) Hg. destruct (going_true _ _ Hg) as (G1 & G2 & G3).
    pose proof (Htol _ _ G3) as Hw.
    assert (Hlt : ba (tb s) < bb (tb s)).
    { destruct H1 as (H1 & [H1'|H1']); [rewrite H2; exact H1'|]. exfalso. rewrite H2, H1' in Hw.
      rewrite Rminus_eq_0, Rabs_R0 in Hw. destruct Hp. pose proof (Rabs_pos B). rewrite Rmin_left in Hw by lra. nra. }
    pose proof (bracket_point_in p _ _ c Hp Hlt Hw) as Hx.
    assert (Hd : dec64 (tcount s) = (tcount s - 1)%N).
    { unfold dec64. destruct (N.eqb_spec (tcount s) 0); [contradiction|reflexivity]. }
    unfold ss_inv. unfold tstep; cbn [tb tcount]. unfold bracket.
    set (x := bracket_point p (ba (tb s)) (bb (tb s)) c) in *. clearbody x. rewrite H2 in Hx.
    assert (Nx : f x <> 0) by (apply ss_nz; lra).
    destruct (Reqb (f x) 0) eqn:E1; [apply Reqb_true in E1; contradiction|].
    assert (Np : 0 < bfa (tb s) * f x) by (rewrite H3; apply Hss; lra).
    destruct (Rltb (bfa (tb s) * f x) 0) eqn:E2; [apply Rltb_true in E2; lra|].
    cbn [ba bb bfa bfb]. repeat split; try lra; try assumption.
  Qed.
  Lemma ss_save L s : ss_inv f L B s -> ss_inv f L B (save_e s).
  Proof. intros H. exact H. Qed.

  Lemma ss_iter L s : A <= L -> ss_inv f L B s -> going tol s = true ->
    let (s', c) := titer p f tol s in
    ss_inv f L B s' /\ (tcount s' < tcount s)%N.
  Proof.
    intros HL Hi Hg. unfold titer.
    set (c1 := interpolate p s 2). clearbody c1.
    destruct (ss_step L (save_e s) c1 HL (ss_save _ _ Hi) Hg) as (I1 & _ & _ & C1 & N1).
    set (s1 := tstep p f (save_e s) c1) in *. change (tcount (save_e s)) with (tcount s) in *. clearbody s1.
    destruct (going tol s1) eqn:E1; cbn [negb]; [|split; [exact I1|lia]].
    set (c2 := interpolate p s1 3). clearbody c2.
    destruct (ss_step L s1 c2 HL I1 E1) as (I2 & _ & _ & C2 & N2).
    set (s2 := tstep p f s1 c2) in *. clearbody s2.
    destruct (going tol s2) eqn:E2; cbn [negb]; [|split; [exact I2|lia]].
    set (c3 := double_secant (tb s2)). clearbody c3.
    destruct (ss_step L (save_e s2) c3 HL (ss_save _ _ I2) E2) as (I3 & _ & _ & C3 & N3).
    set (s3 := tstep p f (save_e s2) c3) in *. change (tcount (save_e s2)) with (tcount s2) in *. clearbody s3.
    destruct (going tol s3) eqn:E3; cbn [negb]; [|split; [exact I3|lia]].
    destruct (Rltb (bb (tb s3) - ba (tb s3)) (1 / 2 * (bb (tb s) - ba (tb s)))); [split; [exact I3|lia]|].
    destruct (ss_step L (save_e s3) (ba (tb s3) + (bb (tb s3) - ba (tb s3)) / 2) HL (ss_save _ _ I3) E3) as (I4 & _ & _ & C4 & N4).
    change (tcount (save_e s3)) with (tcount s3) in *. split; [exact I4|lia].
  Qed.
  Lemma ss_loop L : A <= L -> forall fuel s, ss_inv f L B s -> (N.to_nat (tcount s) < fuel)%nat ->
    exists s', tloop p f tol fuel s = Some s' /\ ss_inv f L B s'.
  Proof.
    intros HL. induction fuel as [|n IH]; intros s Hi Hf; [lia|].
    cbn [tloop]. destruct (going tol s) eqn:Eg; [|exists s; split; [reflexivity|exact Hi]].
    pose proof (ss_iter L s HL Hi Eg) as HT. destruct (titer p f tol s) as [s' c]. destruct HT as (I' & C').
    destruct c; [|exists s'; split; [reflexivity|exact I']]. apply IH; [exact I'|lia].
  Qed.

  Lemma ss_secant : secant_interpolate p A B (f A) (f B) = (A + B) / 2.
  Proof.
    unfold secant_interpolate.
    assert (P : 0 < f A * f B) by (apply Hss; lra).
    assert (Na : f A <> 0) by (apply ss_nz; lra).
    set (c := A - f A / (f B - f A) * (B - A)).
    assert (Hd : f B - f A <> 0) by lra. destruct Hp as (He & He').
    assert (Q : c <= A \/ B <= c).
    { destruct (Rlt_dec 0 (f A * (f B - f A))) as [H|H].
      - left. unfold c.
        assert (0 < f A / (f B - f A)).
        { replace (f A / (f B - f A)) with (f A * (f B - f A) * (/ (f B - f A) * / (f B - f A))) by (field; exact Hd).
          apply Rmult_lt_0_compat; [exact H|]. assert (/ (f B - f A) <> 0) by (apply Rinv_neq_0_compat; exact Hd). nra. }
        nra.
      - right. unfold c.
        assert (H' : f A * (f B - f A) < 0).
        { assert (f A * (f B - f A) <> 0) by (apply Rmult_integral_contrapositive_currified; assumption). lra. }
        assert (Hb : f B * (f B - f A) <= 0) by nra.
        assert (f B / (f B - f A) <= 0).
        { replace (f B / (f B - f A)) with (f B * (f B - f A) * (/ (f B - f A) * / (f B - f A))) by (field; exact Hd).
          assert (0 <= / (f B - f A) * / (f B - f A)) by nra. nra. }
        assert (f A / (f B - f A) = f B / (f B - f A) - 1) by (field; exact Hd).
        nra. }
    clearbody c. rewrite (Rabs_pos_eq A), (Rabs_pos_eq B) by lra.
    destruct Q as [Q|Q].
    - replace (Rleb c (A + A * (feps p * 5))) with true; [reflexivity|]. symmetry. apply Rleb_true. nra.
    - replace (Rleb (B - B * (feps p * 5)) c) with true; [rewrite orb_true_r; reflexivity|]. symmetry. apply Rleb_true. nra.
  Qed.
  Lemma ss_mid : bracket_point p A B ((A + B) / 2) = (A + B) / 2.
  Proof.
    unfold bracket_point. destruct Hp as (He & He'). rewrite (Rabs_pos_eq A), (Rabs_pos_eq B) by lra.
    assert (H1 : A * (feps p * 2) <= A * (1 / 4)) by (apply Rmult_le_compat_l; lra).
    assert (H2 : B * (feps p * 2) <= B * (1 / 4)) by (apply Rmult_le_compat_l; lra).
    destruct (Rltb (B - A) (2 * (feps p * 2) * A)) eqn:E1; [apply Rltb_true in E1; lra|].
    destruct (Rleb ((A + B) / 2) (A + A * (feps p * 2))) eqn:E2; [apply Rleb_true in E2; lra|].
    destruct (Rleb (B - B * (feps p * 2)) ((A + B) / 2)) eqn:E3; [apply Rleb_true in E3; lra|].
    reflexivity.
  Qed.

  (** a function of constant sign: the answer is in the upper quarter of the bracket *)
  Lemma ss_solve m : (1 <= m < Z.to_N W64)%N ->
    exists r it evs, toms748_solve p f A B (f A) (f B) tol m = Some (r, it, evs) /\ 3 / 4 * B <= r <= B.
  Proof.
    intros Hm. unfold toms748_solve.
    assert (Na : f A <> 0) by (apply ss_nz; lra). assert (Nb : f B <> 0) by (apply ss_nz; lra).
    rewrite Htol0. apply Reqb_false in Na as Na', Nb as Nb'. rewrite Na', Nb'. cbn [orb].
    set (s0 := {| tb := {| ba := A; bb := B; bfa := f A; bfb := f B; bd := 0; bfd := 100000 |};
                  te := 100000; tfe := 100000; tcount := m; tevals := [] |}).
    assert (I0 : ss_inv f A B s0) by (unfold ss_inv; cbn [s0 tb ba bb bfa bfb]; repeat split; lra).
    assert (G0 : going tol s0 = true).
    { unfold going; cbn [s0 tb ba bb bfa tcount]. rewrite Htol0, Na'.
      replace (N.eqb m 0) with false; [reflexivity|symmetry; apply N.eqb_neq; lia]. }
    rewrite ss_secant.
    destruct (ss_step A s0 ((A + B) / 2) (Rle_refl _) I0 G0) as (I1 & _ & P1 & C1 & _).
    set (s1 := tstep p f s0 ((A + B) / 2)) in *.
    change (ba (tb s0)) with A in P1. change (bb (tb s0)) with B in P1. rewrite ss_mid in P1. clearbody s1.
    assert (J1 : ss_inv f ((A + B) / 2) B s1).
    { destruct I1 as (I & J & K & M). unfold ss_inv. repeat split; try assumption; lra. }
    assert (HL : A <= (A + B) / 2) by lra.
    set (s2 := if going tol s1 then _ else s1).
    assert (J2 : ss_inv f ((A + B) / 2) B s2).
    { unfold s2. destruct (going tol s1) eqn:G1; [|exact J1]. apply (ss_step _ (save_e s1) _ HL (ss_save _ _ J1) G1). }
    clearbody s2.
    destruct (ss_loop ((A + B) / 2) HL (S (N.to_nat (tcount s2))) s2 J2) as (s3 & -> & J3); [lia|].
    eexists _, _, _. split; [reflexivity|]. destruct J3 as (K1 & K2 & K3 & K4).
    rewrite (tresult_mid (tb s3)); [rewrite K2; lra|rewrite K3; apply ss_nz; lra|rewrite K4; exact Nb].
  Qed.
End SameSign.

(** ** The computed H+ *)
Section Computed.
  Variables (fp fps : fptype) (mSIV mCIV mNV mNIII mSVI V T : R).
  Hypothesis Hfp : fp_ok fp.
  Hypothesis Hfps : fp_ok fps.
  Hypothesis Hle : feps fp <= feps fps.
  Hypothesis HV : 0 < V.
  Hypothesis Hm : 0 <= mSIV /\ 0 <= mCIV /\ 0 <= mNV /\ 0 <= mNIII /\ 0 <= mSVI.
  Let t := totals_of mSIV mCIV mNV mNIII mSVI V.
  Let f := chem_minfun mSIV mCIV mNV mNIII mSVI V T.

  Lemma totals_of_ok : totals_ok t.
  Proof.
    destruct Hm as (A & B & C & D & E).
    assert (Q : forall m a, 0 <= m -> 0 < a -> 0 <= m / a / V).
    { intros m a Hq Ha. apply Rle_mult_inv_pos; [apply Rle_mult_inv_pos; assumption|assumption]. }
    unfold totals_ok, t, totals_of; cbn [tS4 tC4 tN5 tN3 tS6].
    repeat split; apply Q; try assumption; unfold M_SO2_H2O, M_CO2_H2O, M_HNO3, M_NH3_H2O, M_H2SO4; lra.
  Qed.
  Lemma f_at h : 0 < h -> f (h * V * M_H) = - (M_H * V) * charge_fun T t h.
  Proof.
    intros Hh. pose proof M_H_pos. unfold f. rewrite minfun_charge; [|assumption|].
    - f_equal. f_equal. field. lra.
    - apply Rmult_lt_0_compat; [apply Rmult_lt_0_compat|]; assumption.
  Qed.
  Lemma MV_pos : 0 < M_H * V.
  Proof. pose proof M_H_pos. apply Rmult_lt_0_compat; assumption. Qed.
  Lemma tolw : tol_wide fp (eps_tolerance fps 32).
  Proof.
    intros a b H. pose proof (eps_tolerance_wide fps 32 a b H) as Q.
    assert (0 <= Rmin (Rabs a) (Rabs b)) by (apply Rmin_glb; apply Rabs_pos). nra.
  Qed.
  Lemma lft_lt : 0 < m_H_lft V /\ 4 * m_H_lft V < m_H_rht V.
  Proof. unfold m_H_lft, m_H_rht. pose proof MV_pos. split; nra. Qed.
  Lemma of_mass x : x = x / M_H / V * V * M_H.
  Proof. pose proof M_H_pos. field. lra. Qed.
  Lemma conc_bounds x : m_H_lft V <= x <= m_H_rht V -> 1 / 100000 <= x / M_H / V <= 10000.
  Proof.
    intros (H1 & H2). pose proof MV_pos as Q. rewrite (of_mass x) in H1, H2. set (h := x / M_H / V) in *. clearbody h.
    unfold m_H_lft, m_H_rht in *. split; apply Rmult_le_reg_r with (M_H * V); nra.
  Qed.
  Lemma tol_ends : eps_tolerance fps 32 (m_H_lft V) (m_H_rht V) = false.
  Proof.
    destruct lft_lt as (L & R0). unfold eps_tolerance. apply Rleb_false. rewrite cmin_Rmin, !(Rabs_pos_eq) by lra.
    rewrite Rmin_left by lra. rewrite Rabs_left by lra.
    assert (tol_eps fps 32 <= 1 / 2).
    { unfold tol_eps. rewrite cmax_Rmax. destruct Hfps. apply Rmax_lub; [|lra].
      assert (16 <= 2 ^ 32) by (replace 16 with (2 ^ 4) by ring; apply Rle_pow; [lra|lia]).
      apply Rmult_le_reg_r with (2 ^ 32); [lra|]. replace (2 / 2 ^ 32 * 2 ^ 32) with 2 by (field; lra). lra. }
    nra.
  Qed.

  (** the neutral point outside the bracket: the answer is in the upper quarter of the bracket *)
  Lemma outside_z z : 0 < z -> charge_fun T t z = 0 -> (z < 1 / 100000 \/ 10000 < z) ->
    exists r, chem_electroneutral fp fps mSIV mCIV mNV mNIII mSVI V T = Some r /\ 7500 <= r / M_H / V <= 10000.
  Proof.
    intros Hz Ez Hout. pose proof totals_of_ok as Ht. pose proof MV_pos as HMV. destruct lft_lt as (L & R0).
    assert (Hsg : forall x, m_H_lft V <= x <= m_H_rht V -> f x * (charge_fun T t (x / M_H / V)) < 0 /\
              (charge_fun T t (x / M_H / V) < 0 <-> 10000 < z) /\ 1 / 100000 <= x / M_H / V <= 10000).
    { intros x Hx. pose proof (conc_bounds x Hx) as Hb.
      assert (Ef : f x = - (M_H * V) * charge_fun T t (x / M_H / V)) by (rewrite (of_mass x) at 1; apply f_at; lra).
      rewrite Ef. set (h := x / M_H / V) in *. clearbody h.
      assert (Hs : (charge_fun T t h < 0 /\ 10000 < z) \/ (0 < charge_fun T t h /\ z < 1 / 100000)).
      { destruct Hout as [H|H].
        - right. split; [|exact H]. rewrite <- Ez. apply charge_inc; [exact Ht|lra].
        - left. split; [|exact H]. rewrite <- Ez. apply charge_inc; [exact Ht|lra]. }
      split; [|split; [split; intros; lra|exact Hb]].
      assert (0 < charge_fun T t h * charge_fun T t h) by (destruct Hs; nra). nra. }
    assert (Hss : forall x y, m_H_lft V <= x <= m_H_rht V -> m_H_lft V <= y <= m_H_rht V -> 0 < f x * f y).
    { intros x y Hx Hy. destruct (Hsg x Hx) as (P1 & Q1 & _). destruct (Hsg y Hy) as (P2 & Q2 & _).
      set (cx := charge_fun T t (x / M_H / V)) in *. set (cy := charge_fun T t (y / M_H / V)) in *.
      clearbody cx cy. destruct (Rlt_dec cx 0) as [H|H].
      - assert (cy < 0) by tauto. assert (0 < f x) by nra. assert (0 < f y) by nra. nra.
      - assert (~ cy < 0) by tauto. assert (cx <> 0) by (intros E; rewrite E in P1; lra). assert (cy <> 0) by (intros E; rewrite E in P2; lra).
        assert (f x < 0) by nra. assert (f y < 0) by nra. nra. }
    assert (Hne : f (m_H_lft V) <> f (m_H_rht V)).
    { unfold m_H_lft, m_H_rht. rewrite !f_at by lra.
      pose proof (charge_inc T t (1 / 100000) 10000 Ht ltac:(lra)). nra. }
    unfold chem_electroneutral, toms748_solve_ends. fold f.
    assert (E98 : sub64 100 2 = 98%N) by reflexivity. rewrite E98.
    destruct (ss_solve fp f (eps_tolerance fps 32) (m_H_lft V) (m_H_rht V) Hfp tolw L R0 Hss Hne tol_ends 98%N) as (r & it & ev & -> & Hr).
    { split; [lia|vm_compute; reflexivity]. }
    exists r. split; [reflexivity|].
    assert (Hb : m_H_lft V <= r <= m_H_rht V) by lra.
    pose proof (conc_bounds r Hb) as Hc. split; [|lra].
    destruct Hr as (Hr & _). rewrite (of_mass r) in Hr. set (h := r / M_H / V) in *. clearbody h.
    unfold m_H_rht in Hr. apply Rmult_le_reg_r with (M_H * V); nra.
  Qed.

  Lemma inside_z z : 0 < z -> charge_fun T t z = 0 -> 1 / 100000 <= z <= 10000 ->
    exists r, chem_electroneutral fp fps mSIV mCIV mNV mNIII mSVI V T = Some r /\ 1 / 100000 <= r / M_H / V <= 10000 /\
      Rabs (r / M_H / V - z) <= Rmax (tol_eps fps 32 / 2 * z) ((1 / 2 + 2 * feps fp) ^ 24 * 5000).
  Proof.
    intros Hz Ez Hin. pose proof totals_of_ok as Ht. pose proof MV_pos as HMV. destruct lft_lt as (L & R0).
    assert (Hsz : forall h, 0 < h -> (charge_fun T t h = 0 <-> h = z) /\ (charge_fun T t h < 0 <-> h < z) /\ (0 < charge_fun T t h <-> z < h)).
    { intros h Hh. destruct (Rtotal_order h z) as [H|[H|H]].
      - pose proof (charge_inc T t h z Ht (conj Hh H)). rewrite Ez in *. repeat split; intros; (lra || (exfalso; lra)).
      - subst h. rewrite Ez. repeat split; intros; (lra || (exfalso; lra) || reflexivity).
      - pose proof (charge_inc T t z h Ht (conj Hz H)). rewrite Ez in *. repeat split; intros; (lra || (exfalso; lra)). }
    assert (Hs : f (m_H_lft V) * f (m_H_rht V) <= 0).
    { unfold m_H_lft, m_H_rht. rewrite !f_at by lra.
      destruct (Hsz (1 / 100000) ltac:(lra)) as (_ & _ & S1). destruct (Hsz 10000 ltac:(lra)) as (_ & S2 & _).
      assert (Q1 : charge_fun T t (1 / 100000) <= 0) by (apply Rnot_lt_le; intros Hc; apply S1 in Hc; lra).
      assert (Q2 : 0 <= charge_fun T t 10000) by (apply Rnot_lt_le; intros Hc; apply S2 in Hc; lra).
      set (c1 := charge_fun T t (1 / 100000)) in *. set (c2 := charge_fun T t 10000) in *. clearbody c1 c2.
      replace (- (M_H * V) * c1 * (- (M_H * V) * c2)) with ((M_H * V) * (M_H * V) * (c1 * c2)) by ring.
      assert (0 <= (M_H * V) * (M_H * V)) by nra. assert (c1 * c2 <= 0) by nra. nra. }
    unfold chem_electroneutral, toms748_solve_ends. fold f.
    assert (E98 : sub64 100 2 = 98%N) by reflexivity. rewrite E98.
    destruct (solve_outcome fp f (m_H_lft V) (m_H_rht V) (eps_tolerance fps 32) 98%N Hfp tolw ltac:(lra) Hs) as (r & it & ev & -> & O1 & _ & _ & _ & O5).
    { split; [lia|vm_compute; reflexivity]. }
    exists r. split; [reflexivity|]. pose proof (conc_bounds r O1) as Hb. split; [exact Hb|].
    assert (He0 : 0 <= tol_eps fps 32) by (pose proof (tol_eps_ge fps 32); destruct Hfps; lra).
    destruct O5 as [O5|(a & b & (S1 & S2 & S3 & S4) & Er & O6)].
    - rewrite (of_mass r), f_at in O5 by lra.
      assert (Hrz : r / M_H / V = z).
      { apply Hsz; [lra|]. set (c := charge_fun T t (r / M_H / V)) in *. clearbody c. nra. }
      rewrite Hrz, Rminus_eq_0, Rabs_R0. apply Rle_trans with (tol_eps fps 32 / 2 * z); [nra|apply Rmax_l].
    - assert (Ha : m_H_lft V <= a <= m_H_rht V) by lra. assert (Hbb : m_H_lft V <= b <= m_H_rht V) by lra.
      pose proof (conc_bounds a Ha) as Ca. pose proof (conc_bounds b Hbb) as Cb.
      assert (Erh : r / M_H / V = (a / M_H / V + b / M_H / V) / 2) by (rewrite Er; pose proof M_H_pos; field; lra).
      rewrite Erh. clear Erh.
      rewrite (of_mass a), (of_mass b) in S2, S4, O6.
      set (x := a / M_H / V) in *. set (y := b / M_H / V) in *. clearbody x y. clear Ha Hbb S1 S3 Er.
      rewrite !f_at in S4 by lra.
      assert (Hxy : x < y) by (apply Rmult_lt_reg_r with (M_H * V); nra).
      assert (Hxz : x < z /\ z < y).
      { destruct (Hsz x ltac:(lra)) as (X1 & X2 & X3). destruct (Hsz y ltac:(lra)) as (Y1 & Y2 & Y3).
        set (c1 := charge_fun T t x) in *. set (c2 := charge_fun T t y) in *. clearbody c1 c2.
        assert (S5 : c1 * c2 < 0).
        { assert (HQ : 0 < (M_H * V) * (M_H * V)) by (apply Rmult_lt_0_compat; assumption).
          replace (- (M_H * V) * c1 * (- (M_H * V) * c2)) with ((M_H * V) * (M_H * V) * (c1 * c2)) in S4 by ring.
          apply Rmult_lt_reg_l with ((M_H * V) * (M_H * V)); [exact HQ|rewrite Rmult_0_r; exact S4]. }
        clear S4.
        destruct (Rlt_dec c1 0) as [H|H].
        - assert (0 < c2) by (clear - S5 H; nra). split; [apply X2|apply Y3]; assumption.
        - exfalso. assert (0 < c1 /\ c2 < 0) as (H1 & H2) by (clear - S5 H; assert (c1 <> 0) by (intros E; rewrite E in S5; lra); split; nra).
          apply X3 in H1. apply Y2 in H2. lra. }
      assert (Hd : Rabs ((x + y) / 2 - z) <= (y - x) / 2) by (apply Rabs_le; lra).
      destruct O6 as [O6|(_ & k & Hk & Hw)].
      + apply eps_tolerance_agree in O6. unfold agree in O6.
        replace (x * V * M_H - y * V * M_H) with ((x - y) * (M_H * V)) in O6 by ring.
        rewrite Rabs_mult, (Rabs_left (x - y)), (Rabs_pos_eq (M_H * V)) in O6 by lra.
        assert (Px : 0 <= x * V * M_H) by nra. 
        assert (O7 : Rmin (Rabs (x * V * M_H)) (Rabs (y * V * M_H)) <= x * V * M_H) by (rewrite (Rabs_pos_eq (x * V * M_H)) by exact Px; apply Rmin_l).
        apply (Rmult_le_compat_l _ _ _ He0) in O7.
        assert (y - x <= tol_eps fps 32 * x) by (apply Rmult_le_reg_r with (M_H * V); nra).
        apply Rle_trans with (tol_eps fps 32 / 2 * z); [nra|apply Rmax_l].
      + apply Rle_trans with ((1 / 2 + 2 * feps fp) ^ 24 * 5000); [|apply Rmax_r].
        assert (Hk' : (24 <= k)%nat) by lia.
        set (q := 1 / 2 + 2 * feps fp) in *. assert (Hq : 0 < q < 1) by (unfold q; destruct Hfp; lra). clearbody q.
        assert (Hqk : q ^ k <= q ^ 24).
        { replace k with (24 + (k - 24))%nat by lia. rewrite pow_add.
          assert (q ^ (k - 24) <= 1) by (rewrite <- (pow1 (k - 24)); apply pow_incr; lra).
          assert (0 <= q ^ 24) by (apply pow_le; lra). nra. }
        unfold m_H_rht, m_H_lft in Hw.
        assert (P24 : 0 <= q ^ k) by (apply pow_le; lra).
        assert (Hw' : y - x <= q ^ k * 10000) by (apply Rmult_le_reg_r with (M_H * V); nra).
        lra.
  Qed.
End Computed.

(** C67: the H+ computed for a droplet is the one of electroneutrality, when that lies between 1e-5 and 1e4 mol/m3 (pH 8 and pH -1),
    to half the tolerance of the search, or to the width that 98 evaluations leave of the whole range if these run out first *)
Theorem C67_solved fp fps mSIV mCIV mNV mNIII mSVI V T z x :
  fp_ok fp -> fp_ok fps -> feps fp <= feps fps -> 0 < V ->
  0 <= mSIV /\ 0 <= mCIV /\ 0 <= mNV /\ 0 <= mNIII /\ 0 <= mSVI ->
  mass_action T z (totals_of mSIV mCIV mNV mNIII mSVI V) x -> net_charge z x = 0 ->
  1 / 100000 <= z <= 10000 ->
  exists r, chem_electroneutral fp fps mSIV mCIV mNV mNIII mSVI V T = Some r /\ 1 / 100000 <= r / M_H / V <= 10000 /\
    Rabs (r / M_H / V - z) <= Rmax (tol_eps fps 32 / 2 * z) ((1 / 2 + 2 * feps fp) ^ 24 * 5000).
Proof.
  intros F1 F2 F3 HV Hm Hx Hq Hz. apply inside_z; try assumption; [lra|].
  assert (Hz0 : 0 < z) by lra. rewrite <- Hq. unfold charge_fun. rewrite <- (mass_action_ions _ _ _ _ Hz0 Hx). reflexivity.
Qed.

Lemma frac_nonneg a b c : 0 <= a -> 0 <= b -> 0 < c -> 0 <= a * b / c.
Proof. intros. apply Rle_mult_inv_pos; [nra|assumption]. Qed.
Lemma strength_ge T t h : totals_ok t -> 0 < h -> h / 2 <= strength h (ions_of T h t).
Proof.
  intros (A1 & A2 & A3 & A4 & A5) Hh.
  pose proof (Kt_SO2_pos T) as K1. pose proof (Kt_HSO3_pos T) as K2. pose proof (Kt_HSO4_pos T) as K3. pose proof (Kt_CO2_pos T) as K4.
  pose proof (Kt_HCO3_pos T) as K5. pose proof (Kt_HNO3_pos T) as K6. pose proof (Kt_NH3_pos T) as K7. pose proof K_H2O_pos as K8.
  unfold strength, ions_of. cbn [oh so2 hso3 so3 hso4 so4 co2 hco3 co3 hno3 no3 nh3 nh4].
  assert (B1 : 0 < Kt_SO2 T * h) by nra. assert (B2 : 0 < Kt_SO2 T * Kt_HSO3 T) by nra. assert (B3 : 0 < Kt_CO2 T * h) by nra.
  assert (B4 : 0 < Kt_CO2 T * Kt_HCO3 T) by nra. assert (B5 : 0 < Kt_NH3 T * h) by nra. assert (B6 : 0 < h * h) by nra.
  assert (C0 : 0 <= K_H2O / h) by (apply Rle_mult_inv_pos; lra).
  pose proof (frac_nonneg (tS4 t) (Kt_SO2 T * h) (h * h + Kt_SO2 T * h + Kt_SO2 T * Kt_HSO3 T) A1 ltac:(lra) ltac:(lra)).
  pose proof (frac_nonneg (tS4 t) (Kt_SO2 T * Kt_HSO3 T) (h * h + Kt_SO2 T * h + Kt_SO2 T * Kt_HSO3 T) A1 ltac:(lra) ltac:(lra)).
  pose proof (frac_nonneg (tC4 t) (Kt_CO2 T * h) (h * h + Kt_CO2 T * h + Kt_CO2 T * Kt_HCO3 T) A2 ltac:(lra) ltac:(lra)).
  pose proof (frac_nonneg (tC4 t) (Kt_CO2 T * Kt_HCO3 T) (h * h + Kt_CO2 T * h + Kt_CO2 T * Kt_HCO3 T) A2 ltac:(lra) ltac:(lra)).
  pose proof (frac_nonneg (tS6 t) h (h + Kt_HSO4 T) A5 ltac:(lra) ltac:(lra)).
  pose proof (frac_nonneg (tS6 t) (Kt_HSO4 T) (h + Kt_HSO4 T) A5 ltac:(lra) ltac:(lra)).
  pose proof (frac_nonneg (tN5 t) (Kt_HNO3 T) (h + Kt_HNO3 T) A3 ltac:(lra) ltac:(lra)).
  pose proof (frac_nonneg (tN3 t) (Kt_NH3 T * h) (K_H2O + Kt_NH3 T * h) A4 ltac:(lra) ltac:(lra)).
  cbn [pow]. lra.
Qed.

(** C67, refuted outside that range: the search has no sign change to find and returns a point of the upper quarter of its range.
    A droplet whose neutral point is above pH 8 is left at a pH below -0.87, and such a droplet is then too concentrated to take
    part in chemistry again *)
Theorem C67_alkaline_refuted fp fps mSIV mCIV mNV mNIII mSVI V T z x :
  fp_ok fp -> fp_ok fps -> feps fp <= feps fps -> 0 < V ->
  0 <= mSIV /\ 0 <= mCIV /\ 0 <= mNV /\ 0 <= mNIII /\ 0 <= mSVI ->
  0 < z -> mass_action T z (totals_of mSIV mCIV mNV mNIII mSVI V) x -> net_charge z x = 0 ->
  (z < 1 / 100000 \/ 10000 < z) ->
  exists r, chem_electroneutral fp fps mSIV mCIV mNV mNIII mSVI V T = Some r /\ 7500 <= r / M_H / V <= 10000 /\
    forall W, 0 < W < 187 * V -> set_chem_flag mSIV mCIV mNV mNIII mSVI r W T = false.
Proof.
  intros F1 F2 F3 HV Hm Hz0 Hx Hq Hz.
  destruct (outside_z fp fps mSIV mCIV mNV mNIII mSVI V T F1 F2 F3 HV Hm z Hz0) as (r & E & Hr); [|exact Hz|].
  { rewrite <- Hq. unfold charge_fun. rewrite <- (mass_action_ions _ _ _ _ Hz0 Hx). reflexivity. }
  exists r. split; [exact E|]. split; [exact Hr|]. intros W HW. pose proof M_H_pos as HM.
  assert (Er : r = r / M_H / V * V * M_H) by (field; lra).
  assert (Hr0 : 0 < r).
  { rewrite Er. apply Rmult_lt_0_compat; [apply Rmult_lt_0_compat; lra|exact HM]. }
  unfold set_chem_flag. destruct (Reqb r 0); [reflexivity|]. apply Rltb_false.
  rewrite strength_flag by exact Hr0.
  assert (Hh : 40 <= r / M_H / W).
  { apply Rmult_le_reg_r with W; [lra|]. replace (r / M_H / W * W) with (r / M_H / V * V) by (field; lra). nra. }
  apply Rle_trans with (r / M_H / W / 2); [lra|]. apply strength_ge; [|lra].
  apply totals_of_ok; [lra|exact Hm].
Qed.

(** C67, all droplets of a state: whether a droplet takes part and its new H+ follow from its own amounts, volume and the temperature of its cell;
    nothing else changes *)
Theorem C67_state fp fps V s i z x :
  let tot := totals_of (h_m s SO2 i) (h_m s CO2 i) (h_m s HNO3 i) (h_m s NH3 i) (h_m s S_VI i) (V i) in
  let T := h_T s (h_ijk s i) in
  fp_ok fp -> fp_ok fps -> feps fp <= feps fps -> 0 < V i -> (forall k, 0 <= h_m s k i) ->
  mass_action T z tot x -> net_charge z x = 0 -> 1 / 100000 <= z <= 10000 ->
  (0 < h_m s Hp i -> forall y, mass_action T (h_m s Hp i / M_H / V i) tot y -> (chem_flag_ante s V i = true <-> strength (h_m s Hp i / M_H / V i) y < 20)) /\
  (forall flag, let s' := chem_dissoc fp fps V flag s in
    (flag i = true -> Rabs (h_m s' Hp i / M_H / V i - z) <= Rmax (tol_eps fps 32 / 2 * z) ((1 / 2 + 2 * feps fp) ^ 24 * 5000)) /\
    (flag i = false -> h_m s' Hp i = h_m s Hp i) /\
    (forall k j, k <> Hp -> h_m s' k j = h_m s k j) /\ h_rd3 s' = h_rd3 s /\ h_amb s' = h_amb s).
Proof.
  intros tot T F1 F2 F3 HV Hm Hx Hq Hz. split.
  - intros HH y Hy. unfold chem_flag_ante. change (T_of s i) with T. exact (C67_dilute _ _ _ _ _ _ _ _ _ HV HH Hy).
  - intros flag s'. destruct (C67_solved fp fps _ _ _ _ _ (V i) T z x F1 F2 F3 HV (conj (Hm SO2) (conj (Hm CO2) (conj (Hm HNO3) (conj (Hm NH3) (Hm S_VI))))) Hx Hq Hz) as (r & E & _ & Hr).
    unfold s', chem_dissoc, set_m, upd. cbn [h_m h_rd3 h_amb]. rewrite Nat.eqb_refl. split; [|split; [|split; [|split; reflexivity]]].
    + intros ->. change (T_of s i) with T. rewrite E. exact Hr.
    + intros ->. reflexivity.
    + intros k j Hk. apply Nat.eqb_neq in Hk. first [rewrite Hk|rewrite Nat.eqb_sym, Hk]. reflexivity.
Qed.

(** ** Concrete droplets *)
Lemma Kt_298 K d : K_temp 298 K d = K.
Proof. unfold K_temp. replace (1 / 298 - 1 / 298) with 0 by lra. rewrite Rmult_0_r, exp_0. ring. Qed.

(** a droplet of one femtolitre times a thousand (1e-15 m3) at 298 K with 1e-2 mol/m3 of ammonia *)
Definition amm_V : R := 1 / 1000000000000000.
Definition amm_m : R := 1 / 100 * M_NH3_H2O * amm_V.
Lemma amm_totals : totals_of 0 0 0 amm_m 0 amm_V = {| tS4 := 0; tC4 := 0; tN5 := 0; tN3 := 1 / 100; tS6 := 0 |}.
Proof. unfold totals_of, amm_m, amm_V, M_SO2_H2O, M_CO2_H2O, M_HNO3, M_NH3_H2O, M_H2SO4. f_equal; field. Qed.
Lemma amm_alkaline z : 0 < z -> charge_fun 298 (totals_of 0 0 0 amm_m 0 amm_V) z = 0 -> z < 1 / 100000.
Proof.
  intros Hz Ez. apply Rnot_le_lt. intros H.
  assert (Ht : totals_ok (totals_of 0 0 0 amm_m 0 amm_V)) by (rewrite amm_totals; unfold totals_ok; cbn [tS4 tC4 tN5 tN3 tS6]; lra).
  assert (P : 0 < charge_fun 298 (totals_of 0 0 0 amm_m 0 amm_V) (1 / 100000)).
  { rewrite charge_split, amm_totals. unfold cations, anions, Kt_NH3. rewrite !Kt_298. cbn [tS4 tC4 tN5 tN3 tS6].
    unfold K_NH3, K_H2O. lra. }
  destruct H as [H|H].
  - assert (H0 : 0 < 1 / 100000) by lra. pose proof (charge_inc 298 _ _ _ Ht (conj H0 H)). lra.
  - rewrite H in P. lra.
Qed.
(** C67, witness: the droplet takes part in chemistry (its H+ being that of pH 8), and dissociation then gives it more than 7500 mol/m3 of H+ *)
Theorem C67_alkaline_witness fp fps : fp_ok fp -> fp_ok fps -> feps fp <= feps fps ->
  set_chem_flag 0 0 0 amm_m 0 (1 / 100000 * M_H * amm_V) amm_V 298 = true /\
  exists r, chem_electroneutral fp fps 0 0 0 amm_m 0 amm_V 298 = Some r /\ 7500 <= r / M_H / amm_V.
Proof.
  intros F1 F2 F3.
  assert (HV : 0 < amm_V) by (unfold amm_V; lra).
  assert (Ht : totals_ok (totals_of 0 0 0 amm_m 0 amm_V)) by (rewrite amm_totals; unfold totals_ok; cbn [tS4 tC4 tN5 tN3 tS6]; lra).
  pose proof M_H_pos as HM. split.
  - assert (Hm : 0 < 1 / 100000 * M_H * amm_V) by (apply Rmult_lt_0_compat; lra).
    unfold set_chem_flag. destruct (Reqb (1 / 100000 * M_H * amm_V) 0) eqn:E; [apply Reqb_true in E; lra|].
    apply Rltb_true. rewrite strength_flag by exact Hm.
    replace (1 / 100000 * M_H * amm_V / M_H / amm_V) with (1 / 100000) by (field; lra).
    rewrite amm_totals. unfold strength, ions_of. cbn [oh so2 hso3 so3 hso4 so4 co2 hco3 co3 hno3 no3 nh3 nh4 tS4 tC4 tN5 tN3 tS6].
    unfold Kt_NH3. rewrite Kt_298. unfold K_NH3, K_H2O. unfold Rdiv. rewrite !Rmult_0_l, !Rmult_0_r. cbn [pow]. lra.
  - destruct (neutral_exists 298 _ Ht) as (z & Hz & Ez).
    destruct (outside_z fp fps 0 0 0 amm_m 0 amm_V 298 F1 F2 F3 HV) with (z := z) as (r & E & Hr); try assumption.
    + assert (0 <= amm_m) by (unfold amm_m, M_NH3_H2O, amm_V; lra). lra.
    + left. apply amm_alkaline; assumption.
    + exists r. split; [exact E|lra].
Qed.

(** instance of C67_solved: pure water at any temperature is neutral at 1e-4 mol/m3 (pH 7), which is within the range *)
Theorem C67_instance T V : 0 < V -> exists x, mass_action T (1 / 10000) (totals_of 0 0 0 0 0 V) x /\ net_charge (1 / 10000) x = 0 /\
  1 / 100000 <= 1 / 10000 <= 10000 /\ feps fp_double <= feps fp_single /\ tol_eps fp_single 32 / 2 = / 2 ^ 22.
Proof.
  intros HV. destruct (C67_ions T (1 / 10000) (totals_of 0 0 0 0 0 V)) as (x & Hx & _); [lra|].
  exists x. split; [exact Hx|].
  assert (H4 : 0 < 1 / 10000) by lra. rewrite (mass_action_ions _ _ _ _ H4 Hx). split.
  - unfold net_charge, ions_of, totals_of. cbn [oh so2 hso3 so3 hso4 so4 co2 hco3 co3 hno3 no3 nh3 nh4 tS4 tC4 tN5 tN3 tS6].
    unfold Rdiv. rewrite !Rmult_0_l. unfold K_H2O. lra.
  - split; [lra|]. split; [cbn [fp_double fp_single feps]; lra|].
    unfold tol_eps. rewrite cmax_Rmax. cbn [fp_single feps]. rewrite Rmax_right; lra.
Qed.

Print Assumptions C67_ions.
Print Assumptions C67_charge.
Print Assumptions C67_dilute.
Print Assumptions C67_neutral_unique.
Print Assumptions C67_solved.
Print Assumptions C67_state.
Print Assumptions C67_alkaline_refuted.
Print Assumptions C67_alkaline_witness.
Print Assumptions C67_instance.
