(** * C68: oxidation of S(IV) to S(VI) by H2O2 and O3 in droplets *)
From Coq Require Import List Arith NArith ZArith Lia Reals Lra Bool.
From Verif Require Import Base BaseProofs ThermoModel ThermoProofs TomsModel TomsProps MomsModel InitModel ChemModel ChemHenry ChemDissoc.
Import ListNotations.
Local Open Scope R_scope.

(** ** Specification *)
(** amounts (moles) of the four reacting species in a droplet *)
Definition moles (k : nat) (m : R) : R :=
  match k with 3%nat => m / (82 / 1000) | 4%nat => m / (34 / 1000) | 5%nat => m / (48 / 1000) | _ => m / (98 / 1000) end.
(** rate laws (moles per second in a droplet of volume V), in terms of the concentrations of SO2, HSO3-, SO3--, O3, H2O2, H+ *)
Definition ozone_law (T V : R) (x : ions) (cO3 : R) : R :=
  V * ((R_temp T R_S_O3_k0 dER_O3_k0 * so2 x + R_temp T R_S_O3_k1 dER_O3_k1 * hso3 x + R_temp T R_S_O3_k2 dER_O3_k2 * so3 x) * cO3).
Definition peroxide_law (T V h : R) (x : ions) (cH2O2 : R) : R :=
  V * (R_temp T R_S_H2O2_k dER_H2O2_k * h * hso3 x * cH2O2 / (1 + R_S_H2O2_K * h)).

(** ** The rates *)
Lemma R_temp_pos T k d : 0 < k -> 0 < R_temp T k d.
Proof. intros. unfold R_temp. apply Rmult_lt_0_compat; [assumption|apply exp_pos]. Qed.
Lemma ions_nonneg T h t : totals_ok t -> 0 < h -> 0 <= so2 (ions_of T h t) /\ 0 <= hso3 (ions_of T h t) /\ 0 <= so3 (ions_of T h t).
Proof.
  intros (A1 & A2 & A3 & A4 & A5) Hh. unfold ions_of; cbn [so2 hso3 so3].
  pose proof (Kt_SO2_pos T). pose proof (Kt_HSO3_pos T).
  assert (0 < Kt_SO2 T * h) by nra. assert (0 < Kt_SO2 T * Kt_HSO3 T) by nra. assert (0 < h * h) by nra.
  repeat split; apply frac_nonneg; lra.
Qed.

Section Rates.
  Variables (dt V T mSIV mH2O2 mO3 mH : R).
  Hypothesis Hdt : 0 < dt.
  Hypothesis HV : 0 < V.
  Hypothesis HH : 0 < mH.
  Let h := mH / M_H / V.
  Let t := totals_of mSIV 0 0 0 0 V.
  Let o_law := ozone_law T V (ions_of T h t) (mO3 / M_O3 / V).
  Let p_law := peroxide_law T V h (ions_of T h t) (mH2O2 / M_H2O2 / V).

  Lemma h_pos : 0 < h.
  Proof. pose proof M_H_pos. unfold h. apply Rdiv_lt_0_compat; [apply Rdiv_lt_0_compat|]; assumption. Qed.
  Lemma O3_rate_spec : O3_rate dt V T mSIV mO3 mH =
    (let r := if Rltb (o_law * dt) (mO3 / M_O3) then o_law else mO3 / M_O3 / dt in
     if Rltb (r * dt) (mSIV / M_SO2_H2O) then r else mSIV / M_SO2_H2O / dt).
  Proof.
    unfold O3_rate. fold h. pose proof h_pos as Hh. pose proof (Kt_SO2_pos T). pose proof (Kt_HSO3_pos T).
    assert (B1 : 0 < Kt_SO2 T * h) by nra. assert (B2 : 0 < Kt_SO2 T * Kt_HSO3 T) by nra. assert (B6 : 0 < h * h) by nra.
    assert (E : V * mO3 / M_O3 / V * mSIV / M_SO2_H2O / V / S_IV_den T h
           * (R_temp T R_S_O3_k0 dER_O3_k0 + R_temp T R_S_O3_k1 dER_O3_k1 * Kt_SO2 T / h
              + R_temp T R_S_O3_k2 dER_O3_k2 * Kt_SO2 T * Kt_HSO3 T / h / h) = o_law).
    { unfold o_law, ozone_law, ions_of, t, totals_of, S_IV_den; cbn [so2 hso3 so3 tS4].
      assert (M_O3 <> 0) by (unfold M_O3; lra). assert (M_SO2_H2O <> 0) by (unfold M_SO2_H2O; lra).
      set (a := M_O3) in *. set (b := M_SO2_H2O) in *. clearbody a b h.
      set (k1 := Kt_SO2 T) in *. set (k2 := Kt_HSO3 T) in *. clearbody k1 k2.
      field. repeat split; lra. }
    rewrite E. reflexivity.
  Qed.
  Lemma H2O2_rate_spec : H2O2_rate dt V T mSIV mH2O2 mO3 mH =
    (let o := O3_rate dt V T mSIV mO3 mH in
     let r := if Rltb (p_law * dt) (mH2O2 / M_H2O2) then p_law else mH2O2 / M_H2O2 / dt in
     if Rltb (r * dt) (mSIV / M_SO2_H2O - o * dt) then r else mSIV / M_SO2_H2O / dt - o).
  Proof.
    unfold H2O2_rate. fold h. pose proof h_pos as Hh. pose proof (Kt_SO2_pos T). pose proof (Kt_HSO3_pos T).
    assert (B1 : 0 < Kt_SO2 T * h) by nra. assert (B2 : 0 < Kt_SO2 T * Kt_HSO3 T) by nra. assert (B6 : 0 < h * h) by nra.
    assert (E : V * R_temp T R_S_H2O2_k dER_H2O2_k * Kt_SO2 T * mH2O2 / M_H2O2 / V * mSIV / M_SO2_H2O / V
           / S_IV_den T h / (1 + R_S_H2O2_K * h) = p_law).
    { unfold p_law, peroxide_law, ions_of, t, totals_of, S_IV_den; cbn [so2 hso3 so3 tS4].
      assert (M_H2O2 <> 0) by (unfold M_H2O2; lra). assert (M_SO2_H2O <> 0) by (unfold M_SO2_H2O; lra).
      assert (0 < R_S_H2O2_K) by (unfold R_S_H2O2_K; lra). assert (0 < R_S_H2O2_K * h) by nra.
      set (a := M_H2O2) in *. set (b := M_SO2_H2O) in *. set (c := R_S_H2O2_K) in *. clearbody a b c h.
      set (k1 := Kt_SO2 T) in *. set (k2 := Kt_HSO3 T) in *. clearbody k1 k2.
      field. repeat split; lra. }
    rewrite E. reflexivity.
  Qed.

  Hypothesis HS : 0 <= mSIV.
  Hypothesis HP : 0 <= mH2O2.
  Hypothesis HO : 0 <= mO3.
  Lemma conc_nonneg m M : 0 <= m -> 0 < M -> 0 <= m / M.
  Proof. intros. apply Rle_mult_inv_pos; assumption. Qed.
  Lemma t_ok : totals_ok t.
  Proof.
    assert (Q : forall M, 0 <= 0 / M / V) by (intros; unfold Rdiv; rewrite !Rmult_0_l; lra).
    unfold totals_ok, t, totals_of; cbn [tS4 tC4 tN5 tN3 tS6]. repeat split; try apply Q.
    apply conc_nonneg; [apply conc_nonneg; [exact HS|unfold M_SO2_H2O; lra]|exact HV].
  Qed.
  Lemma o_law_nonneg : 0 <= o_law.
  Proof.
    destruct (ions_nonneg T h t t_ok h_pos) as (A & B & C). unfold o_law, ozone_law.
    assert (Q0 : 0 < R_temp T R_S_O3_k0 dER_O3_k0) by (apply R_temp_pos; unfold R_S_O3_k0; lra).
    assert (Q1 : 0 < R_temp T R_S_O3_k1 dER_O3_k1) by (apply R_temp_pos; unfold R_S_O3_k1; lra).
    assert (Q2 : 0 < R_temp T R_S_O3_k2 dER_O3_k2) by (apply R_temp_pos; unfold R_S_O3_k2; lra).
    assert (Q3 : 0 <= mO3 / M_O3 / V) by (apply conc_nonneg; [apply conc_nonneg; [exact HO|unfold M_O3; lra]|exact HV]).
    apply Rmult_le_pos; [lra|]. apply Rmult_le_pos; [|exact Q3].
    apply Rplus_le_le_0_compat; [apply Rplus_le_le_0_compat|]; apply Rmult_le_pos; lra.
  Qed.
  Lemma p_law_nonneg : 0 <= p_law.
  Proof.
    destruct (ions_nonneg T h t t_ok h_pos) as (A & B & C). unfold p_law, peroxide_law. pose proof h_pos as Hh.
    assert (Q0 : 0 < R_temp T R_S_H2O2_k dER_H2O2_k) by (apply R_temp_pos; unfold R_S_H2O2_k; lra).
    assert (Q3 : 0 <= mH2O2 / M_H2O2 / V) by (apply conc_nonneg; [apply conc_nonneg; [exact HP|unfold M_H2O2; lra]|exact HV]).
    assert (0 < R_S_H2O2_K * h) by (apply Rmult_lt_0_compat; [unfold R_S_H2O2_K; lra|exact Hh]).
    apply Rmult_le_pos; [lra|]. apply Rle_mult_inv_pos; [|lra].
    apply Rmult_le_pos; [apply Rmult_le_pos; [apply Rmult_le_pos|]|]; lra.
  Qed.
  Lemma lim x a : 0 <= x -> 0 <= a -> let r := if Rltb (x * dt) a then x else a / dt in 0 <= r <= x /\ r * dt <= a /\ (r = x \/ r * dt = a).
  Proof.
    intros Hx Ha. cbn zeta. destruct (Rltb (x * dt) a) eqn:E.
    - apply Rltb_true in E. split; [lra|]. split; [lra|]. left. reflexivity.
    - apply Rltb_false in E. assert (Q : a / dt * dt = a) by (field; lra).
      assert (0 <= a / dt) by (apply conc_nonneg; assumption).
      assert (a / dt <= x) by (apply Rmult_le_reg_r with dt; lra). split; [lra|]. split; [lra|]. right. exact Q.
  Qed.
  Lemma rates_ok : let o := O3_rate dt V T mSIV mO3 mH in let p := H2O2_rate dt V T mSIV mH2O2 mO3 mH in
    0 <= o <= o_law /\ 0 <= p <= p_law /\ o * dt <= mO3 / M_O3 /\ p * dt <= mH2O2 / M_H2O2 /\ (o + p) * dt <= mSIV / M_SO2_H2O /\
    (o = o_law \/ o * dt = mO3 / M_O3 \/ o * dt = mSIV / M_SO2_H2O) /\
    (p = p_law \/ p * dt = mH2O2 / M_H2O2 \/ (o + p) * dt = mSIV / M_SO2_H2O).
  Proof.
    cbn zeta.
    assert (A1 : 0 <= mO3 / M_O3) by (apply conc_nonneg; [exact HO|unfold M_O3; lra]).
    assert (A2 : 0 <= mSIV / M_SO2_H2O) by (apply conc_nonneg; [exact HS|unfold M_SO2_H2O; lra]).
    assert (A3 : 0 <= mH2O2 / M_H2O2) by (apply conc_nonneg; [exact HP|unfold M_H2O2; lra]).
    rewrite H2O2_rate_spec. cbn zeta.
    assert (Q : 0 <= O3_rate dt V T mSIV mO3 mH <= o_law /\ O3_rate dt V T mSIV mO3 mH * dt <= mO3 / M_O3 /\
       O3_rate dt V T mSIV mO3 mH * dt <= mSIV / M_SO2_H2O /\
       (O3_rate dt V T mSIV mO3 mH = o_law \/ O3_rate dt V T mSIV mO3 mH * dt = mO3 / M_O3 \/ O3_rate dt V T mSIV mO3 mH * dt = mSIV / M_SO2_H2O)).
    { rewrite O3_rate_spec. cbn zeta. destruct (lim o_law (mO3 / M_O3) o_law_nonneg A1) as (L1 & L2 & L3).
      set (r := if Rltb (o_law * dt) (mO3 / M_O3) then o_law else mO3 / M_O3 / dt) in *. clearbody r.
      destruct (lim r (mSIV / M_SO2_H2O) ltac:(lra) A2) as (L4 & L5 & L6).
      set (q := if Rltb (r * dt) (mSIV / M_SO2_H2O) then r else mSIV / M_SO2_H2O / dt) in *. clearbody q.
      split; [lra|]. split; [nra|]. split; [exact L5|]. destruct L6 as [->|L6]; [destruct L3 as [->|L3]; tauto|tauto]. }
    set (o := O3_rate dt V T mSIV mO3 mH) in *. clearbody o. destruct Q as (Q1 & Q2 & Q3 & Q4).
    destruct (lim p_law (mH2O2 / M_H2O2) p_law_nonneg A3) as (L1 & L2 & L3).
    set (r := if Rltb (p_law * dt) (mH2O2 / M_H2O2) then p_law else mH2O2 / M_H2O2 / dt) in *. clearbody r.
    destruct (lim r (mSIV / M_SO2_H2O - o * dt) ltac:(lra) ltac:(lra)) as (L4 & L5 & L6).
    replace ((mSIV / M_SO2_H2O - o * dt) / dt) with (mSIV / M_SO2_H2O / dt - o) in * by (field; split; [unfold M_SO2_H2O|]; lra).
    set (q := if Rltb (r * dt) (mSIV / M_SO2_H2O - o * dt) then r else mSIV / M_SO2_H2O / dt - o) in *. clearbody q.
    split; [exact Q1|]. split; [lra|]. split; [exact Q2|]. split; [nra|]. split; [lra|]. split; [exact Q4|].
    destruct L6 as [->|L6]; [destruct L3 as [->|L3]; tauto|]. right. right. lra.
  Qed.
End Rates.

(** C68: the rates of the two reactions are those of the kinetic laws, unless a reagent would be used up within the step: then the
    rate is the one that uses it up; never more than the law, never more than there is *)
Theorem C68_rates dt V T mSIV mH2O2 mO3 mH x :
  0 < dt -> 0 < V -> 0 < mH -> 0 <= mSIV -> 0 <= mH2O2 -> 0 <= mO3 ->
  mass_action T (mH / M_H / V) (totals_of mSIV 0 0 0 0 V) x ->
  let o := O3_rate dt V T mSIV mO3 mH in
  let p := H2O2_rate dt V T mSIV mH2O2 mO3 mH in
  let law_o := ozone_law T V x (moles O3 mO3 / V) in
  let law_p := peroxide_law T V (mH / M_H / V) x (moles H2O2 mH2O2 / V) in
  0 <= o <= law_o /\ 0 <= p <= law_p /\
  o * dt <= moles O3 mO3 /\ p * dt <= moles H2O2 mH2O2 /\ (o + p) * dt <= moles SO2 mSIV /\
  (o = law_o \/ o * dt = moles O3 mO3 \/ o * dt = moles SO2 mSIV) /\
  (p = law_p \/ p * dt = moles H2O2 mH2O2 \/ (o + p) * dt = moles SO2 mSIV).
Proof.
  intros Hdt HV HH HS HP HO Hx.
  assert (Hh : 0 < mH / M_H / V) by (apply h_pos; assumption).
  rewrite (mass_action_ions _ _ _ _ Hh Hx).
  exact (rates_ok dt V T mSIV mH2O2 mO3 mH Hdt HV HH HS HP HO).
Qed.

(** C68: for short enough steps no limiter acts: the rates are exactly the kinetic laws *)
Theorem C68_consistent V T mSIV mH2O2 mO3 mH x :
  0 < V -> 0 < mH -> 0 <= mSIV -> 0 <= mH2O2 -> 0 <= mO3 ->
  mass_action T (mH / M_H / V) (totals_of mSIV 0 0 0 0 V) x ->
  exists dt0, 0 < dt0 /\ forall dt, 0 < dt < dt0 ->
    O3_rate dt V T mSIV mO3 mH = ozone_law T V x (moles O3 mO3 / V) /\
    H2O2_rate dt V T mSIV mH2O2 mO3 mH = peroxide_law T V (mH / M_H / V) x (moles H2O2 mH2O2 / V).
Proof.
  intros HV HH HS HP HO Hx.
  assert (Hh : 0 < mH / M_H / V) by (apply h_pos; assumption).
  pose proof (mass_action_ions _ _ _ _ Hh Hx) as Ex.
  set (lo := ozone_law T V x (moles O3 mO3 / V)). set (lp := peroxide_law T V (mH / M_H / V) x (moles H2O2 mH2O2 / V)).
  assert (Z1 : mO3 = 0 -> lo = 0).
  { intros E. unfold lo, ozone_law, moles, O3. rewrite E. unfold Rdiv. ring. }
  assert (Z2 : mSIV = 0 -> lo = 0 /\ lp = 0).
  { intros E. unfold lo, lp, ozone_law, peroxide_law. rewrite Ex. unfold ions_of, totals_of; cbn [so2 hso3 so3 tS4]. rewrite E.
    unfold Rdiv. split; ring. }
  assert (Z3 : mH2O2 = 0 -> lp = 0).
  { intros E. unfold lp, peroxide_law, moles, H2O2. rewrite E. unfold Rdiv. ring. }
  assert (P : forall a b, 0 <= a -> 0 <= b -> exists d, 0 < d /\ forall dt, 0 < dt < d -> 0 < b -> a * dt < b).
  { intros a b Ha Hb. destruct (Rlt_dec 0 b) as [H|H].
    - exists (b / (a + 1)). split; [apply Rdiv_lt_0_compat; lra|]. intros dt Hd _.
      assert (Q : (a + 1) * dt < b).
      { apply Rlt_le_trans with ((a + 1) * (b / (a + 1))); [apply Rmult_lt_compat_l; lra|]. right. field. lra. }
      lra.
    - exists 1. split; [lra|]. intros; contradiction. }
  assert (N : forall dt, 0 < dt -> 0 <= lo /\ 0 <= lp).
  { intros dt Hd. pose proof (C68_rates dt V T mSIV mH2O2 mO3 mH x Hd HV HH HS HP HO Hx) as Q. cbn zeta in Q. fold lo lp in Q. lra. }
  destruct (N 1 ltac:(lra)) as (N1 & N2).
  assert (A1 : 0 <= moles O3 mO3) by (unfold moles, O3; apply conc_nonneg; lra).
  assert (A2 : 0 <= moles SO2 mSIV) by (unfold moles, SO2; apply conc_nonneg; lra).
  assert (A3 : 0 <= moles H2O2 mH2O2) by (unfold moles, H2O2; apply conc_nonneg; lra).
  assert (I : forall m M, 0 <= m -> 0 < M -> m / M = 0 -> m = 0).
  { intros m M _ HM E. replace m with (m / M * M) by (field; lra). rewrite E. ring. }
  destruct (P lo (moles O3 mO3) N1 A1) as (d1 & D1 & P1).
  destruct (P (lo + lp) (moles SO2 mSIV) ltac:(lra) A2) as (d2 & D2 & P2).
  destruct (P lp (moles H2O2 mH2O2) N2 A3) as (d3 & D3 & P3).
  exists (Rmin d1 (Rmin d2 d3)). split; [repeat apply Rmin_glb_lt; assumption|].
  intros dt Hd.
  assert (B1 : 0 < dt < d1) by (pose proof (Rmin_l d1 (Rmin d2 d3)); lra).
  assert (B2 : 0 < dt < d2) by (pose proof (Rmin_r d1 (Rmin d2 d3)); pose proof (Rmin_l d2 d3); lra).
  assert (B3 : 0 < dt < d3) by (pose proof (Rmin_r d1 (Rmin d2 d3)); pose proof (Rmin_r d2 d3); lra).
  pose proof (C68_rates dt V T mSIV mH2O2 mO3 mH x (proj1 Hd) HV HH HS HP HO Hx) as Q. cbn zeta in Q. fold lo lp in Q.
  set (o := O3_rate dt V T mSIV mO3 mH) in *. set (p := H2O2_rate dt V T mSIV mH2O2 mO3 mH) in *. clearbody o p.
  destruct Q as (Q1 & Q2 & Q3 & Q4 & Q5 & Q6 & Q7). 
  assert (Eo : o = lo).
  { destruct Q6 as [E|[E|E]]; [exact E| |].
    - destruct A1 as [A|A]; [pose proof (P1 dt B1 A); assert (o * dt <= lo * dt) by (apply Rmult_le_compat_r; lra); lra|]. assert (lo = 0) by (apply Z1; apply (I mO3 (48 / 1000)); [assumption|lra|symmetry; exact A]). lra.
    - destruct A2 as [A|A]; [pose proof (P2 dt B2 A); assert ((o + p) * dt <= (lo + lp) * dt) by (apply Rmult_le_compat_r; lra); assert (0 <= p * dt) by (apply Rmult_le_pos; lra); lra|]. assert (lo = 0) by (apply Z2; apply (I mSIV (82 / 1000)); [assumption|lra|symmetry; exact A]). lra. }
  split; [exact Eo|].
  destruct Q7 as [E|[E|E]]; [exact E| |].
  - destruct A3 as [A|A]; [pose proof (P3 dt B3 A); assert (p * dt <= lp * dt) by (apply Rmult_le_compat_r; lra); lra|]. assert (lp = 0) by (apply Z3; apply (I mH2O2 (34 / 1000)); [assumption|lra|symmetry; exact A]). lra.
  - destruct A2 as [A|A]; [pose proof (P2 dt B2 A); assert ((o + p) * dt <= (lo + lp) * dt) by (apply Rmult_le_compat_r; lra); assert (0 <= p * dt) by (apply Rmult_le_pos; lra); lra|]. assert (lp = 0) by (apply Z2; apply (I mSIV (82 / 1000)); [assumption|lra|symmetry; exact A]). lra.
Qed.

(** ** The step *)
(** four stages with consumption bounded by what there is leave three eighths *)
Lemma rk_keep m a1 a2 a3 a4 :
  - m <= a1 <= 0 -> - (m + 1 / 2 * a1) <= a2 <= 0 -> - (m + 1 / 2 * a2) <= a3 <= 0 -> - (m + a3) <= a4 <= 0 ->
  3 / 8 * m <= m + 1 / 6 * a1 + 1 / 3 * a2 + 1 / 3 * a3 + 1 / 6 * a4 <= m + 1 / 6 * a1.
Proof. intros. lra. Qed.
Lemma rk_stages m a1 a2 a3 : 0 <= m -> - m <= a1 <= 0 -> - (m + 1 / 2 * a1) <= a2 <= 0 -> - (m + 1 / 2 * a2) <= a3 <= 0 ->
  0 <= m + 1 / 2 * a1 /\ 0 <= m + 1 / 2 * a2 /\ 0 <= m + a3.
Proof. intros. lra. Qed.

Section Step.
  Variables (dt chem_rho : R) (V : nat -> R) (flag : nat -> bool) (s : chst) (i : nat).
  Hypothesis Hdt : 0 < dt.
  Hypothesis HV : 0 < V i.
  Hypothesis HH : 0 < h_m s Hp i.
  Hypothesis Hf : flag i = true.
  Let f := chem_rhs dt V (T_of s) (h_m s Hp) flag.

  Lemma rhs_at y : 0 <= y SO2 i -> 0 <= y H2O2 i -> 0 <= y O3 i ->
    - y SO2 i <= dt * f y SO2 i <= 0 /\ - y H2O2 i <= dt * f y H2O2 i <= 0 /\ - y O3 i <= dt * f y O3 i <= 0.
  Proof.
    intros H1 H2 H3. unfold f, chem_rhs. rewrite Hf.
    pose proof (rates_ok dt (V i) (T_of s i) (y SO2 i) (y H2O2 i) (y O3 i) (h_m s Hp i) Hdt HV HH H1 H2 H3) as Q. cbn zeta in Q.
    unfold chem_rhs_helper; cbn [SO2 H2O2 O3]. unfold SO2, H2O2, O3 in *.
    set (o := O3_rate dt (V i) (T_of s i) (y 3%nat i) (y 5%nat i) (h_m s Hp i)) in *.
    set (p := H2O2_rate dt (V i) (T_of s i) (y 3%nat i) (y 4%nat i) (y 5%nat i) (h_m s Hp i)) in *. clearbody o p.
    destruct Q as (Q1 & Q2 & Q3 & Q4 & Q5 & _ & _).
    assert (R : forall m M, 0 < M -> m / M * M = m) by (intros; field; lra).
    assert (M1 : 0 < M_SO2_H2O) by (unfold M_SO2_H2O; lra). assert (M2 : 0 < M_H2O2) by (unfold M_H2O2; lra). assert (M3 : 0 < M_O3) by (unfold M_O3; lra).
    apply (Rmult_le_compat_r M_O3) in Q3; [|lra]. apply (Rmult_le_compat_r M_H2O2) in Q4; [|lra].
    apply (Rmult_le_compat_r M_SO2_H2O) in Q5; [|lra]. rewrite R in Q3, Q4, Q5 by assumption.
    assert (0 <= o * dt) by nra. assert (0 <= p * dt) by nra. assert (0 <= (o + p) * dt) by nra.
    repeat split; nra.
  Qed.

  Lemma react_keep k : (k = SO2 \/ k = H2O2 \/ k = O3) ->
    0 <= h_m s SO2 i -> 0 <= h_m s H2O2 i -> 0 <= h_m s O3 i ->
    3 / 8 * h_m s k i <= rk4 f dt (h_m s) k i <= h_m s k i + 1 / 6 * (dt * f (h_m s) k i) /\ dt * f (h_m s) k i <= 0.
  Proof.
    intros Hk N1 N2 N3. unfold rk4.
    set (x := h_m s) in *.
    destruct (rhs_at x N1 N2 N3) as (A1 & A2 & A3). set (k1 := f x) in *. clearbody k1.
    set (x2 := fun k i => x k i + dt * (1 / 2) * k1 k i).
    assert (B : 0 <= x2 SO2 i /\ 0 <= x2 H2O2 i /\ 0 <= x2 O3 i) by (unfold x2; lra).
    destruct (rhs_at x2 (proj1 B) (proj1 (proj2 B)) (proj2 (proj2 B))) as (B1 & B2 & B3). set (k2 := f x2) in *. clearbody k2.
    set (x3 := fun k i => x k i + dt * (1 / 2) * k2 k i).
    assert (C : 0 <= x3 SO2 i /\ 0 <= x3 H2O2 i /\ 0 <= x3 O3 i) by (unfold x3; unfold x2 in B1, B2, B3; lra).
    destruct (rhs_at x3 (proj1 C) (proj1 (proj2 C)) (proj2 (proj2 C))) as (C1 & C2 & C3). set (k3 := f x3) in *. clearbody k3.
    set (x4 := fun k i => x k i + dt * k3 k i).
    assert (D : 0 <= x4 SO2 i /\ 0 <= x4 H2O2 i /\ 0 <= x4 O3 i) by (unfold x4; unfold x3 in C1, C2, C3; unfold x2 in B1, B2, B3; lra).
    destruct (rhs_at x4 (proj1 D) (proj1 (proj2 D)) (proj2 (proj2 D))) as (D1 & D2 & D3). set (k4 := f x4) in *. clearbody k4.
    unfold x4 in D1, D2, D3. unfold x3 in C1, C2, C3. unfold x2 in B1, B2, B3. clear x2 x3 x4 B C D.
    replace (x k i + dt * (1 / 6) * k1 k i + dt * (1 / 3) * k2 k i + dt * (1 / 3) * k3 k i + dt * (1 / 6) * k4 k i)
      with (x k i + 1 / 6 * (dt * k1 k i) + 1 / 3 * (dt * k2 k i) + 1 / 3 * (dt * k3 k i) + 1 / 6 * (dt * k4 k i)) by lra.
    split; [destruct Hk as [->|[->| ->]]; apply rk_keep; lra|destruct Hk as [->|[->| ->]]; lra].
  Qed.
End Step.

Lemma react_m dt rho V flag s k i : h_m (chem_react dt rho V flag s) k i =
  if ((chem_rhs_beg <=? k) && (k <? chem_rhs_fin))%nat then rk4 (chem_rhs dt V (T_of s) (h_m s Hp) flag) dt (h_m s) k i else h_m s k i.
Proof. unfold chem_react; cbn [h_m set_rd3 set_m]. destruct ((chem_rhs_beg <=? k) && (k <? chem_rhs_fin))%nat; reflexivity. Qed.

(** C68: in every droplet taking part, none of SO2, H2O2, O3 grows or loses more than five eighths in a step; S(VI) does not shrink *)
Theorem C68_bounds dt rho V flag s i :
  0 < dt -> 0 < V i -> 0 < h_m s Hp i ->
  0 <= h_m s SO2 i -> 0 <= h_m s H2O2 i -> 0 <= h_m s O3 i ->
  let s' := chem_react dt rho V flag s in
  (forall k, k = SO2 \/ k = H2O2 \/ k = O3 -> 3 / 8 * h_m s k i <= h_m s' k i <= h_m s k i) /\ h_m s S_VI i <= h_m s' S_VI i.
Proof.
  intros Hdt HV HH N1 N2 N3 s'.
  assert (U : flag i = false -> forall k, h_m s' k i = h_m s k i).
  { intros E k. unfold s'. rewrite react_m. destruct ((chem_rhs_beg <=? k) && (k <? chem_rhs_fin))%nat; [|reflexivity].
    unfold rk4, chem_rhs. rewrite E. ring. }
  assert (K : forall k, k = SO2 \/ k = H2O2 \/ k = O3 -> 3 / 8 * h_m s k i <= h_m s' k i <= h_m s k i).
  { intros k Hk. destruct (flag i) eqn:Ef.
    - unfold s'. rewrite react_m.
      replace ((chem_rhs_beg <=? k) && (k <? chem_rhs_fin))%nat with true by (destruct Hk as [->|[->| ->]]; reflexivity).
      destruct (react_keep dt V flag s i Hdt HV HH Ef k Hk N1 N2 N3). lra.
    - rewrite (U eq_refl k). assert (0 <= h_m s k i) by (destruct Hk as [->|[->| ->]]; assumption). lra. }
  split; [exact K|].
  destruct (flag i) eqn:Ef; [|rewrite (U eq_refl); lra].
  pose proof (K SO2 (or_introl eq_refl)) as Q. unfold s' in *. rewrite react_m in Q. rewrite react_m. cbn [SO2 S_VI chem_rhs_beg chem_rhs_fin Nat.leb Nat.ltb andb] in *.
  unfold rk4, chem_rhs, chem_rhs_helper, SO2, S_VI in *. rewrite Ef in *.
  match type of Q with _ <= ?a + dt * (1 / 6) * - (_ * ?k1) + dt * (1 / 3) * - (_ * ?k2) + dt * (1 / 3) * - (_ * ?k3) + dt * (1 / 6) * - (_ * ?k4) <= _ =>
    set (q1 := k1) in *; set (q2 := k2) in *; set (q3 := k3) in *; set (q4 := k4) in * end.
  clearbody q1 q2 q3 q4. unfold M_SO2_H2O, M_H2SO4 in *. lra.
Qed.

(** C68: stoichiometry: the sulphur that leaves S(IV) arrives in S(VI), one mole of H2O2 or O3 is used up per mole of sulphur; the dry
    volume grows by the mass of S(VI) gained divided by the dry density; nothing else changes, in no droplet *)
Theorem C68_stoichiometry dt rho V flag s i :
  rho <> 0 ->
  let s' := chem_react dt rho V flag s in
  moles SO2 (h_m s' SO2 i) + moles S_VI (h_m s' S_VI i) = moles SO2 (h_m s SO2 i) + moles S_VI (h_m s S_VI i) /\
  moles S_VI (h_m s' S_VI i) - moles S_VI (h_m s S_VI i)
    = (moles H2O2 (h_m s H2O2 i) - moles H2O2 (h_m s' H2O2 i)) + (moles O3 (h_m s O3 i) - moles O3 (h_m s' O3 i)) /\
  rho * (4 / 3 * PI * h_rd3 s' i - 4 / 3 * PI * h_rd3 s i) = h_m s' S_VI i - h_m s S_VI i /\
  (forall k, k = HNO3 \/ k = NH3 \/ k = CO2 \/ k = Hp -> h_m s' k i = h_m s k i) /\
  (forall g c, h_amb s' g c = h_amb s g c) /\ h_n s' = h_n s /\ h_rw2 s' = h_rw2 s /\ h_ijk s' = h_ijk s /\ h_np s' = h_np s /\
  (flag i = false -> (forall k, h_m s' k i = h_m s k i) /\ h_rd3 s' i = h_rd3 s i).
Proof.
  intros Hr s'.
  assert (U : flag i = false -> forall k, h_m s' k i = h_m s k i).
  { intros E k. unfold s'. rewrite react_m. destruct ((chem_rhs_beg <=? k) && (k <? chem_rhs_fin))%nat; [|reflexivity].
    unfold rk4, chem_rhs. rewrite E. ring. }
  split.
  { destruct (flag i) eqn:Ef; [|rewrite !(U eq_refl); reflexivity].
    unfold s'. rewrite !react_m. cbn [SO2 S_VI chem_rhs_beg chem_rhs_fin Nat.leb Nat.ltb andb].
    unfold rk4, chem_rhs, chem_rhs_helper, SO2, S_VI. rewrite Ef. unfold moles, M_SO2_H2O, M_H2SO4. lra. }
  split.
  { destruct (flag i) eqn:Ef; [|rewrite !(U eq_refl); ring].
    unfold s'. rewrite !react_m. cbn [SO2 S_VI H2O2 O3 chem_rhs_beg chem_rhs_fin Nat.leb Nat.ltb andb].
    unfold rk4, chem_rhs, chem_rhs_helper, SO2, S_VI, H2O2, O3. rewrite Ef. unfold moles, M_H2O2, M_O3, M_H2SO4. lra. }
  split.
  { destruct (flag i) eqn:Ef.
    - unfold s'. rewrite react_m. unfold chem_react; cbn [h_rd3 set_rd3 set_m]. rewrite Ef. unfold chem_new_rd3.
      cbn [S_VI chem_rhs_beg chem_rhs_fin Nat.leb Nat.ltb andb]. pose proof PI_RGT_0. field. lra.
    - rewrite (U eq_refl). unfold s', chem_react; cbn [h_rd3 set_rd3 set_m]. rewrite Ef. ring. }
  split.
  { intros k Hk. unfold s'. rewrite react_m. destruct Hk as [->|[->|[->| ->]]]; reflexivity. }
  repeat (split; [reflexivity|]).
  intros E. split; [exact (U E)|]. unfold s', chem_react; cbn [h_rd3 set_rd3 set_m]. rewrite E. reflexivity.
Qed.

(** C68: the reaction does proceed: where there is S(IV) and an oxidant, S(IV) is lost and S(VI) gained *)
Theorem C68_progress dt rho V flag s i :
  0 < dt -> rho <> 0 -> 0 < V i -> 0 < h_m s Hp i -> flag i = true ->
  0 < h_m s SO2 i -> 0 <= h_m s H2O2 i -> 0 <= h_m s O3 i -> 0 < h_m s H2O2 i + h_m s O3 i ->
  h_m (chem_react dt rho V flag s) SO2 i < h_m s SO2 i /\ h_m s S_VI i < h_m (chem_react dt rho V flag s) S_VI i.
Proof.
  intros Hdt Hr HV HH Hf N1 N2 N3 N4.
  assert (A : h_m (chem_react dt rho V flag s) SO2 i < h_m s SO2 i).
  { rewrite react_m. cbn [SO2 chem_rhs_beg chem_rhs_fin Nat.leb Nat.ltb andb].
    destruct (react_keep dt V flag s i Hdt HV HH Hf SO2 (or_introl eq_refl) (Rlt_le _ _ N1) N2 N3) as (Q & _).
    unfold SO2 in *. 
    assert (F : chem_rhs dt V (T_of s) (h_m s Hp) flag (h_m s) 3%nat i < 0); [|nra].
    clear Q. unfold chem_rhs. rewrite Hf. unfold chem_rhs_helper, SO2, H2O2, O3 in *.
    destruct (C67_ions (T_of s i) (h_m s Hp i / M_H / V i) (totals_of (h_m s 3%nat i) 0 0 0 0 (V i))) as (x & Hx & _); [apply h_pos; assumption|].
    pose proof (C68_rates dt (V i) (T_of s i) (h_m s 3%nat i) (h_m s 4%nat i) (h_m s 5%nat i) (h_m s Hp i) x Hdt HV HH (Rlt_le _ _ N1) N2 N3 Hx) as Q.
    cbn zeta in Q. pose proof (h_pos (V i) (h_m s Hp i) HV HH) as Hh.
    rewrite (mass_action_ions _ _ _ _ Hh Hx) in Q. unfold moles, SO2, H2O2, O3 in Q. 
    set (o := O3_rate dt (V i) (T_of s i) (h_m s 3%nat i) (h_m s 5%nat i) (h_m s Hp i)) in *.
    set (p := H2O2_rate dt (V i) (T_of s i) (h_m s 3%nat i) (h_m s 4%nat i) (h_m s 5%nat i) (h_m s Hp i)) in *. clearbody o p.
    set (h := h_m s Hp i / M_H / V i) in *. clearbody h.
    destruct Q as (Q1 & Q2 & Q3 & Q4 & Q5 & Q6 & Q7).
    assert (Hop : 0 < o + p).
    { assert (Ps : 0 < h_m s 3%nat i / (82 / 1000)) by (apply Rdiv_lt_0_compat; lra).
      assert (Px : 0 < hso3 (ions_of (T_of s i) h (totals_of (h_m s 3%nat i) 0 0 0 0 (V i))) /\ 0 < so2 (ions_of (T_of s i) h (totals_of (h_m s 3%nat i) 0 0 0 0 (V i)))
             /\ 0 < so3 (ions_of (T_of s i) h (totals_of (h_m s 3%nat i) 0 0 0 0 (V i)))).
      { unfold ions_of, totals_of; cbn [so2 hso3 so3 tS4]. pose proof (Kt_SO2_pos (T_of s i)) as K1. pose proof (Kt_HSO3_pos (T_of s i)) as K2.
        assert (Pt : 0 < h_m s 3%nat i / M_SO2_H2O / V i) by (apply Rdiv_lt_0_compat; [apply Rdiv_lt_0_compat; [lra|unfold M_SO2_H2O; lra]|lra]).
        set (tt := h_m s 3%nat i / M_SO2_H2O / V i) in *. clearbody tt. set (K := Kt_SO2 (T_of s i)) in *. set (K' := Kt_HSO3 (T_of s i)) in *. clearbody K K'.
        clear - Hh K1 K2 Pt.
        assert (0 < K * h) by (apply Rmult_lt_0_compat; assumption). assert (0 < K * K') by (apply Rmult_lt_0_compat; assumption).
        assert (0 < h * h) by (apply Rmult_lt_0_compat; assumption).
        repeat split; (apply Rdiv_lt_0_compat; [apply Rmult_lt_0_compat; lra|lra]). }
      destruct Px as (P1 & P2 & P3).
      destruct N3 as [N3|N3].
      - assert (0 < o); [|lra]. destruct Q6 as [->|[E|E]].
        + unfold ozone_law. apply Rmult_lt_0_compat; [assumption|]. apply Rmult_lt_0_compat.
          * assert (R1 : 0 < R_temp (T_of s i) R_S_O3_k0 dER_O3_k0) by (apply R_temp_pos; unfold R_S_O3_k0; lra).
            assert (R2 : 0 < R_temp (T_of s i) R_S_O3_k1 dER_O3_k1) by (apply R_temp_pos; unfold R_S_O3_k1; lra).
            assert (R3 : 0 < R_temp (T_of s i) R_S_O3_k2 dER_O3_k2) by (apply R_temp_pos; unfold R_S_O3_k2; lra).
            apply Rplus_lt_0_compat; [apply Rplus_lt_0_compat|]; apply Rmult_lt_0_compat; assumption.
          * apply Rdiv_lt_0_compat; [apply Rdiv_lt_0_compat; lra|assumption].
        + assert (0 < h_m s 5%nat i / (48 / 1000)) by (apply Rdiv_lt_0_compat; lra).
          apply Rmult_lt_reg_r with dt; [assumption|]. rewrite Rmult_0_l, E. assumption.
        + apply Rmult_lt_reg_r with dt; [assumption|]. rewrite Rmult_0_l, E. assumption.
      - rewrite <- N3 in N4. destruct Q7 as [->|[E|E]].
        + assert (0 < peroxide_law (T_of s i) (V i) h (ions_of (T_of s i) h (totals_of (h_m s 3%nat i) 0 0 0 0 (V i))) (h_m s 4%nat i / (34 / 1000) / V i)); [|lra].
          unfold peroxide_law. assert (R1 : 0 < R_temp (T_of s i) R_S_H2O2_k dER_H2O2_k) by (apply R_temp_pos; unfold R_S_H2O2_k; lra).
          assert (R2 : 0 < R_S_H2O2_K) by (unfold R_S_H2O2_K; lra). assert (R3 : 0 < R_S_H2O2_K * h) by (apply Rmult_lt_0_compat; assumption).
          assert (Pc : 0 < h_m s 4%nat i / (34 / 1000) / V i) by (apply Rdiv_lt_0_compat; [apply Rdiv_lt_0_compat; lra|assumption]).
          apply Rmult_lt_0_compat; [assumption|]. apply Rdiv_lt_0_compat; [|lra].
          repeat (apply Rmult_lt_0_compat; [|assumption]); assumption.
        + assert (0 < h_m s 4%nat i / (34 / 1000)) by (apply Rdiv_lt_0_compat; lra).
          assert (0 < p); [|lra]. apply Rmult_lt_reg_r with dt; [assumption|]. rewrite Rmult_0_l, E. assumption.
        + apply Rmult_lt_reg_r with dt; [assumption|]. rewrite Rmult_0_l, E. assumption. }
    unfold M_SO2_H2O. lra. }
  split; [exact A|].
  destruct (C68_stoichiometry dt rho V flag s i Hr) as (B & _). cbn zeta in B. unfold moles, SO2, S_VI in *. lra.
Qed.

(** instance: a droplet of 10 micrometres of pH 5 with some sulphur(IV) and hydrogen peroxide, one second: sulphate is formed *)
Theorem C68_instance :
  let V := fun _ : nat => chem_vol (/ 10 ^ 10) in
  let s := mk_chst 1 (fun _ => 0%nat) (fun _ => 1000%N) (fun _ => / 10 ^ 10) (fun _ => / 10 ^ 21)
    (fun k i => if (k =? Hp)%nat then / 100 * V i * M_H else if ((k =? SO2) || (k =? H2O2))%nat then / 10 ^ 18 else 0)
    (fun _ _ => 0) (fun _ _ => 0) (fun _ => 1) (fun _ => 1) (fun _ => 280) in
  h_m s S_VI 0 < h_m (chem_react 1 1800 V (fun _ => true) s) S_VI 0.
Proof.
  intros V s.
  assert (HV : 0 < V 0%nat) by (unfold V; rewrite acid_V; pose proof PI_gt_2; apply Rmult_lt_0_compat; lra).
  clearbody V. pose proof M_H_pos.
  apply (C68_progress 1 1800 V (fun _ => true) s 0); unfold s; cbn [h_m Nat.eqb SO2 H2O2 O3 Hp orb]; try lra; try reflexivity.
  apply Rmult_lt_0_compat; [lra|assumption].
Qed.

Print Assumptions C68_rates.
Print Assumptions C68_consistent.
Print Assumptions C68_bounds.
Print Assumptions C68_stoichiometry.
Print Assumptions C68_progress.
Print Assumptions C68_instance.
