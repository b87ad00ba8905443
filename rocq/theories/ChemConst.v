(** * Constants of the chemistry against tables in the units of the literature (litres, atmospheres, grams) and atomic masses *)
From Coq Require Import List Arith NArith ZArith Lia Reals Lra Bool.
From Verif Require Import Base BaseProofs ThermoModel TomsModel MomsModel InitModel ChemModel ChemHenry.
Import ListNotations.
Local Open Scope R_scope.

(** ** Specification: integer atomic masses (g/mol); a formula is a list of numbers of atoms *)
Record formula := { fH : nat; fC : nat; fN : nat; fO : nat; fS : nat }.
Definition grams (f : formula) : R := INR (fH f) * 1 + INR (fC f) * 12 + INR (fN f) * 14 + INR (fO f) * 16 + INR (fS f) * 32.
Definition water := {| fH := 2; fC := 0; fN := 0; fO := 1; fS := 0 |}.
Definition gas_formula (g : nat) : formula :=
  match g with
  | 0 => {| fH := 1; fC := 0; fN := 1; fO := 3; fS := 0 |} (* HNO3 *)
  | 1 => {| fH := 3; fC := 0; fN := 1; fO := 0; fS := 0 |} (* NH3 *)
  | 2 => {| fH := 0; fC := 1; fN := 0; fO := 2; fS := 0 |} (* CO2 *)
  | 3 => {| fH := 0; fC := 0; fN := 0; fO := 2; fS := 1 |} (* SO2 *)
  | 4 => {| fH := 2; fC := 0; fN := 0; fO := 2; fS := 0 |} (* H2O2 *)
  | _ => {| fH := 0; fC := 0; fN := 0; fO := 3; fS := 0 |} (* O3 *)
  end.
(** dissolved as a hydrate *)
Definition hydrated (g : nat) : bool := match g with 1 | 2 | 3 => true | _ => false end.
(** Henry's constants at 298 K in mol/l/atm, temperature coefficients (K), diffusivities (cm2/s), accommodation coefficients *)
Definition henry_table (g : nat) : R * R * R * R :=
  match g with
  | 0 => (210000, 8700, 6525 / 10000, 5 / 100)
  | 1 => (62, 4100, 1978 / 10000, 5 / 100)
  | 2 => (34 / 1000, 2440, 1381 / 10000, 5 / 100)
  | 3 => (123 / 100, 3150, 1089 / 10000, 35 / 1000)
  | 4 => (74500, 7300, 87 / 100, 18 / 1000)
  | _ => (113 / 10000, 2540, 1444 / 10000, 53 / 100000)
  end.
(** a quantity that is A at 298 K and follows the van 't Hoff / Arrhenius law with temperature coefficient b: d(ln k)/d(1/T) = b *)
Definition vant_Hoff (A b : R) (k : R -> R) : Prop :=
  k 298 = A /\ forall T1 T2, ln (k T2) - ln (k T1) = b * (1 / T2 - 1 / T1) /\ 0 < k T1.
Lemma vant_Hoff_exp A b : 0 < A -> vant_Hoff A b (fun T => A * exp (b * (1 / T - 1 / 298))).
Proof.
  intros HA. split.
  - replace (b * (1 / 298 - 1 / 298)) with 0 by lra. rewrite exp_0. lra.
  - intros T1 T2. split; [|apply Rmult_lt_0_compat; [exact HA|apply exp_pos]].
    rewrite !ln_mult by (try exact HA; apply exp_pos). rewrite !ln_exp. ring.
Qed.
(** litre = 1/1000 m3, atm = 101325 Pa *)
Definition per_litre (x : R) : R := x * 1000.

(** C66: molar masses from formulae; Henry's constants, diffusivities, accommodation coefficients as in the table *)
Theorem C66_constants g : (g < 6)%nat ->
  M_gas_ g = grams (gas_formula g) / 1000 /\
  M_aq_ g = (grams (gas_formula g) + (if hydrated g then grams water else 0)) / 1000 /\
  (let '(H, b, D, ac) := henry_table g in
   vant_Hoff (per_litre H / 101325) b (fun T => H_temp T (H_ g) (dHR_ g)) /\ D_ g = D / 10000 /\ ac_ g = ac).
Proof.
  intros Hg.
  assert (E : forall x y b, x = y -> 0 < x -> vant_Hoff x b (fun T => H_temp T y b)).
  { intros x y b <- Hx. apply vant_Hoff_exp. exact Hx. }
  do 6 (destruct g as [|g]; [split; [|split; [|split; [|split]]];
    cbn [henry_table gas_formula hydrated M_gas_ M_aq_ D_ ac_ H_ dHR_ fst snd];
    unfold grams, water, M_HNO3, M_NH3, M_CO2, M_SO2, M_H2O2, M_O3, M_NH3_H2O, M_CO2_H2O, M_SO2_H2O;
    cbn [fH fC fN fO fS INR]; try lra; apply E; unfold per_litre, p_stp; lra|]).
  lia.
Qed.

(** C67: dissociation constants (mol/l) at 298 K and their temperature coefficients; ionic product of water 1e-14 mol2/l2 (not corrected) *)
Theorem C67_constants :
  K_H2O = per_litre (per_litre (1 / 10 ^ 14)) /\
  vant_Hoff (per_litre (13 / 10 ^ 3)) 1960 Kt_SO2 /\ vant_Hoff (per_litre (66 / 10 ^ 9)) 1500 Kt_HSO3 /\
  vant_Hoff (per_litre (12 / 10 ^ 3)) 2720 Kt_HSO4 /\
  vant_Hoff (per_litre (43 / 10 ^ 8)) (-1000) Kt_CO2 /\ vant_Hoff (per_litre (468 / 10 ^ 13)) (-1760) Kt_HCO3 /\
  vant_Hoff (per_litre (17 / 10 ^ 6)) (-450) Kt_NH3 /\ vant_Hoff (per_litre (154 / 10)) 8700 Kt_HNO3 /\
  M_H = 1 / 1000 /\ M_H2SO4 = grams {| fH := 2; fC := 0; fN := 0; fO := 4; fS := 1 |} / 1000 /\
  M_NH4 = grams {| fH := 4; fC := 0; fN := 1; fO := 0; fS := 0 |} / 1000 /\
  M_HSO4 = grams {| fH := 1; fC := 0; fN := 0; fO := 4; fS := 1 |} / 1000.
Proof.
  assert (E : forall x y b, x = y -> 0 < x -> vant_Hoff x b (fun T => K_temp T y b)).
  { intros x y b <- Hx. apply vant_Hoff_exp. exact Hx. }
  unfold Kt_SO2, Kt_HSO3, Kt_HSO4, Kt_CO2, Kt_HCO3, Kt_NH3, Kt_HNO3, dKR_SO2, dKR_HSO3, dKR_HSO4, dKR_CO2, dKR_HCO3, dKR_NH3, dKR_HNO3.
  split; [unfold K_H2O, per_litre; lra|].
  do 7 (split; [apply E; [unfold per_litre, K_SO2, K_HSO3, K_HSO4, K_CO2, K_HCO3, K_NH3, K_HNO3; lra|unfold per_litre; lra]|]).
  unfold M_H, M_H2SO4, M_NH4, M_HSO4, grams; cbn [fH fC fN fO fS INR]. repeat split; lra.
Qed.

(** C68: constants of the rate laws, per (mol/l) or (mol/l)^2 *)
Theorem C68_constants :
  vant_Hoff (24000 / 1000) 0 (fun T => R_temp T R_S_O3_k0 dER_O3_k0) /\
  vant_Hoff (370000 / 1000) (-5530) (fun T => R_temp T R_S_O3_k1 dER_O3_k1) /\
  vant_Hoff (15 * 10 ^ 8 / 1000) (-5280) (fun T => R_temp T R_S_O3_k2 dER_O3_k2) /\
  vant_Hoff (75 * 10 ^ 6 / 1000 / 1000) (-4430) (fun T => R_temp T R_S_H2O2_k dER_H2O2_k) /\ R_S_H2O2_K = 13 / 1000.
Proof.
  assert (E : forall x y b c, x = y -> b = c -> 0 < x -> vant_Hoff x b (fun T => R_temp T y c)).
  { intros x y b c <- <- Hx. apply vant_Hoff_exp. exact Hx. }
  do 4 (split; [apply E; [unfold R_S_O3_k0, R_S_O3_k1, R_S_O3_k2, R_S_H2O2_k; lra|unfold dER_O3_k0, dER_O3_k1, dER_O3_k2, dER_H2O2_k; lra|lra]|]).
  unfold R_S_H2O2_K. lra.
Qed.

Print Assumptions C66_constants.
Print Assumptions C67_constants.
Print Assumptions C68_constants.
