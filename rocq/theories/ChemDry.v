(** * C70: composition of dry particles: initial ammonium bisulphate, growth by the sulphate formed *)
From Coq Require Import List Arith NArith ZArith Lia Reals Lra Bool.
From Verif Require Import Base BaseProofs ThermoModel ThermoProofs TomsModel TomsProps MomsModel InitModel MomsProofs ChemModel ChemHenry ChemDissoc ChemReact ChemStep CondPassProofs HskpngModel.
Import ListNotations.
Local Open Scope R_scope.

(** ** Specification *)
(** mass of a dry particle of density rho *)
Definition dry_mass (rho rd3 : R) : R := rho * (4 / 3 * PI * rd3).
(** moles of N(-III), S(VI) and H+ in given masses (as NH3*H2O, H2SO4, H) *)
Definition mol_N (m : R) : R := m / (35 / 1000).
Definition mol_S (m : R) : R := m / (98 / 1000).
Definition mol_H (m : R) : R := m / (1 / 1000).

(** C70: a new droplet holds q moles each of N(-III), S(VI) and H+ and nothing else; NH4HSO4 (115 g/mol) made of them weighs as much as
    the dry particle *)
Theorem C70_initial rho rd3 :
  let m := chem_init rho rd3 in
  let q := mol_S (m S_VI) in
  q * (115 / 1000) = dry_mass rho rd3 /\ mol_N (m NH3) = q /\ mol_H (m Hp) = q /\
  (forall k, k <> NH3 -> k <> S_VI -> k <> Hp -> m k = 0).
Proof.
  intros m q. unfold q, m, mol_S, mol_N, mol_H, dry_mass, NH3, S_VI, Hp, chem_init, M_NH3_H2O, M_NH4, M_HSO4, M_H, M_H2SO4.
  split; [lra|]. split; [lra|]. split; [lra|].
  intros k H1 H2 H3. do 8 (destruct k as [|k]; [try reflexivity; lia|]). reflexivity.
Qed.

(** ** Growth *)
Lemma react_dry dt rho V flag s i : rho <> 0 ->
  dry_mass rho (h_rd3 (chem_react dt rho V flag s) i) - h_m (chem_react dt rho V flag s) S_VI i = dry_mass rho (h_rd3 s i) - h_m s S_VI i.
Proof.
  intros Hr. destruct (C68_stoichiometry dt rho V flag s i Hr) as (_ & _ & A & _). cbn zeta in A. unfold dry_mass. lra.
Qed.

Lemma substep_dry o sijk sid k s s' i :
  chem_substep o sijk sid k s = Some s' -> sorted_pop (h_np s) (h_ijk s) sijk sid -> phys o s -> (0 < ho_sstp o)%nat -> nn s -> ho_rho o <> 0 ->
  nn s' /\ h_m s S_VI i <= h_m s' S_VI i /\
  dry_mass (ho_rho o) (h_rd3 s' i) - h_m s' S_VI i = dry_mass (ho_rho o) (h_rd3 s i) - h_m s S_VI i.
Proof.
  intros H Hs (P1 & P2 & P3 & P4 & P5 & P6 & P7) Hn Hnn Hrho.
  unfold chem_substep in H. destruct (ho_switch o); cbn [negb] in H; [|discriminate].
  assert (Hdt : 0 < ho_dt o / INR (ho_sstp o)) by (apply Rdiv_lt_0_compat; [exact P4|apply lt_0_INR; lia]).
  assert (HV : forall i, 0 < chem_vol_ante s i) by (intros j; apply vol_pos, P1).
  assert (Hfl : forall i, chem_flag_ante s (chem_vol_ante s) i = true -> 0 < h_m s Hp i) by (intros j; apply flag_H; exact Hnn).
  set (V := chem_vol_ante s) in *. set (flag := chem_flag_ante s V) in *. set (dt := ho_dt o / INR (ho_sstp o)) in *. clearbody V flag dt.
  pose (s1 := if ho_dsl o then chem_cleanup (chem_henry dt V flag sijk sid (sstp_step_chem (ho_allow o) (ho_var_rho o) (ho_sstp o) k s)) else s).
  pose (s2 := if ho_dsc o then chem_cleanup (chem_dissoc (ho_fp o) (ho_fps o) V flag s1) else s1).
  pose (s3 := if ho_rct o then chem_cleanup (chem_react dt (ho_rho o) V flag s2) else s2).
  assert (E3 : s' = s3) by (injection H as <-; reflexivity). clear H.
  assert (A1 : nn s1 /\ (forall i, flag i = true -> 0 < h_m s1 Hp i) /\ h_m s1 S_VI i = h_m s S_VI i /\ h_rd3 s1 = h_rd3 s).
  { unfold s1. destruct (ho_dsl o); [|split; [exact Hnn|split; [exact Hfl|split; reflexivity]]].
    destruct (sstp_step_spec (ho_allow o) (ho_var_rho o) (ho_sstp o) k s) as (F & M & Rd & _).
    set (t := sstp_step_chem (ho_allow o) (ho_var_rho o) (ho_sstp o) k s) in *. clearbody t. pose proof F as (Q1 & Q2 & Q3 & Q4 & Q5 & Q6 & Q7).
    rewrite <- Q1, <- Q2 in Hs.
    assert (He6 : (0 < 6)%nat) by lia.
    destruct (C66_conservation_partial dt V flag sijk sid t 0%nat He6 Hs) as (_ & _ & C & St). cbn zeta in C, St.
    set (u := chem_henry dt V flag sijk sid t) in *. clearbody u. destruct St as (_ & _ & _ & _ & St & _).
    destruct (cleanup_spec u) as (F3 & A3 & T3 & R3 & _ & N & Mk).
    split; [intros j l Hj; apply N; exact Hj|]. split; [|split].
    - intros l Hl. rewrite Mk; rewrite (proj2 (C l)), M; [apply Hfl; exact Hl|left; apply Hfl; exact Hl].
    - rewrite Mk; rewrite (proj1 (C i)), M; [reflexivity|apply Hnn; unfold S_VI; lia].
    - congruence. }
  clearbody s1. destruct A1 as (N1 & H1 & L1 & D1).
  assert (A2 : nn s2 /\ (forall i, flag i = true -> 0 < h_m s2 Hp i) /\ h_m s2 S_VI i = h_m s1 S_VI i /\ h_rd3 s2 = h_rd3 s1).
  { unfold s2. destruct (ho_dsc o); [|split; [exact N1|split; [exact H1|split; reflexivity]]].
    destruct (dissoc_total 0 (ho_fp o) (ho_fps o) V flag s1 0) as (F2 & _ & _ & T2 & M2); [lia|].
    assert (HH : forall i, flag i = true -> 0 < h_m (chem_dissoc (ho_fp o) (ho_fps o) V flag s1) Hp i).
    { intros l Hi. unfold chem_dissoc; cbn [h_m set_m]. unfold upd. rewrite Nat.eqb_refl, Hi.
      destruct (electroneutral_pos (ho_fp o) (ho_fps o) (h_m s1 SO2 l) (h_m s1 CO2 l) (h_m s1 HNO3 l) (h_m s1 NH3 l) (h_m s1 S_VI l) (V l) (T_of s1 l) P5 P6 P7 (HV l)) as (r & -> & Hr); [|exact Hr].
      repeat split; apply N1; unfold SO2, CO2, HNO3, NH3, S_VI; lia. }
    assert (Rd : h_rd3 (chem_dissoc (ho_fp o) (ho_fps o) V flag s1) = h_rd3 s1) by reflexivity.
    set (u := chem_dissoc (ho_fp o) (ho_fps o) V flag s1) in *. clearbody u.
    destruct (cleanup_spec u) as (F3 & A3 & T3 & R3 & _ & N & Mk).
    split; [intros j l Hj; apply N; exact Hj|]. split; [intros l Hl; rewrite Mk; [apply HH; exact Hl|left; apply HH; exact Hl]|].
    split; [|congruence]. rewrite Mk; rewrite M2 by (unfold S_VI, Hp; lia); [reflexivity|apply N1; unfold S_VI; lia]. }
  clearbody s2. destruct A2 as (N2 & H2 & L2 & D2).
  assert (A3 : nn s3 /\ h_m s2 S_VI i <= h_m s3 S_VI i /\ dry_mass (ho_rho o) (h_rd3 s3 i) - h_m s3 S_VI i = dry_mass (ho_rho o) (h_rd3 s2 i) - h_m s2 S_VI i).
  { unfold s3. destruct (ho_rct o); [|split; [exact N2|split; [lra|reflexivity]]].
    pose proof (react_dry dt (ho_rho o) V flag s2 i Hrho) as RD.
    assert (HH : h_m s2 S_VI i <= h_m (chem_react dt (ho_rho o) V flag s2) S_VI i).
    { destruct (C68_stoichiometry dt (ho_rho o) V flag s2 i Hrho) as (_ & _ & _ & _ & _ & _ & _ & _ & _ & U). cbn zeta in U.
      destruct (flag i) eqn:Ef; [|rewrite !(proj1 (U eq_refl)); lra].
      destruct (C68_bounds dt (ho_rho o) V flag s2 i Hdt (HV i) (H2 i Ef)) as (_ & Y2); try (apply N2; unfold SO2, H2O2, O3; lia). exact Y2. }
    set (u := chem_react dt (ho_rho o) V flag s2) in *. clearbody u.
    destruct (cleanup_spec u) as (F4 & A4 & T4 & R4 & _ & N & Mk).
    assert (N6 : 0 <= h_m s2 S_VI i) by (apply N2; unfold S_VI; lia).
    split; [intros j l Hj; apply N; exact Hj|]. rewrite R4, Mk by lra. split; [exact HH|exact RD]. }
  clearbody s3. destruct A3 as (N3 & L3 & D3). subst s'. split; [exact N3|]. rewrite D1 in D2. rewrite D2 in D3. rewrite L2, L1 in *. split; assumption.
Qed.

(** C70: in every step of chemistry the dry mass of each droplet grows by exactly the mass of sulphate formed in it, never shrinks, and
    no amount is negative afterwards *)
Theorem C70_growth o sorts s s' i :
  chem_step o sorts s = Some s' -> sorts_ok s sorts -> phys o s -> nn s -> 0 < ho_rho o ->
  nn s' /\ h_m s S_VI i <= h_m s' S_VI i /\ h_rd3 s i <= h_rd3 s' i /\
  dry_mass (ho_rho o) (h_rd3 s' i) - dry_mass (ho_rho o) (h_rd3 s i) = h_m s' S_VI i - h_m s S_VI i.
Proof.
  intros H Hs Hph Hnn Hrho.
  assert (Q : nn s' /\ h_m s S_VI i <= h_m s' S_VI i /\
    dry_mass (ho_rho o) (h_rd3 s' i) - h_m s' S_VI i = dry_mass (ho_rho o) (h_rd3 s i) - h_m s S_VI i).
  { unfold chem_step in H. destruct (ho_dsl o || ho_dsc o || ho_rct o); [|injection H as <-; split; [exact Hnn|split; [lra|reflexivity]]].
    destruct (loop_trajectory o sorts _ _ _ _ H) as (st & E0 & E1 & T). cbn [Nat.add] in *.
    assert (HT : trajectory o sorts s (ho_sstp o) st) by (split; [exact E0|intros k Hk; apply T; lia]).
    pose proof Hph as (P1 & P2 & P3 & _).
    assert (Inv : forall k, (k <= ho_sstp o)%nat -> nn (st k) /\ h_m s S_VI i <= h_m (st k) S_VI i /\
      dry_mass (ho_rho o) (h_rd3 (st k) i) - h_m (st k) S_VI i = dry_mass (ho_rho o) (h_rd3 s i) - h_m s S_VI i).
    { induction k as [|k IH]; intros Hk; [rewrite E0; split; [exact Hnn|split; [lra|reflexivity]]|].
      destruct (IH ltac:(lia)) as (I1 & I2 & I3).
      pose proof (trajectory_frame o sorts s _ st HT Hs P3 k ltac:(lia)) as (Q1 & Q2 & Q3 & Q4 & Q5 & Q6 & Q7).
      assert (H1 : sorted_pop (h_np (st k)) (h_ijk (st k)) (fst (sorts k)) (snd (sorts k))) by (rewrite Q1, Q2; apply Hs).
      assert (Hph' : phys o (st k)) by (unfold phys in *; rewrite Q4, Q5, Q6, Q7; exact Hph).
      assert (Hr0 : ho_rho o <> 0) by lra.
      destruct (substep_dry o _ _ k (st k) (st (S k)) i (T k ltac:(lia)) H1 Hph' ltac:(lia) I1 Hr0) as (J1 & J2 & J3).
      split; [exact J1|]. split; lra. }
    rewrite <- E1. apply Inv. lia. }
  destruct Q as (Q1 & Q2 & Q3). split; [exact Q1|]. split; [exact Q2|].
  split; [|lra]. unfold dry_mass in Q3. pose proof PI_RGT_0.
  assert (0 < ho_rho o * (4 / 3 * PI)) by (apply Rmult_lt_0_compat; lra).
  assert (ho_rho o * (4 / 3 * PI) * h_rd3 s i <= ho_rho o * (4 / 3 * PI) * h_rd3 s' i) by lra.
  apply Rmult_le_reg_l with (ho_rho o * (4 / 3 * PI)); assumption.
Qed.

(** ** Histories without collisions *)
(** anything else in between (condensation, motion, a new sort, new gas and thermodynamic fields given by the host model) may change all but the
    dry radii and the composition; steps of chemistry may have any options but the density of dry matter *)
Inductive history (rho : R) : chst -> chst -> Prop :=
| hist_start s : history rho s s
| hist_other s t u : history rho s t -> h_rd3 u = h_rd3 t -> h_m u = h_m t -> history rho s u
| hist_chem o sorts s t u : history rho s t -> sorts_ok t sorts -> phys o t -> ho_rho o = rho -> chem_step o sorts t = Some u -> history rho s u.

(** C70: at any time the dry mass of a droplet that started as ammonium bisulphate of dry radius cubed r0 is that of its sulphate (as H2SO4) plus
    17/115 of the initial mass (ammonia): at least the initial mass *)
Theorem C70_history rho s u i :
  0 < rho -> history rho s u -> nn s -> h_m s S_VI i = chem_init rho (h_rd3 s i) S_VI ->
  dry_mass rho (h_rd3 u i) = h_m u S_VI i + 17 / 115 * dry_mass rho (h_rd3 s i) /\ h_rd3 s i <= h_rd3 u i /\ nn u.
Proof.
  intros Hrho H Hnn E0.
  assert (Q : nn u /\ h_rd3 s i <= h_rd3 u i /\ dry_mass rho (h_rd3 u i) - h_m u S_VI i = dry_mass rho (h_rd3 s i) - h_m s S_VI i).
  { induction H as [s|s t u Ht IH Er Em|o sorts s t u Ht IH Hs Hph Eo Ec].
    - split; [exact Hnn|]. split; [lra|reflexivity].
    - destruct (IH Hnn E0) as (A & B & C). unfold nn. rewrite Er, Em. split; [exact A|]. split; assumption.
    - destruct (IH Hnn E0) as (A & B & C). subst rho. destruct (C70_growth o sorts t u i Ec Hs Hph A Hrho) as (J1 & _ & J3 & J4).
      split; [exact J1|]. split; lra. }
  destruct Q as (Q1 & Q2 & Q3). split; [|split; assumption].
  destruct (C70_initial rho (h_rd3 s i)) as (I & _). cbn zeta in I. rewrite <- E0 in I. unfold mol_S in I. lra.
Qed.

(** instance: a droplet of 10 micrometres on a dry particle of 0.1 micrometre, hydrogen peroxide and sulphur dioxide in the air, every process on *)
Definition dry_s : chst := {|
  h_np := 1; h_ijk := fun _ => 0%nat; h_n := fun _ => 1000%N; h_rw2 := fun _ => / 10 ^ 10; h_rd3 := fun _ => / 10 ^ 21;
  h_m := fun k _ => chem_init 1800 (/ 10 ^ 21) k;
  h_amb := fun g _ => if ((g =? SO2) || (g =? H2O2))%nat then 1 / 10 ^ 9 else 0; h_tmp := fun _ _ => 0; h_rhod := fun _ => 1; h_dv := fun _ => 1; h_T := fun _ => 280 |}.
Theorem C70_instance : exists u, history 1800 dry_s u /\ chem_step eq_o eq_sorts dry_s = Some u /\ nn dry_s /\ h_m dry_s S_VI 0 = chem_init 1800 (h_rd3 dry_s 0) S_VI.
Proof.
  assert (Hr : 0 < / 10 ^ 10) by (apply Rinv_0_lt_compat; apply pow_lt; lra).
  assert (Hs : sorts_ok dry_s eq_sorts).
  { intros k. exists false. unfold sort_helper, sort_by_key_result. cbn. split; [reflexivity|]. split; [reflexivity|]. split; [reflexivity|]. repeat constructor. }
  assert (Hph : phys eq_o dry_s).
  { unfold phys; cbn [dry_s eq_o h_rw2 h_T h_rhod h_dv ho_dt ho_fp ho_fps]. repeat (split; [intros; try split; lra|]).
    split; [apply fp_double_ok|]. split; [apply fp_single_ok|]. cbn [fp_double fp_single feps]. lra. }
  destruct (proj2 (proj2 (C69_switch eq_o eq_sorts dry_s)) eq_refl) as (u & E). exists u.
  split; [eapply (hist_chem 1800 eq_o eq_sorts); [apply hist_start|exact Hs|exact Hph|reflexivity|exact E]|].
  split; [exact E|]. split; [|reflexivity].
  intros k i Hk. cbn [dry_s h_m]. pose proof PI_RGT_0.
  assert (P : 0 < 4 / 3 * PI * 1800 * / 10 ^ 21) by (repeat (apply Rmult_lt_0_compat; [|lra]); lra).
  unfold chem_init, M_NH3_H2O, M_NH4, M_HSO4, M_H, M_H2SO4. set (m := 4 / 3 * PI * 1800 * / 10 ^ 21) in *. clearbody m.
  do 8 (destruct k as [|k]; [try lra; try (apply Rmult_le_pos; lra)|]). lia.
Qed.

Print Assumptions C70_initial.
Print Assumptions C70_growth.
Print Assumptions C70_history.
Print Assumptions C70_instance.
