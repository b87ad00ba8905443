(** * C66: uptake of trace gases by droplets *)
From Coq Require Import List Arith NArith ZArith Lia Reals Lra Bool Permutation Sorted.
From Verif Require Import Base BaseProofs HskpngModel HskpngProofs ThermoModel ThermoProofs TomsModel MomsModel MomsProofs InitModel CondPassProofs ChemModel.
Import ListNotations.
Local Open Scope R_scope.

(** ** Specification *)
(** amount (mol) of gas [g] in the air of cell [c], and of the dissolved species in its droplets *)
Definition air_mol (s : chst) (g c : nat) : R := h_amb s g c * (h_rhod s c * h_dv s c) / M_gas_ g.
Definition drops_mol (s : chst) (g c : nat) : R :=
  cellsum (h_np s) (h_ijk s) (fun i => N2R (h_n s i) * h_m s g i) c / M_aq_ g.
(** partial pressure of a gas with mass mixing ratio [c]; molar concentration of dissolved species *)
Definition gas_pressure (g : nat) (c rhod T : R) : R := c * rhod / M_gas_ g * kaBoNA * T.
Definition dissolved (g : nat) (m V : R) : R := m / M_aq_ g / V.
(** [tot]: concentration of all dissolved forms in equilibrium with the partial pressure [p] in water with H+ concentration [h]:
    Henry's law for the undissociated form and the laws of mass action for its ions *)
Definition henry_equilibrium (g : nat) (T h p tot : R) : Prop :=
  exists a, a = H_temp T (H_ g) (dHR_ g) * p /\
  match g with
  | 3 => exists hso3 so3, hso3 * h = Kt_SO2 T * a /\ so3 * h = Kt_HSO3 T * hso3 /\ tot = a + hso3 + so3
  | 2 => exists hco3 co3, hco3 * h = Kt_CO2 T * a /\ co3 * h = Kt_HCO3 T * hco3 /\ tot = a + hco3 + co3
  | 0 => exists no3, no3 * h = Kt_HNO3 T * a /\ tot = a + no3
  | 1 => exists oh nh4, oh * h = K_H2O /\ nh4 * oh = Kt_NH3 T * a /\ tot = a + nh4
  | _ => tot = a
  end.

(** ** One droplet *)
Lemma K_temp_pos T K d : 0 < K -> 0 < K_temp T K d.
Proof. intros. unfold K_temp. apply Rmult_lt_0_compat; [assumption|apply exp_pos]. Qed.
Lemma Kt_SO2_pos T : 0 < Kt_SO2 T. Proof. apply K_temp_pos; unfold K_SO2; lra. Qed.
Lemma Kt_HSO3_pos T : 0 < Kt_HSO3 T. Proof. apply K_temp_pos; unfold K_HSO3; lra. Qed.
Lemma Kt_HSO4_pos T : 0 < Kt_HSO4 T. Proof. apply K_temp_pos; unfold K_HSO4; lra. Qed.
Lemma Kt_CO2_pos T : 0 < Kt_CO2 T. Proof. apply K_temp_pos; unfold K_CO2; lra. Qed.
Lemma Kt_HCO3_pos T : 0 < Kt_HCO3 T. Proof. apply K_temp_pos; unfold K_HCO3; lra. Qed.
Lemma Kt_NH3_pos T : 0 < Kt_NH3 T. Proof. apply K_temp_pos; unfold K_NH3; lra. Qed.
Lemma Kt_HNO3_pos T : 0 < Kt_HNO3 T. Proof. apply K_temp_pos; unfold K_HNO3; lra. Qed.
Lemma K_H2O_pos : 0 < K_H2O. Proof. unfold K_H2O; lra. Qed.
Lemma M_H_pos : 0 < M_H. Proof. unfold M_H; lra. Qed.
Lemma H_pos g : 0 < H_ g.
Proof. unfold H_, p_stp. do 6 (destruct g as [|g]; [lra|]). lra. Qed.
Lemma H_temp_pos T g : 0 < H_temp T (H_ g) (dHR_ g).
Proof. unfold H_temp. apply Rmult_lt_0_compat; [apply H_pos|apply exp_pos]. Qed.
Lemma M_gas_pos g : 0 < M_gas_ g.
Proof. unfold M_gas_, M_HNO3, M_NH3, M_CO2, M_SO2, M_H2O2, M_O3. do 6 (destruct g as [|g]; [lra|]). lra. Qed.
Lemma M_aq_pos g : 0 < M_aq_ g.
Proof. unfold M_aq_, M_HNO3, M_NH3_H2O, M_CO2_H2O, M_SO2_H2O, M_H2O2, M_O3. do 6 (destruct g as [|g]; [lra|]). lra. Qed.
Lemma D_pos g : 0 < D_ g.
Proof. unfold D_. do 6 (destruct g as [|g]; [lra|]). lra. Qed.
Lemma ac_pos g : 0 < ac_ g.
Proof. unfold ac_. do 6 (destruct g as [|g]; [lra|]). lra. Qed.
Lemma kaBoNA_pos : 0 < kaBoNA. Proof. unfold kaBoNA; lra. Qed.

Lemma molec_vel_pos T g : 0 < T -> 0 < molec_vel T (M_gas_ g).
Proof.
  intros HT. unfold molec_vel. apply sqrt_lt_R0. pose proof PI_RGT_0. pose proof kaBoNA_pos. pose proof (M_gas_pos g).
  apply Rmult_lt_0_compat; [apply Rdiv_lt_0_compat; lra|]. apply Rdiv_lt_0_compat; [nra|assumption].
Qed.
Lemma mass_trans_den_pos rw2 g T : 0 < rw2 -> 0 < T ->
  0 < rw2 / 3 / D_ g + 4 / 3 / ac_ g * sqrt rw2 / molec_vel T (M_gas_ g).
Proof.
  intros Hr HT. pose proof (D_pos g). pose proof (ac_pos g). pose proof (molec_vel_pos T g HT).
  pose proof (sqrt_lt_R0 _ Hr).
  apply Rplus_lt_0_compat.
  - apply Rdiv_lt_0_compat; lra.
  - apply Rdiv_lt_0_compat; [|assumption]. apply Rmult_lt_0_compat; [|assumption]. apply Rdiv_lt_0_compat; lra.
Qed.
Lemma mass_trans_pos rw2 g T : 0 < rw2 -> 0 < T -> 0 < mass_trans rw2 (D_ g) (ac_ g) T (M_gas_ g).
Proof. intros Hr HT. unfold mass_trans. apply Rdiv_lt_0_compat; [lra|apply mass_trans_den_pos; assumption]. Qed.

Lemma Henry_eff_pos g T h : 0 < h -> 0 < Henry_eff g T h.
Proof.
  intros Hh.
  pose proof (Kt_SO2_pos T). pose proof (Kt_HSO3_pos T). pose proof (Kt_CO2_pos T). pose proof (Kt_HCO3_pos T).
  pose proof (Kt_HNO3_pos T). pose proof (Kt_NH3_pos T). pose proof K_H2O_pos.
  assert (A : forall a b, 0 < a -> 0 < b -> 0 < 1 + a / h + a * b / h / h).
  { intros a b Ha Hb. assert (0 < a / h) by (apply Rdiv_lt_0_compat; assumption).
    assert (0 < a * b / h / h) by (apply Rdiv_lt_0_compat; [apply Rdiv_lt_0_compat; [nra|]|]; assumption). lra. }
  unfold Henry_eff.
  destruct g as [|[|[|[|g]]]]; try apply H_temp_pos; (apply Rmult_lt_0_compat; [apply H_temp_pos|]); try (apply A; assumption).
  - assert (0 < Kt_HNO3 T / h) by (apply Rdiv_lt_0_compat; assumption). lra.
  - assert (0 < Kt_NH3 T / K_H2O) by (apply Rdiv_lt_0_compat; assumption). nra.
Qed.

Lemma henry_equilibrium_iff g T h p tot : 0 < h -> (g < 6)%nat ->
  (henry_equilibrium g T h p tot <-> tot = Henry_eff g T h * p).
Proof.
  intros Hh Hg.
  assert (Hh' : h <> 0) by lra. pose proof K_H2O_pos. assert (K_H2O <> 0) by lra.
  unfold henry_equilibrium, Henry_eff. destruct g as [|[|[|[|[|[|g]]]]]]; try lia.
  - split.
    + intros (a & -> & x & Hx & ->). assert (x = Kt_HNO3 T * (H_temp T (H_ 0) (dHR_ 0) * p) / h) by (rewrite <- Hx; field; assumption).
      subst x. field. assumption.
    + intros ->. eexists; split; [reflexivity|]. exists (Kt_HNO3 T * (H_temp T (H_ 0) (dHR_ 0) * p) / h).
      split; field; assumption.
  - split.
    + intros (a & -> & oh & x & Ho & Hx & ->).
      assert (Ho' : oh = K_H2O / h) by (rewrite <- Ho; field; assumption). subst oh.
      assert (x = Kt_NH3 T * (H_temp T (H_ 1) (dHR_ 1) * p) * h / K_H2O) by (rewrite <- Hx; field; split; assumption).
      subst x. field. assumption.
    + intros ->. eexists; split; [reflexivity|]. exists (K_H2O / h), (Kt_NH3 T * (H_temp T (H_ 1) (dHR_ 1) * p) * h / K_H2O).
      split; [field; assumption|]. split; field; try (split; assumption); assumption.
  - split.
    + intros (a & -> & x & y & Hx & Hy & ->).
      assert (x = Kt_CO2 T * (H_temp T (H_ 2) (dHR_ 2) * p) / h) by (rewrite <- Hx; field; assumption).
      assert (y = Kt_HCO3 T * x / h) by (rewrite <- Hy; field; assumption). subst y x. field. assumption.
    + intros ->. eexists; split; [reflexivity|].
      exists (Kt_CO2 T * (H_temp T (H_ 2) (dHR_ 2) * p) / h), (Kt_HCO3 T * (Kt_CO2 T * (H_temp T (H_ 2) (dHR_ 2) * p) / h) / h).
      split; [field; assumption|]. split; field; assumption.
  - split.
    + intros (a & -> & x & y & Hx & Hy & ->).
      assert (x = Kt_SO2 T * (H_temp T (H_ 3) (dHR_ 3) * p) / h) by (rewrite <- Hx; field; assumption).
      assert (y = Kt_HSO3 T * x / h) by (rewrite <- Hy; field; assumption). subst y x. field. assumption.
    + intros ->. eexists; split; [reflexivity|].
      exists (Kt_SO2 T * (H_temp T (H_ 3) (dHR_ 3) * p) / h), (Kt_HSO3 T * (Kt_SO2 T * (H_temp T (H_ 3) (dHR_ 3) * p) / h) / h).
      split; [field; assumption|]. split; field; assumption.
  - split; [intros (a & -> & ->); reflexivity|intros ->; eexists; split; reflexivity].
  - split; [intros (a & -> & ->); reflexivity|intros ->; eexists; split; reflexivity].
Qed.

(** C66, one droplet: the new concentration solves the mass transfer equation implicitly, the flux being driven by the difference
    between the partial pressure in the air and that in equilibrium with the NEW concentration, with the transfer coefficient
    1/k = r^2/(3 D) + 4 r / (3 alpha v); it lies between the old and the equilibrium concentration (no overshoot) and is not negative. *)
Theorem C66_droplet g dt V T c m r rhod mH tot :
  (g < 6)%nat -> 0 < dt -> 0 < V -> 0 < T -> 0 < r -> 0 < mH -> 0 <= m -> 0 <= c -> 0 <= rhod ->
  let m' := chem_Henry_fun g dt V T c m (r * r) rhod mH in
  let h := mH / M_H / V in
  let p := gas_pressure g c rhod T in
  henry_equilibrium g T h p tot ->
  (exists k p_new, / k = r * r / (3 * D_ g) + 4 * r / (3 * ac_ g * sqrt (8 * kaBoNA * T / (PI * M_gas_ g))) /\
     henry_equilibrium g T h p_new (dissolved g m' V) /\
     dissolved g m' V = dissolved g m V + dt * k * (p - p_new) / (kaBoNA * T)) /\
  0 <= m' /\
  (dissolved g m V <= tot -> dissolved g m V <= dissolved g m' V <= tot) /\
  (tot <= dissolved g m V -> tot <= dissolved g m' V <= dissolved g m V) /\
  (dissolved g m V <> tot -> dissolved g m' V <> dissolved g m V /\ dissolved g m' V <> tot).
Proof.
  intros Hg Hdt HV HT Hr HmH Hm Hc Hrho m' h p Heq.
  assert (Hh : 0 < h).
  { unfold h. pose proof M_H_pos. apply Rdiv_lt_0_compat; [apply Rdiv_lt_0_compat|]; assumption. }
  assert (Hr2 : 0 < r * r) by nra.
  apply (henry_equilibrium_iff g T h p tot Hh Hg) in Heq.
  pose proof (mass_trans_pos (r * r) g T Hr2 HT) as Hk.
  pose proof (Henry_eff_pos g T h Hh) as HH. pose proof (M_gas_pos g) as HMg. pose proof (M_aq_pos g) as HMa.
  pose proof kaBoNA_pos as HR. pose proof (D_pos g) as HD. pose proof (ac_pos g) as Hac. pose proof (molec_vel_pos T g HT) as Hv.
  assert (Ev : molec_vel T (M_gas_ g) = sqrt (8 * kaBoNA * T / (PI * M_gas_ g))).
  { unfold molec_vel. f_equal. pose proof PI_RGT_0. field. split; lra. }
  assert (Ek : / mass_trans (r * r) (D_ g) (ac_ g) T (M_gas_ g) =
               r * r / (3 * D_ g) + 4 * r / (3 * ac_ g * sqrt (8 * kaBoNA * T / (PI * M_gas_ g)))).
  { rewrite <- Ev. pose proof (mass_trans_den_pos (r * r) g T Hr2 HT) as Hd. unfold mass_trans.
    unfold Rdiv at 1. rewrite Rmult_1_l.
    rewrite Rinv_inv. rewrite sqrt_square by lra. field. split; [|split]; lra. }
  set (k := mass_trans (r * r) (D_ g) (ac_ g) T (M_gas_ g)) in *.
  set (He := Henry_eff g T h) in *.
  set (a := dt * k / (He * kaBoNA * T)).
  assert (HHR : 0 < He * kaBoNA * T) by (apply Rmult_lt_0_compat; [nra|assumption]).
  assert (Ha : 0 < a) by (unfold a; apply Rdiv_lt_0_compat; [nra|assumption]).
  assert (Em : dissolved g m' V = (dissolved g m V + a * tot) / (1 + a)).
  { unfold m', chem_Henry_fun. fold h. fold He k.
    replace (dt * k / He / kaBoNA / T) with a by (unfold a; field; repeat split; lra).
    unfold dissolved. rewrite Heq. unfold p, gas_pressure. unfold a at 2. field. repeat split; try lra. }
  set (C := dissolved g m V) in *. set (C' := dissolved g m' V) in *.
  assert (Hp : 0 <= p).
  { unfold p, gas_pressure. apply Rmult_le_pos; [|lra]. apply Rmult_le_pos; [|lra].
    apply Rle_mult_inv_pos; [apply Rmult_le_pos|]; assumption. }
  assert (Htot : 0 <= tot) by (rewrite Heq; apply Rmult_le_pos; lra).
  assert (HC : 0 <= C).
  { unfold C, dissolved. apply Rle_mult_inv_pos; [apply Rle_mult_inv_pos|]; assumption. }
  assert (HE : C' * (1 + a) = C + a * tot) by (rewrite Em; field; lra).
  assert (Em' : m' = C' * V * M_aq_ g) by (unfold C', dissolved; field; lra).
  split; [|split; [|split; [|split]]].
  - exists k, (C' / He). split; [exact Ek|]. split.
    + apply (henry_equilibrium_iff g T h _ _ Hh Hg). fold He. field. lra.
    + assert (HEp : tot = He * p) by exact Heq.
      assert (dt * k * (p - C' / He) / (kaBoNA * T) = a * (tot - C')).
      { rewrite HEp. unfold a. field. repeat split; lra. }
      rewrite H. lra.
  - rewrite Em'. assert (0 <= C') by (rewrite Em; apply Rle_mult_inv_pos; nra).
    apply Rmult_le_pos; [nra|lra].
  - intros Hle. split; nra.
  - intros Hle. split; nra.
  - intros Hne. split; intros E; apply Hne; nra.
Qed.

(** C66: repeated uptake from air with constant composition converges to equilibrium: after [n] steps the distance is divided by
    (1 + a)^n, with a > 0 independent of the composition of the droplet *)
Theorem C66_converges g dt V T c r rhod mH tot :
  (g < 6)%nat -> 0 < dt -> 0 < V -> 0 < T -> 0 < r -> 0 < mH ->
  henry_equilibrium g T (mH / M_H / V) (gas_pressure g c rhod T) tot ->
  exists a, 0 < a /\ forall m n,
    dissolved g (Nat.iter n (fun m => chem_Henry_fun g dt V T c m (r * r) rhod mH) m) V - tot
    = (dissolved g m V - tot) / (1 + a) ^ n.
Proof.
  intros Hg Hdt HV HT Hr HmH Heq.
  assert (Hh : 0 < mH / M_H / V).
  { pose proof M_H_pos. apply Rdiv_lt_0_compat; [apply Rdiv_lt_0_compat|]; assumption. }
  assert (Hr2 : 0 < r * r) by nra.
  apply (henry_equilibrium_iff g T _ _ tot Hh Hg) in Heq.
  pose proof (mass_trans_pos (r * r) g T Hr2 HT) as Hk.
  pose proof (Henry_eff_pos g T _ Hh) as HH. pose proof (M_gas_pos g) as HMg. pose proof (M_aq_pos g) as HMa.
  pose proof kaBoNA_pos as HR.
  assert (Hst : forall m, chem_Henry_fun g dt V T c m (r * r) rhod mH =
     (m + dt * V * mass_trans (r * r) (D_ g) (ac_ g) T (M_gas_ g) * c * rhod * (M_aq_ g / M_gas_ g)) /
     (1 + dt * mass_trans (r * r) (D_ g) (ac_ g) T (M_gas_ g) / Henry_eff g T (mH / M_H / V) / kaBoNA / T)) by reflexivity.
  set (k := mass_trans (r * r) (D_ g) (ac_ g) T (M_gas_ g)) in *.
  set (He := Henry_eff g T (mH / M_H / V)) in *. clearbody k He.
  set (a := dt * k / (He * kaBoNA * T)).
  assert (HHR : 0 < He * kaBoNA * T) by (apply Rmult_lt_0_compat; [nra|assumption]).
  assert (Ha : 0 < a) by (unfold a; apply Rdiv_lt_0_compat; [nra|assumption]).
  exists a. split; [exact Ha|]. intros m n. induction n as [|n IH].
  - cbn [Nat.iter nat_rect pow]. field.
  - set (F := fun m : R => chem_Henry_fun g dt V T c m (r * r) rhod mH) in *.
    change (Nat.iter (S n) F m) with (F (Nat.iter n F m)).
    set (x := Nat.iter n F m) in *. clearbody x. unfold F. rewrite Hst.
    assert (Hpn : 0 < (1 + a) ^ n) by (apply pow_lt; lra).
    replace (dissolved g _ V - tot) with ((dissolved g x V - tot) / (1 + a)).
    + rewrite IH. cbn [pow]. field. split; lra.
    + replace (dt * k / He / kaBoNA / T) with a by (unfold a; field; repeat split; lra).
      replace (dt * V * k * c * rhod * (M_aq_ g / M_gas_ g)) with (a * tot * V * M_aq_ g).
      * clearbody a. unfold dissolved. field. repeat split; lra.
      * rewrite Heq. unfold a, gas_pressure. field. repeat split; lra.
Qed.

(** ** All droplets *)
Lemma run_sums_keys keys v v' : length keys = length v -> length keys = length v' ->
  map fst (run_sums keys v) = map fst (run_sums keys v').
Proof.
  revert v v'. induction keys as [|k keys IH]; intros [|x v] [|x' v'] H H'; cbn [length] in *; try lia; [reflexivity|].
  specialize (IH v v' ltac:(lia) ltac:(lia)). cbn [run_sums].
  destruct (run_sums keys v) as [|(a, b) l], (run_sums keys v') as [|(a', b') l']; cbn [map fst] in IH; try discriminate; [reflexivity|].
  injection IH as -> IH. destruct (Nat.eqb k a'); cbn [map fst]; congruence.
Qed.

Lemma apply_pairs (F : nat -> R -> R -> R -> R) old new base c :
  map fst old = map fst new -> NoDup (map fst new) ->
  fold_left (fun acc on => upd acc (fst (snd on)) (F (fst (snd on)) (snd (snd on)) (snd (fst on)) (acc (fst (snd on))))) (combine old new) base c
  = match lookup c old, lookup c new with Some a, Some b => F c b a (base c) | _, _ => base c end.
Proof.
  revert old base. induction new as [|(k, b) new IH]; intros [|(k0, a) old] base E ND; cbn [map fst] in E; try discriminate; [reflexivity|].
  injection E as -> E. cbn [combine fold_left fst snd lookup]. cbn [map fst] in ND. inversion ND as [|? ? Hni ND']; subst.
  rewrite IH by assumption.
  assert (L : forall l, ~ In k (map fst l) -> lookup k l = None).
  { clear. intros l. induction l as [|(a, b) l IHl]; cbn; intros H; [reflexivity|].
    destruct (Nat.eqb_spec a k); [exfalso; auto|]. apply IHl. auto. }
  destruct (Nat.eqb_spec k c) as [<-|Hne].
  - rewrite (L new Hni). rewrite (L old) by (rewrite E; exact Hni). unfold upd. rewrite Nat.eqb_refl. reflexivity.
  - unfold upd. destruct (Nat.eqb_spec c k); [congruence|]. reflexivity.
Qed.

(** static part of the state *)
Definition same_static (s s' : chst) : Prop :=
  h_np s' = h_np s /\ h_ijk s' = h_ijk s /\ h_n s' = h_n s /\ h_rw2 s' = h_rw2 s /\ h_rd3 s' = h_rd3 s /\ h_tmp s' = h_tmp s /\
  h_rhod s' = h_rhod s /\ h_dv s' = h_dv s /\ h_T s' = h_T s.
Lemma same_static_refl s : same_static s s.
Proof. repeat split. Qed.
Lemma same_static_trans a b c : same_static a b -> same_static b c -> same_static a c.
Proof. unfold same_static. intuition congruence. Qed.

Definition mg_of (dt : R) (V : nat -> R) (flag : nat -> bool) (s : chst) (g i : nat) : R :=
  if flag i
  then chem_Henry_fun g dt (V i) (T_of s i) (h_amb s g (h_ijk s i)) (h_m s g i) (h_rw2 s i) (h_rhod s (h_ijk s i)) (h_m s Hp i)
  else h_m s g i.
Lemma gas_static dt V flag sijk sid s g : same_static s (chem_henry_gas dt V flag sijk sid s g).
Proof. repeat split. Qed.
Lemma gas_m_same dt V flag sijk sid s g : h_m (chem_henry_gas dt V flag sijk sid s g) g = mg_of dt V flag s g.
Proof. unfold chem_henry_gas; cbn [h_m set_amb set_m]. unfold upd. rewrite Nat.eqb_refl. reflexivity. Qed.
Lemma gas_m_other dt V flag sijk sid s g k : k <> g -> h_m (chem_henry_gas dt V flag sijk sid s g) k = h_m s k.
Proof. intros H. unfold chem_henry_gas; cbn [h_m set_amb set_m]. unfold upd. apply Nat.eqb_neq in H. rewrite H. reflexivity. Qed.
Lemma gas_amb_other dt V flag sijk sid s g k : k <> g -> h_amb (chem_henry_gas dt V flag sijk sid s g) k = h_amb s k.
Proof. intros H. unfold chem_henry_gas; cbn [h_amb set_amb set_m]. unfold upd. apply Nat.eqb_neq in H. rewrite H. reflexivity. Qed.

Definition new_amb (dt : R) (V : nat -> R) (flag : nat -> bool) (s : chst) (g c : nat) : R :=
  ambient_chem_calculator (M_aq_ g) (M_gas_ g)
    (cellsum (h_np s) (h_ijk s) (fun i => N2R (h_n s i) * mg_of dt V flag s g i) c)
    (cellsum (h_np s) (h_ijk s) (fun i => N2R (h_n s i) * h_m s g i) c) (h_rhod s c) (h_dv s c) (h_amb s g c).
Lemma gas_amb_same dt V flag sijk sid s g c (Hs : sorted_pop (h_np s) (h_ijk s) sijk sid) :
  h_amb (chem_henry_gas dt V flag sijk sid s g) g c =
  if occupied_dec _ _ _ _ Hs c then new_amb dt V flag s g c else h_amb s g c.
Proof.
  unfold chem_henry_gas; cbn [h_amb set_amb set_m]. unfold upd at 1. rewrite Nat.eqb_refl. unfold chem_apply.
  pose proof (sorted_facts _ _ _ _ Hs) as (HP & HE & _).
  assert (Hl : forall w : nat -> R, length sijk = length (map w sid)) by (intros w; rewrite HE, !map_length; reflexivity).
  unfold chem_mass.
  rewrite (apply_pairs (fun k b a x => ambient_chem_calculator (M_aq_ g) (M_gas_ g) b a (h_rhod s k) (h_dv s k) x)).
  - destruct (sums_spec _ _ _ _ Hs (fun id => N2R (h_n s id) * h_m s g id)) as (_ & _ & A3 & A4).
    destruct (sums_spec _ _ _ _ Hs (fun id => N2R (h_n s id) * mg_of dt V flag s g id)) as (_ & _ & B3 & B4).
    unfold mg_of in B3, B4.
    destruct (occupied_dec _ _ _ _ Hs c) as [H|H]; [rewrite A3, B3 by exact H|rewrite A4 by exact H]; reflexivity.
  - apply run_sums_keys; apply Hl.
  - apply (sums_spec _ _ _ _ Hs (fun id => N2R (h_n s id) * mg_of dt V flag s g id)).
Qed.

Lemma henry_fold dt V flag sijk sid l : NoDup l -> ~ In Hp l -> forall s,
  let s' := fold_left (chem_henry_gas dt V flag sijk sid) l s in
  same_static s s' /\
  (forall k, ~ In k l -> h_m s' k = h_m s k /\ h_amb s' k = h_amb s k) /\
  (forall g, In g l -> h_m s' g = mg_of dt V flag s g /\
     forall (Hs : sorted_pop (h_np s) (h_ijk s) sijk sid) c,
       h_amb s' g c = if occupied_dec _ _ _ _ Hs c then new_amb dt V flag s g c else h_amb s g c).
Proof.
  induction l as [|a l IH]; intros ND Hn s s'.
  { split; [apply same_static_refl|]. split; [intros; split; reflexivity|intros g []]. }
  inversion ND as [|? ? Hni ND']; subst. cbn [fold_left] in s'.
  set (s1 := chem_henry_gas dt V flag sijk sid s a) in *.
  assert (Hn' : ~ In Hp l) by (intros H; apply Hn; right; exact H).
  destruct (IH ND' Hn' s1) as (I1 & I2 & I3). fold s' in I1, I2, I3.
  pose proof (gas_static dt V flag sijk sid s a) as S1. fold s1 in S1.
  split; [eapply same_static_trans; eassumption|]. split.
  - intros k Hk. cbn [In] in Hk. destruct (I2 k) as (E1 & E2); [tauto|]. rewrite E1, E2. unfold s1.
    rewrite gas_m_other, gas_amb_other by (intros ->; tauto). split; reflexivity.
  - intros g [<-|Hg].
    + destruct (I2 a Hni) as (E1 & E2). rewrite E1, E2. unfold s1. split; [apply gas_m_same|].
      intros Hs c. apply gas_amb_same.
    + assert (Hga : g <> a) by (intros ->; contradiction).
      assert (HpA : Hp <> a) by (intros E; apply Hn; left; congruence).
      destruct (I3 g Hg) as (E1 & E2).
      assert (Em : h_m s1 g = h_m s g) by (unfold s1; apply gas_m_other; exact Hga).
      assert (EH : h_m s1 Hp = h_m s Hp) by (unfold s1; apply gas_m_other; exact HpA).
      assert (Ea : h_amb s1 g = h_amb s g) by (unfold s1; apply gas_amb_other; exact Hga).
      split.
      * rewrite E1. unfold mg_of, T_of. destruct S1 as (Q1 & Q2 & Q3 & Q4 & Q5 & Q6 & Q7 & Q8 & Q9).
        rewrite Em, EH, Ea, Q2, Q4, Q7, Q9. reflexivity.
      * intros Hs c. specialize (E2 Hs c). rewrite E2. change (h_amb s1 g) with (h_amb s1 g).
        change (h_np s1) with (h_np s). change (h_ijk s1) with (h_ijk s).
        destruct (occupied_dec _ _ _ _ Hs c); [|rewrite Ea; reflexivity].
        unfold new_amb, mg_of, T_of. rewrite Em, EH, Ea. reflexivity.
Qed.

(** C66: over one dissolving step, for every gas and every cell:
    - a gas is never made negative; where some of it remains in the air, the amount in the air and in the droplets together is
      exactly conserved; otherwise it does not decrease (it may increase: C66_created_refuted);
    - cells without droplets keep their gas; droplets not flagged keep their composition, flagged ones take up as in C66_droplet from
      the air of their cell;
    - sulfate, H+, sizes and multiplicities are not changed. *)
Theorem C66_conservation_partial dt V flag sijk sid s g :
  (g < 6)%nat -> sorted_pop (h_np s) (h_ijk s) sijk sid ->
  let s' := chem_henry dt V flag sijk sid s in
  (forall c, 0 < h_rhod s c -> 0 < h_dv s c ->
     (0 <= h_amb s g c -> 0 <= h_amb s' g c) /\
     (0 < h_amb s' g c -> air_mol s' g c + drops_mol s' g c = air_mol s g c + drops_mol s g c) /\
     air_mol s g c + drops_mol s g c <= air_mol s' g c + drops_mol s' g c /\
     ((forall i, (i < h_np s)%nat -> h_ijk s i <> c) -> h_amb s' g c = h_amb s g c)) /\
  (forall i, h_m s' g i = if flag i
     then chem_Henry_fun g dt (V i) (h_T s (h_ijk s i)) (h_amb s g (h_ijk s i)) (h_m s g i) (h_rw2 s i) (h_rhod s (h_ijk s i)) (h_m s Hp i)
     else h_m s g i) /\
  (forall i, h_m s' S_VI i = h_m s S_VI i /\ h_m s' Hp i = h_m s Hp i) /\ same_static s s'.
Proof.
  intros Hg Hs s'. 
  assert (HND : NoDup (seq 0 chem_gas_n)) by apply seq_NoDup.
  assert (HnH : ~ In Hp (seq 0 chem_gas_n)) by (rewrite in_seq; unfold Hp, chem_gas_n; lia).
  pose proof (henry_fold dt V flag sijk sid _ HND HnH s) as F. cbv zeta in F.
  assert (Es : s' = fold_left (chem_henry_gas dt V flag sijk sid) (seq 0 chem_gas_n) s) by reflexivity.
  rewrite <- Es in F. clearbody s'. clear Es. destruct F as (F1 & F2 & F3).
  assert (Hin : In g (seq 0 chem_gas_n)) by (apply in_seq; unfold chem_gas_n; lia).
  destruct (F3 g Hin) as (Em & Ea). specialize (Ea Hs).
  split; [|split; [|split; [|exact F1]]].
  - intros c Hr Hd. specialize (Ea c).
    pose proof (M_aq_pos g) as Ma. pose proof (M_gas_pos g) as Mg.
    destruct F1 as (Q1 & Q2 & Q3 & Q4 & Q5 & Q6 & Q7 & Q8 & Q9).
    assert (Ed : drops_mol s' g c = cellsum (h_np s) (h_ijk s) (fun i => N2R (h_n s i) * mg_of dt V flag s g i) c / M_aq_ g).
    { unfold drops_mol. rewrite Q1, Q2, Q3, Em. reflexivity. }
    assert (Eair : air_mol s' g c = h_amb s' g c * (h_rhod s c * h_dv s c) / M_gas_ g).
    { unfold air_mol. rewrite Q7, Q8. reflexivity. }
    rewrite Ed, Eair. unfold air_mol, drops_mol.
    set (Sn := cellsum (h_np s) (h_ijk s) (fun i => N2R (h_n s i) * mg_of dt V flag s g i) c) in *.
    set (So := cellsum (h_np s) (h_ijk s) (fun i => N2R (h_n s i) * h_m s g i) c) in *.
    destruct (occupied_dec _ _ _ _ Hs c) as [Ho|Ho].
    + rewrite Ea. unfold new_amb, ambient_chem_calculator. fold Sn So.
      set (nc := h_amb s g c - (Sn - So) / M_aq_ g * M_gas_ g / h_dv s c / h_rhod s c).
      assert (Enc : nc * (h_rhod s c * h_dv s c) / M_gas_ g + Sn / M_aq_ g =
                    h_amb s g c * (h_rhod s c * h_dv s c) / M_gas_ g + So / M_aq_ g).
      { unfold nc. field. repeat split; lra. }
      destruct (Rltb 0 nc) eqn:E; [apply Rltb_true in E|apply Rltb_false in E].
      * split; [lra|]. split; [intros _; exact Enc|]. split; [lra|].
        intros Hno. exfalso. destruct Ho as (i & Hi & Hc). apply (Hno i Hi Hc).
      * split; [lra|]. split; [lra|]. split.
        { rewrite <- Enc. assert (nc * (h_rhod s c * h_dv s c) / M_gas_ g <= 0).
          { assert (0 < h_rhod s c * h_dv s c) by nra. assert (0 < / M_gas_ g) by (apply Rinv_0_lt_compat; lra).
            assert (0 < (h_rhod s c * h_dv s c) / M_gas_ g) by (unfold Rdiv; nra).
            replace (nc * (h_rhod s c * h_dv s c) / M_gas_ g) with (nc * ((h_rhod s c * h_dv s c) / M_gas_ g)) by (field; lra). nra. }
          replace (nc * 0 * (h_rhod s c * h_dv s c) / M_gas_ g) with 0 by (field; lra). lra. }
        intros Hno. exfalso. destruct Ho as (i & Hi & Hc). apply (Hno i Hi Hc).
    + assert (E1 : Sn = So).
      { unfold Sn, So. rewrite !cellsum_empty by exact Ho. reflexivity. }
      rewrite Ea, E1. split; [auto|]. split; [auto|]. split; [intros; lra|auto].
  - intros i. rewrite Em. reflexivity.
  - intros i. destruct (F2 S_VI) as (E1 & _); [rewrite in_seq; unfold S_VI, chem_gas_n; lia|].
    destruct (F2 Hp HnH) as (E2 & _). rewrite E1, E2. split; reflexivity.
Qed.

(** ** Gas created *)
(** one super-droplet that stands for 240 million droplets of 10 micrometres in a cubic metre of air (about 1 g of water),
    of pH 5, at 280 K; a little nitric acid in the air, none in the droplets *)
Definition acid_cloud : chst :=
  let r2 := / 10 ^ 10 in
  mk_chst 1 (fun _ => 0%nat) (fun _ => 240000000%N) (fun _ => r2) (fun _ => / 10 ^ 21)
    (fun k _ => if (k =? Hp)%nat then / 100 * chem_vol r2 * M_H else 0)
    (fun g _ => if (g =? HNO3)%nat then / 10 ^ 9 else 0) (fun _ _ => 0)
    (fun _ => 12 / 10) (fun _ => 1) (fun _ => 280).

Lemma acid_V : chem_vol (/ 10 ^ 10) = 4 / 3 * PI * / 10 ^ 15.
Proof.
  unfold chem_vol. rewrite CondPassProofs.cpow_3_2 by lra.
  replace (/ 10 ^ 10) with (/ 10 ^ 5 * / 10 ^ 5) by lra. rewrite sqrt_square by lra.
  replace ((/ 10 ^ 5) ^ 3) with (/ 10 ^ 15) by lra. reflexivity.
Qed.
Lemma PI_gt_2 : 2 < PI. Proof. pose proof PI2_1. unfold PI2 in *. pose proof PI_RGT_0. lra. Qed.

(** C66, refuted part: within ten seconds the droplets take up more than twice the nitric acid there is: the air is left with none and
    the total amount at least doubles.  (Each droplet takes up as if it alone faced the whole cell.) *)
Theorem C66_created_refuted :
  let s := acid_cloud in
  let V := chem_vol_ante s in
  let s' := chem_henry 10 V (chem_flag_ante s V) [0%nat] [0%nat] s in
  chem_flag_ante s V 0 = true /\ 0 < air_mol s HNO3 0 /\ h_amb s' HNO3 0 = 0 /\
  2 * (air_mol s HNO3 0 + drops_mol s HNO3 0) <= air_mol s' HNO3 0 + drops_mol s' HNO3 0.
Proof.
  intros s V s'.
  pose proof PI_gt_2 as P2. pose proof PI_4 as P4.
  assert (EV : V 0%nat = 4 / 3 * PI * / 10 ^ 15) by (apply acid_V).
  assert (HV : 0 < V 0%nat) by (rewrite EV; apply Rmult_lt_0_compat; lra).
  assert (EcH : h_m s Hp 0 / M_H / V 0%nat = / 100).
  { change (h_m s Hp 0) with (/ 100 * V 0%nat * M_H). field. pose proof M_H_pos. split; lra. }
  assert (Hfl : chem_flag_ante s V 0 = true).
  { unfold chem_flag_ante, set_chem_flag.
    destruct (Reqb (h_m s Hp 0) 0) eqn:E0.
    { apply Reqb_true in E0. exfalso. rewrite E0 in EcH. unfold Rdiv in EcH. rewrite !Rmult_0_l in EcH. lra. }
    apply Rltb_true. unfold ionic_strength. rewrite EcH.
    change (h_m s SO2 0) with 0. change (h_m s CO2 0) with 0. change (h_m s HNO3 0) with 0. change (h_m s NH3 0) with 0.
    change (h_m s S_VI 0) with 0.
    unfold Rdiv. rewrite !Rmult_0_l, ?Rmult_0_r, ?Rmult_0_l. unfold K_H2O. lra. }
  split; [exact Hfl|].
  assert (Hair : air_mol s HNO3 0 = / 10 ^ 9 * (12 / 10) / M_HNO3).
  { unfold air_mol. change (h_amb s HNO3 0) with (/ 10 ^ 9). change (h_rhod s 0) with (12 / 10). change (h_dv s 0) with 1.
    change (M_gas_ HNO3) with M_HNO3. unfold M_HNO3. field. }
  split; [rewrite Hair; unfold M_HNO3; lra|].
  assert (Hs : sorted_pop (h_np s) (h_ijk s) [0%nat] [0%nat]).
  { exists false. unfold sort_helper, sort_by_key_result. cbn. split; [reflexivity|]. split; [reflexivity|]. split; [reflexivity|]. repeat constructor. }
  destruct (C66_conservation_partial 10 V (chem_flag_ante s V) [0%nat] [0%nat] s HNO3 ltac:(unfold HNO3; lia) Hs) as (A & B & _ & St).
  fold s' in A, B, St.
  destruct (A 0%nat) as (A1 & A2 & A3 & _); [change (h_rhod s 0) with (12 / 10); lra|change (h_dv s 0) with 1; lra|].
  specialize (B 0%nat). rewrite Hfl in B.
  set (m' := h_m s' HNO3 0) in *.
  assert (Hd : drops_mol s HNO3 0 = 0).
  { unfold drops_mol, cellsum. change (h_np s) with 1%nat. cbn [sumR]. change (h_ijk s 0) with 0%nat. cbn [Nat.eqb].
    change (h_m s HNO3 0) with 0. unfold Rdiv. ring. }
  assert (Hd' : drops_mol s' HNO3 0 = 240000000 * m' / M_HNO3).
  { unfold drops_mol, cellsum. destruct St as (Q1 & Q2 & Q3 & _). rewrite Q1, Q2, Q3. change (h_np s) with 1%nat. cbn [sumR].
    change (h_ijk s 0) with 0%nat. cbn [Nat.eqb]. fold m'. change (h_n s 0) with 240000000%N.
    change (M_aq_ HNO3) with M_HNO3. unfold N2R. cbn [Z.of_N]. unfold Rdiv. ring. }
  (* the uptake *)
  assert (Hv : 250 <= molec_vel 280 M_HNO3).
  { unfold molec_vel. rewrite <- (sqrt_square 250) by lra. apply sqrt_le_1_alt.
    assert (2 <= 8 / PI). { apply Rmult_le_reg_r with PI; [lra|]. unfold Rdiv. rewrite Rmult_assoc, Rinv_l by lra. lra. }
    assert (36000 <= kaBoNA * 280 / M_HNO3) by (unfold kaBoNA, M_HNO3; lra). nra. }
  assert (Hsq : sqrt (/ 10 ^ 10) = / 10 ^ 5).
  { replace (/ 10 ^ 10) with (/ 10 ^ 5 * / 10 ^ 5) by lra. apply sqrt_square. lra. }
  set (k := mass_trans (/ 10 ^ 10) (D_ 0) (ac_ 0) 280 M_HNO3).
  assert (Hk : 600000 <= k <= 2000000).
  { unfold k, mass_trans. rewrite Hsq. unfold D_, ac_. set (v := molec_vel 280 M_HNO3) in *. clearbody v.
    assert (Hiv : / v <= / 250) by (apply Rinv_le_contravar; lra).
    assert (Hiv0 : 0 < / v) by (apply Rinv_0_lt_compat; lra).
    set (d := / 10 ^ 10 / 3 / (6525 / 10000 / 10000) + 4 / 3 / (5 / 100) * / 10 ^ 5 / v).
    assert (Hd1 : / 2000000 <= d <= / 600000).
    { unfold d. unfold Rdiv at 6. split; lra. }
    assert (Hd0 : 0 < d) by lra. unfold Rdiv. rewrite Rmult_1_l. split.
    - rewrite <- (Rinv_inv 600000). apply Rinv_le_contravar; lra.
    - rewrite <- (Rinv_inv 2000000). apply Rinv_le_contravar; lra. }
  set (He := Henry_eff 0 280 (/ 100)).
  assert (HHe : 1000000 <= He).
  { unfold He, Henry_eff, H_temp, Kt_HNO3, K_temp.
    assert (E1 : 1 <= exp (dHR_ 0 * (1 / 280 - 1 / 298))).
    { apply Rle_trans with (exp 0); [rewrite exp_0; lra|]. left. apply exp_increasing. unfold dHR_. lra. }
    assert (E2 : 1 <= exp (dKR_HNO3 * (1 / 280 - 1 / 298))).
    { apply Rle_trans with (exp 0); [rewrite exp_0; lra|]. left. apply exp_increasing. unfold dKR_HNO3. lra. }
    set (e1 := exp (dHR_ 0 * _)) in *. set (e2 := exp (dKR_HNO3 * _)) in *. clearbody e1 e2.
    assert (2000 <= H_ 0 * e1) by (unfold H_, p_stp; lra).
    assert (500 <= 1 + K_HNO3 * e2 / (/ 100)) by (unfold K_HNO3; lra). nra. }
  assert (Em : m' = (0 + 10 * V 0%nat * k * / 10 ^ 9 * (12 / 10) * (M_HNO3 / M_HNO3)) / (1 + 10 * k / He / kaBoNA / 280)).
  { rewrite B. unfold chem_Henry_fun. rewrite EcH. reflexivity. }
  assert (Ha : 0 <= 10 * k / He / kaBoNA / 280 <= 1 / 10).
  { assert (Hi : 0 < / He <= / 1000000).
    { split; [apply Rinv_0_lt_compat; lra|apply Rinv_le_contravar; lra]. }
    unfold Rdiv. assert (0 <= 10 * k * / He <= 20) by nra. 
    assert (0 < / kaBoNA <= / 8) by (unfold kaBoNA; split; lra).
    set (x := 10 * k * / He) in *. set (y := / kaBoNA) in *. clearbody x y. nra. }
  set (a := 10 * k / He / kaBoNA / 280) in *. clearbody a k He.
  assert (HW : 240000000 * m' >= 2 * (/ 10 ^ 9 * (12 / 10))).
  { rewrite Em. unfold M_HNO3. replace (63 / 1000 / (63 / 1000)) with 1 by lra.
    set (u := / 10 ^ 9 * (12 / 10)). assert (Hu : 0 < u) by (unfold u; lra).
    replace (240000000 * ((0 + 10 * V 0%nat * k * / 10 ^ 9 * (12 / 10) * 1) / (1 + a)))
      with (2400000000 * V 0%nat * k * u / (1 + a)) by (unfold u; field; lra).
    assert (HVk : 22 / 10 <= 2400000000 * V 0%nat * k).
    { assert (/ 10 ^ 15 * (8 / 3) <= V 0%nat) by (rewrite EV; lra).
      assert (6 / 10 ^ 6 <= 2400000000 * V 0%nat) by lra. nra. }
    set (w := 2400000000 * V 0%nat * k) in *. clearbody w u.
    apply Rle_ge. apply Rmult_le_reg_r with (1 + a); [lra|]. unfold Rdiv. rewrite (Rmult_assoc (w * u)), Rinv_l by lra. nra. }
  assert (Hm : M_HNO3 = 63 / 1000) by reflexivity.
  assert (Hzero : h_amb s' HNO3 0 = 0).
  { assert (H0 : 0 <= h_amb s HNO3 0) by (change (h_amb s HNO3 0) with (/ 10 ^ 9); lra).
    specialize (A1 H0). destruct (Rle_lt_or_eq_dec _ _ A1) as [Hlt|Heq]; [exfalso|auto].
    specialize (A2 Hlt). rewrite Hd, Hd', Hair in A2.
    assert (0 < air_mol s' HNO3 0).
    { unfold air_mol. destruct St as (_ & _ & _ & _ & _ & _ & Q7 & Q8 & _). rewrite Q7, Q8.
      change (h_rhod s 0) with (12 / 10). change (h_dv s 0) with 1. change (M_gas_ HNO3) with M_HNO3. rewrite Hm. lra. }
    rewrite Hm in A2. lra. }
  split; [exact Hzero|].
  rewrite Hd, Hd', Hair, Hm.
  assert (air_mol s' HNO3 0 = 0) by (unfold air_mol; rewrite Hzero; unfold Rdiv; ring). lra.
Qed.

Print Assumptions C66_droplet.
Print Assumptions C66_converges.
Print Assumptions C66_conservation_partial.
Print Assumptions C66_created_refuted.
