(** * C72, C73: subgrid-scale turbulence *)
From Coq Require Import List Arith NArith ZArith Lia Reals Lra Bool.
From Verif Require Import Base BaseProofs HskpngModel ThermoModel ThermoProofs MomsModel MomsProofs CondPassModel TurbModel.
Import ListNotations.
Local Open Scope R_scope.

(** ** Specification *)
(** turbulent kinetic energy e of eddies of size L that dissipate energy at the rate eps: 0.845 e^(3/2) / L = eps *)
Definition energy_of (eps L e : R) : Prop := 0 <= e /\ 845 / 1000 * e * sqrt e / L = eps.
(** time scale T of these eddies: (2 pi) (T/L)^3 = (1.5/e)^(3/2) *)
Definition time_scale (e L T : R) : Prop := 0 < T /\ 2 * PI * (T / L) ^ 3 = sqrt (3 / 2 / e) ^ 3.

(** mean values over any probability space *)
Record mean {W : Type} (E : (W -> R) -> R) : Prop := {
  mean_ext : forall f g, (forall w, f w = g w) -> E f = E g;
  mean_plus : forall f g, E (fun w => f w + g w) = E f + E g;
  mean_scal : forall a f, E (fun w => a * f w) = a * E f;
  mean_one : E (fun _ => 1) = 1 }.
(** uncorrelated random numbers of mean 0 and variance 1 *)
Definition standard {W : Type} (E : (W -> R) -> R) (r : nat -> W -> R) (K : nat) : Prop :=
  (forall k, (k < K)%nat -> E (r k) = 0) /\ (forall k, (k < K)%nat -> E (fun w => r k w * r k w) = 1) /\
  (forall k l, (k < K)%nat -> (l < K)%nat -> k <> l -> E (fun w => r k w * r l w) = 0).

(** velocity after a number of time steps of given lengths in constant conditions *)
Fixpoint velocity (T e : R) (dt r : nat -> R) (v0 : R) (k : nat) : R :=
  match k with O => v0 | S k' => update_turb_vel (velocity T e dt r v0 k') T (dt k') e (r k') end.

Lemma cbrt_pos x : 0 < x -> 0 < cbrt x.
Proof. intros H. unfold cbrt. destruct (Rlt_dec 0 x); [apply exp_pos|contradiction]. Qed.

(** C72: energy *)
Theorem C72_energy eps L : 0 <= eps -> 0 < L -> energy_of eps L (tke eps L) /\ (0 < eps -> 0 < tke eps L) /\
  forall e, energy_of eps L e -> e = tke eps L.
Proof.
  intros He HL. assert (Hx : 0 <= L * eps / C_E) by (unfold C_E; apply Rle_mult_inv_pos; [nra|lra]).
  destruct (cbrt_cube_nonneg _ Hx) as (C1 & C2). unfold tke. assert (Cp : 0 < eps -> 0 < cbrt (L * eps / C_E)) by (intros Hp; apply cbrt_pos; unfold C_E; apply Rdiv_lt_0_compat; [nra|lra]).
  set (c := cbrt (L * eps / C_E)) in *. clearbody c.
  assert (E0 : 845 / 1000 * (c * c) * c / L = eps).
  { replace (845 / 1000 * (c * c) * c) with (C_E * (c * c * c)) by (unfold C_E; ring). rewrite C2. unfold C_E. field. lra. }
  split; [|split].
  - split; [nra|]. rewrite sqrt_square by exact C1. exact E0.
  - intros Hp. specialize (Cp Hp). nra.
  - intros e (P1 & P2). set (s := sqrt e) in *. assert (Es : e = s * s) by (symmetry; apply sqrt_sqrt; exact P1).
    assert (Hs : 0 <= s) by apply sqrt_pos. rewrite Es in P2 |- *.
    assert (Q : s * s * s = c * c * c).
    { assert (845 / 1000 * (s * s) * s = 845 / 1000 * (c * c) * c); [|lra].
      apply Rmult_eq_reg_r with (/ L); [|apply Rinv_neq_0_compat; lra]. fold (Rdiv (845 / 1000 * (s * s) * s) L). fold (Rdiv (845 / 1000 * (c * c) * c) L). lra. }
    assert (s = c); [|congruence]. destruct (Rtotal_order s c) as [H|[H|H]]; [|exact H|]; exfalso.
    + assert (s * s <= c * c) by nra. assert (0 < c * c) by nra. nra.
    + assert (c * c <= s * s) by nra. assert (0 < s * s) by nra. nra.
Qed.
Lemma two_pi_root : 0 < cube_root_of_two_pi /\ cube_root_of_two_pi ^ 3 = 2 * PI.
Proof.
  pose proof PI_RGT_0. assert (H2 : 0 < 2 * PI) by lra. unfold cube_root_of_two_pi, cpow. destruct (Rlt_dec 0 (2 * PI)); [|contradiction].
  split; [apply exp_pos|]. rewrite <- Rpower_pow by apply exp_pos. rewrite Rpower_mult. replace (1 / 3 * INR 3) with 1 by (cbn [INR]; field). apply Rpower_1. exact H2.
Qed.
Theorem C72_time_scale e L : 0 < e -> 0 < L -> time_scale e L (tau e L) /\ forall T, time_scale e L T -> T = tau e L.
Proof.
  intros He HL. destruct two_pi_root as (P1 & P2).
  assert (Hs : 0 < sqrt (3 / 2 / e)) by (apply sqrt_lt_R0; apply Rdiv_lt_0_compat; lra).
  unfold tau. change C_tau with (3 / 2). set (s := sqrt (3 / 2 / e)) in *. set (c := cube_root_of_two_pi) in *.
  assert (Ht : 0 < L / c * s) by (apply Rmult_lt_0_compat; [apply Rdiv_lt_0_compat|]; assumption).
  assert (Eq : 2 * PI * (L / c * s / L) ^ 3 = s ^ 3) by (rewrite <- P2; field; lra).
  split; [split; [exact Ht|exact Eq]|]. intros T (H1 & H2). fold s in H2. rewrite <- Eq in H2.
  assert (Q : (T / L) ^ 3 = (L / c * s / L) ^ 3) by (apply Rmult_eq_reg_l with (2 * PI); [exact H2|pose proof PI_RGT_0; lra]).
  assert (A : 0 < T / L) by (apply Rdiv_lt_0_compat; assumption). assert (B : 0 < L / c * s / L) by (apply Rdiv_lt_0_compat; assumption).
  set (a := T / L) in *. set (b := L / c * s / L) in *.
  assert (a = b).
  { destruct (Rtotal_order a b) as [H|[H|H]]; [|exact H|]; exfalso; cbn [pow] in Q; rewrite !Rmult_1_r in Q.
    - assert (a * a < b * b) by nra. nra.
    - assert (b * b < a * a) by nra. nra. }
  replace T with (a * L) by (unfold a; field; lra). rewrite H. unfold b. field. lra.
Qed.

Section Mean.
  Context {W : Type} (E : (W -> R) -> R) (HE : mean E).
  Lemma mean_minus f g : E (fun w => f w - g w) = E f - E g.
  Proof.
    rewrite (mean_ext E HE _ (fun w => f w + (-1) * g w)) by (intros; ring). rewrite (mean_plus E HE). rewrite (mean_scal E HE (-1)). ring.
  Qed.
  Variables (T e : R) (dt : nat -> R) (r : nat -> W -> R) (V0 : W -> R) (K : nat).
  Hypothesis HT : 0 < T.
  Hypothesis He : 0 <= e.
  Hypothesis Hdt : forall k, 0 <= dt k.
  Hypothesis Hr : standard E r K.
  Hypothesis H0 : forall k, (k < K)%nat -> E (fun w => V0 w * r k w) = 0.
  Let V k w := velocity T e dt (fun l => r l w) (V0 w) k.
  Let D k := exp (- sumR k dt / T).
  Lemma D_S k : D (S k) = D k * exp (- dt k / T).
  Proof. unfold D. cbn [sumR]. rewrite <- exp_plus. f_equal. field. lra. Qed.
  Lemma decay_le k : 0 < exp (- dt k / T) <= 1.
  Proof.
    split; [apply exp_pos|]. rewrite <- exp_0.
    assert (- dt k / T <= 0). { specialize (Hdt k). unfold Rdiv. pose proof (Rinv_0_lt_compat T HT). nra. }
    destruct H as [H|H]; [left; apply exp_increasing; exact H|rewrite H; right; reflexivity].
  Qed.
  Lemma V_uncorrelated k : forall l, (k <= l < K)%nat -> E (fun w => V k w * r l w) = 0.
  Proof.
    destruct HE as [X P S _]. destruct Hr as (_ & _ & R3). induction k as [|k IH]; intros l Hl; [apply H0; lia|].
    unfold V. cbn [velocity]. unfold update_turb_vel. cbn zeta.
    set (x := exp (- dt k / T)). set (s := sqrt ((1 - x * x) * (2 / 3) * e)).
    rewrite (X _ (fun w => x * (V k w * r l w) + s * (r k w * r l w))) by (intros; unfold V; ring).
    rewrite P, (S x), (S s), IH, R3 by lia. ring.
  Qed.
  Lemma V_moments k : (k <= K)%nat -> E (V k) = D k * E V0 /\
    E (fun w => V k w * V k w) = D k * D k * E (fun w => V0 w * V0 w) + 2 / 3 * e * (1 - D k * D k) /\
    E (fun w => V k w * V0 w) = D k * E (fun w => V0 w * V0 w).
  Proof.
    pose proof HE as [X P S _]. pose proof Hr as (R1 & R2 & R3). induction k as [|k IH]; intros HkK.
    - assert (D0 : D 0 = 1) by (unfold D; cbn [sumR]; rewrite Ropp_0; unfold Rdiv; rewrite Rmult_0_l; apply exp_0). rewrite D0. unfold V. cbn [velocity].
      split; [rewrite (X _ V0) by reflexivity; ring|]. split; [ring|ring].
    - destruct IH as (I1 & I2 & I3); [lia|]. assert (U : E (fun w => V k w * r k w) = 0) by (apply V_uncorrelated; lia). rewrite D_S. pose proof (decay_le k) as Hx.
      set (x := exp (- dt k / T)) in *. set (s := sqrt ((1 - x * x) * (2 / 3) * e)).
      assert (Ss : s * s = (1 - x * x) * (2 / 3) * e).
      { apply sqrt_sqrt. apply Rmult_le_pos; [|exact He]. nra. }
      assert (EV : forall w, V (Datatypes.S k) w = x * V k w + s * r k w) by (intros w; unfold V; cbn [velocity]; unfold update_turb_vel; fold x; fold s; cbn zeta; ring).
      split; [|split].
      + rewrite (X _ _ EV), P, (S x (V k)), (S s (r k)), I1, R1 by lia. ring.
      + rewrite (X _ (fun w => (x * x) * (V k w * V k w) + ((2 * x * s) * (V k w * r k w) + (s * s) * (r k w * r k w)))) by (intros; rewrite EV; ring).
        rewrite P, P, (S (x * x)), (S (2 * x * s)), (S (s * s)), I2, U, R2, Ss by lia. ring.
      + rewrite (X _ (fun w => x * (V k w * V0 w) + s * (V0 w * r k w))) by (intros; rewrite EV; ring).
        rewrite P, (S x), (S s), I3, H0 by lia. ring.
  Qed.
End Mean.

(** C72: in constant conditions, after any number of time steps of any lengths, t in total: the mean of the perturbation has decayed by
    d = exp(-t/T), its variance has relaxed by d^2 to 2/3 of the energy, its correlation with the initial value is d: all this depends on the total
    time only, and not on its division into steps *)
Theorem C72_statistics {W : Type} (E : (W -> R) -> R) T e dt r V0 k :
  mean E -> standard E r k -> (forall l, (l < k)%nat -> E (fun w => V0 w * r l w) = 0) ->
  0 < T -> 0 <= e -> (forall l, 0 <= dt l) ->
  let V := fun w => velocity T e dt (fun l => r l w) (V0 w) k in
  let d := exp (- sumR k dt / T) in
  E V = d * E V0 /\
  E (fun w => (V w - E V) * (V w - E V)) - 2 / 3 * e = d * d * (E (fun w => (V0 w - E V0) * (V0 w - E V0)) - 2 / 3 * e) /\
  E (fun w => (V w - E V) * (V0 w - E V0)) = d * E (fun w => (V0 w - E V0) * (V0 w - E V0)).
Proof.
  intros HE Hr H0 HT He Hdt V d.
  destruct (V_moments E HE T e dt r V0 k HT He Hdt Hr H0 k (le_n k)) as (M1 & M2 & M3). fold d in M1, M2, M3.
  change (E V = d * E V0) in M1. change (E (fun w => V w * V w) = d * d * E (fun w => V0 w * V0 w) + 2 / 3 * e * (1 - d * d)) in M2.
  change (E (fun w => V w * V0 w) = d * E (fun w => V0 w * V0 w)) in M3.
  assert (Cov : forall f g, E (fun w => (f w - E f) * (g w - E g)) = E (fun w => f w * g w) - E f * E g).
  { intros f g. destruct HE as [X P S O].
    rewrite (X _ (fun w => f w * g w + ((- E g) * f w + ((- E f) * g w + (E f * E g) * 1)))) by (intros; ring).
    rewrite P, P, P, (S (- E g)), (S (- E f)), (S (E f * E g) (fun _ => 1)), O. ring. }
  split; [exact M1|]. rewrite !Cov. rewrite M1, M2, M3. split; ring.
Qed.

(** C72: every super-droplet gets the turbulence of its own cell and level; with turbulent advection all components are updated, with turbulent
    condensation only the vertical one *)
Theorem C72_pass n_dims nx ny nz mix adve cond dt r dv garbage sijk sid s p ix iy iz e T :
  (2 <= n_dims <= 3)%nat -> (p < u_np s)%nat ->
  u_ijk s p = (ix * (ny * nz) + iy * nz + iz)%nat -> (ix < nx)%nat -> (iy < ny)%nat -> (iz < nz)%nat ->
  0 < u_diss s (u_ijk s p) -> 0 < mix iz -> energy_of (u_diss s (u_ijk s p)) (mix iz) e -> time_scale e (mix iz) T ->
  let s' := turb_async n_dims nz mix adve cond dt r dv garbage sijk sid s in
  u_wp s' p = (if adve || cond then update_turb_vel (u_wp s p) T dt e (r 1%nat p) else u_wp s p) /\
  u_up s' p = (if adve then update_turb_vel (u_up s p) T dt e (r 0%nat p) else u_up s p) /\
  u_vp s' p = (if adve && (n_dims =? 3)%nat then update_turb_vel (u_vp s p) T dt e (r 2%nat p) else u_vp s p) /\
  u_ssp s' = u_ssp s /\ u_rw2 s' = u_rw2 s /\ u_ijk s' = u_ijk s /\ u_n s' = u_n s /\ (cond = false -> u_dssp s' = u_dssp s).
Proof.
  intros Hd Hp Hc Hx Hy Hz Hdiss Hmix He HT s'.
  destruct (C72_energy (u_diss s (u_ijk s p)) (mix iz)) as (_ & Pos & Eu); [lra|exact Hmix|]. apply Eu in He. specialize (Pos Hdiss).
  rewrite <- He in Pos. destruct (C72_time_scale e (mix iz) Pos Hmix) as (_ & Tu). apply Tu in HT.
  assert (Hm : (u_ijk s p mod nz)%nat = iz).
  { rewrite Hc. replace (ix * (ny * nz) + iy * nz + iz)%nat with (iz + (ix * ny + iy) * nz)%nat by ring. rewrite Nat.mod_add by lia. apply Nat.mod_small. exact Hz. }
  assert (Hlt : (p <? u_np s)%nat = true) by (apply Nat.ltb_lt; exact Hp).
  assert (T0 : (0 <? n_dims)%nat = true) by (apply Nat.ltb_lt; lia). assert (T1 : (1 <? n_dims)%nat = true) by (apply Nat.ltb_lt; lia).
  assert (T2 : (2 <? n_dims)%nat = (n_dims =? 3)%nat) by (destruct (Nat.eqb_spec n_dims 3); [apply Nat.ltb_lt; lia|apply Nat.ltb_ge; lia]).
  unfold s', turb_async. destruct adve, cond; cbn [orb andb]; unfold hskpng_turb_dot_ss, hskpng_turb_vel, hskpng_tke, set_dssp, set_vel, set_diss, turb_component; cbv zeta;
    cbn [u_np u_ijk u_n u_rw2 u_up u_vp u_wp u_ssp u_dssp u_diss Nat.eqb]; rewrite ?T0, ?T1, ?T2; cbn match; cbn [u_np u_ijk u_n u_rw2 u_up u_vp u_wp u_ssp u_dssp u_diss];
    rewrite ?Hlt, ?Hm, <- ?He, <- ?HT;
    repeat split; try reflexivity; try discriminate;
    destruct (n_dims =? 3)%nat; cbn [andb]; rewrite ?Hlt, ?Hm, <- ?He, <- ?HT; reflexivity.
Qed.

(** C72: where there is no turbulence a perturbation of velocity stays as it was *)
Theorem C72_still_air n_dims nz mix adve cond dt r dv garbage sijk sid s p :
  (p < u_np s)%nat -> u_diss s (u_ijk s p) = 0 ->
  let s' := turb_async n_dims nz mix adve cond dt r dv garbage sijk sid s in
  u_wp s' p = u_wp s p /\ u_up s' p = u_up s p /\ u_vp s' p = u_vp s p.
Proof.
  intros Hp Hd s'.
  assert (E0 : forall L, tke 0 L = 0). { intros L. unfold tke. rewrite Rmult_0_r. unfold Rdiv. rewrite Rmult_0_l. unfold cbrt. destruct (Rlt_dec 0 0); [lra|]. destruct (Rlt_dec 0 0); lra. }
  assert (U : forall w L x, update_turb_vel w (tau 0 L) dt 0 x = w).
  { intros w L x. assert (T0 : tau 0 L = 0) by (unfold tau, Rdiv; rewrite Rinv_0, Rmult_0_r, sqrt_0, Rmult_0_r; reflexivity).
    rewrite T0. unfold update_turb_vel. cbv zeta. unfold Rdiv. rewrite Rinv_0, !Rmult_0_r, exp_0, sqrt_0. ring. }
  assert (Hlt : (p <? u_np s)%nat = true) by (apply Nat.ltb_lt; exact Hp).
  assert (V : forall ov, let t := hskpng_turb_vel n_dims nz mix ov dt r (hskpng_tke nz mix s) in u_wp t p = u_wp s p /\ u_up t p = u_up s p /\ u_vp t p = u_vp s p).
  { intros ov. unfold hskpng_turb_vel, hskpng_tke, set_vel, set_diss, turb_component. cbv zeta. cbn [u_np u_ijk u_up u_vp u_wp u_diss].
    repeat split; match goal with |- (if ?b then _ else _) _ = _ => destruct b end; rewrite ?Hlt, ?Hd, ?E0, ?U; reflexivity. }
  unfold s', turb_async. destruct adve, cond; cbn [orb]; try (apply V); try (repeat split; reflexivity); unfold hskpng_turb_dot_ss, set_dssp; cbv zeta; cbn [u_wp u_up u_vp]; apply V.
Qed.

(** ** C73: perturbation of supersaturation *)
(** sum of radii of the droplets of a cell per volume of air *)
Definition radii_density (dv : nat -> R) (s : ust) (c : nat) : R :=
  cellsum (u_np s) (u_ijk s) (fun i => N2R (u_n s i) * sqrt (u_rw2 s i)) c / dv c.

(** C73: the tendency: growth in updraughts, 3e-4 per metre, and relaxation at a rate of 2.8e-4 m2/s times the sum of radii per volume in the cell *)
Theorem C73_tendency n_dims nz mix adve dt r dv garbage sijk sid s p :
  sorted_pop (u_np s) (u_ijk s) sijk sid -> (forall i, (i < u_np s)%nat -> 0 <= u_rw2 s i) -> (p < u_np s)%nat ->
  let s' := turb_async n_dims nz mix adve true dt r dv garbage sijk sid s in
  u_dssp s' p = 3 / 10000 * u_wp s' p - 28 / 100000 * radii_density dv s (u_ijk s p) * u_ssp s p.
Proof.
  intros Hs Hr Hp s'. unfold s', turb_async. replace (adve || true)%bool with true by (destruct adve; reflexivity).
  set (t := if adve then hskpng_turb_vel n_dims nz mix false dt r (hskpng_tke nz mix s) else hskpng_turb_vel n_dims nz mix true dt r (hskpng_tke nz mix s)).
  assert (Et : u_np t = u_np s /\ u_ijk t = u_ijk s /\ u_n t = u_n s /\ u_rw2 t = u_rw2 s /\ u_ssp t = u_ssp s).
  { unfold t. destruct adve; repeat split; reflexivity. }
  change (if adve then hskpng_turb_vel n_dims nz mix false dt r (hskpng_tke nz mix s) else hskpng_turb_vel n_dims nz mix true dt r (hskpng_tke nz mix s)) with t.
  clearbody t. destruct Et as (E1 & E2 & E3 & E4 & E5). unfold hskpng_turb_dot_ss. cbv zeta. cbn [set_dssp u_dssp u_wp].
  rewrite E1, E2, E3, E4, E5. assert (Hlt : (p <? u_np s)%nat = true) by (apply Nat.ltb_lt; exact Hp). rewrite Hlt.
  unfold moms_calc.
  pose proof (scatter_sums (u_np s) (u_ijk s) sijk sid Hs (fun _ v => v) (fun c v => tau_relax (v / dv c)) (fun id => moment_counter (1 / 2) (N2R (u_n s id)) (u_rw2 s id)) garbage (u_ijk s p)) as Sc.
  rewrite Sc. clear Sc. destruct (occupied_dec _ _ _ _ _) as [_|No]; [|exfalso; apply No; exists p; split; [exact Hp|reflexivity]].
  assert (Ec : cellsum (u_np s) (u_ijk s) (fun i => moment_counter (1 / 2) (N2R (u_n s i)) (u_rw2 s i)) (u_ijk s p) = cellsum (u_np s) (u_ijk s) (fun i => N2R (u_n s i) * sqrt (u_rw2 s i)) (u_ijk s p)).
  { apply cellsum_ext. intros i Hi _. unfold moment_counter. rewrite (proj2 (Rleb_true _ _)) by (apply Hr; exact Hi). f_equal.
    unfold cpow. destruct (Rlt_dec 0 (u_rw2 s i)) as [H|H].
    - replace (1 / 2) with (/ 2) by lra. apply Rpower_sqrt. exact H.
    - assert (u_rw2 s i = 0) by (specialize (Hr i Hi); lra). rewrite H0, sqrt_0. destruct (Req_EM_T (1 / 2) 0); lra. }
  rewrite Ec. unfold dot_turb_ss, tau_relax, a_1, a_2, radii_density. unfold Rdiv at 2 3. rewrite Rmult_1_l, Rinv_inv. unfold Rdiv. ring.
Qed.

(** C73: condensation in any number of substeps adds the tendency times the time step *)
Theorem C73_applied o P : o_turb o = true -> (0 < o_sstp o)%nat -> forall i,
  p_ssp (Nat.iter (o_sstp o) (apply_sgs_supersat o) P) i = p_ssp P i + o_dt o * p_dssp P i.
Proof.
  intros Ht Hs i.
  assert (G : forall k, p_ssp (Nat.iter k (apply_sgs_supersat o) P) i = p_ssp P i + INR k * (o_dt o / INR (o_sstp o)) * p_dssp P i /\ p_dssp (Nat.iter k (apply_sgs_supersat o) P) = p_dssp P).
  { induction k as [|k (I1 & I2)]; [cbn [Nat.iter nat_rect INR]; split; [ring|reflexivity]|].
    change (Nat.iter (S k) (apply_sgs_supersat o) P) with (apply_sgs_supersat o (Nat.iter k (apply_sgs_supersat o) P)).
    unfold apply_sgs_supersat at 1 3. rewrite Ht. cbn [set_ssp p_ssp p_dssp]. rewrite I1, I2, S_INR. split; [ring|reflexivity]. }
  destruct (G (o_sstp o)) as (-> & _). assert (0 < INR (o_sstp o)) by (apply lt_0_INR; exact Hs). field. lra.
Qed.

(** C73: a step is stable, that is the perturbation stays between its old value and the one at which it is stationary, when the time step is shorter than
    the relaxation time (missing: longer time steps) *)
Theorem C73_relaxation_partial w x ssp dt : 0 < x -> 0 < dt -> dt * x <= 1 ->
  let ssp' := ssp + dt * (3 / 10000 * w - x * ssp) in
  let ss := 3 / 10000 * w / x in Rmin ssp ss <= ssp' <= Rmax ssp ss.
Proof.
  intros Hx Hdt Hle ssp' ss. assert (E : ssp' = ssp + (dt * x) * (ss - ssp)) by (unfold ssp', ss; field; lra). rewrite E.
  assert (0 < dt * x) by nra. set (y := dt * x) in *. clearbody y ss. unfold Rmin, Rmax. destruct (Rle_dec ssp ss); split; nra.
Qed.
(** with longer ones it overshoots and, without any turbulence and any forcing, oscillates with a growing amplitude: one cell of 1 m3 with 1e8 droplets of 20 um
    in still air, time step of 5 s; an initial perturbation of 0.01 becomes -0.018 *)
Definition ssp_s : ust := mk_ust 1 (fun _ => 0%nat) (fun _ => 100000000%N) (fun _ => 4 / 10000000000) (fun _ => 0) (fun _ => 0) (fun _ => 0)
   (fun _ => 1 / 100) (fun _ => 0) (fun _ => 0).
Theorem C73_relaxation_refuted : exists sijk sid dt,
  sorted_pop (u_np ssp_s) (u_ijk ssp_s) sijk sid /\ 0 < dt /\
  let s' := turb_async 2 1 (fun _ => 1) false true dt (fun _ _ => 0) (fun _ => 1) (fun _ => 0) sijk sid ssp_s in
  u_wp s' 0%nat = 0 /\ u_ssp s' 0%nat + dt * u_dssp s' 0%nat = - (18 / 10) * u_ssp s' 0%nat.
Proof.
  assert (Hs : sorted_pop (u_np ssp_s) (u_ijk ssp_s) [0%nat] [0%nat]).
  { exists false. unfold sort_helper, sort_by_key_result. cbn. split; [reflexivity|]. split; [reflexivity|]. split; [reflexivity|]. repeat constructor. }
  exists [0%nat], [0%nat], 5. split; [exact Hs|]. split; [lra|]. intros s'.
  assert (Hr : forall i, (i < u_np ssp_s)%nat -> 0 <= u_rw2 ssp_s i) by (intros; cbn [ssp_s u_rw2]; lra).
  assert (Hp : (0 < u_np ssp_s)%nat) by (cbn; lia).
  pose proof (C73_tendency 2 1 (fun _ => 1) false 5 (fun _ _ => 0) (fun _ => 1) (fun _ => 0) [0%nat] [0%nat] ssp_s 0 Hs Hr Hp) as Td. cbv zeta in Td. fold s' in Td.
  destruct (C72_still_air 2 1 (fun _ => 1) false true 5 (fun _ _ => 0) (fun _ => 1) (fun _ => 0) [0%nat] [0%nat] ssp_s 0 Hp eq_refl) as (Ew & _). cbv zeta in Ew. fold s' in Ew.
  cbn [ssp_s u_wp] in Ew. split; [exact Ew|]. rewrite Td, Ew.
  assert (Er : radii_density (fun _ => 1) ssp_s (u_ijk ssp_s 0) = 2000).
  { unfold radii_density, cellsum. cbn [ssp_s u_np u_ijk u_n u_rw2 sumR Nat.eqb]. change (N2R 100000000) with 100000000.
    replace (4 / 10000000000) with (2 / 100000 * (2 / 100000)) by lra. rewrite sqrt_square by lra. lra. }
  rewrite Er. change (u_ssp s' 0%nat) with (1 / 100). change (u_ssp ssp_s 0%nat) with (1 / 100). lra.
Qed.

(** ** SGS length scales *)
Theorem C72_length_scales dx dy dz : 0 < dx -> 0 < dy -> 0 < dz ->
  sgs_vertical3 dx dy dz = dz /\ sgs_vertical2 dx dz = dz /\
  (0 < sgs_geometric3 dx dy dz /\ sgs_geometric3 dx dy dz ^ 3 = dx * dy * dz) /\ (0 < sgs_geometric2 dx dz /\ sgs_geometric2 dx dz ^ 2 = dx * dz) /\
  3 * sgs_arithmetic3 dx dy dz = dx + dy + dz /\ 2 * sgs_arithmetic2 dx dz = dx + dz /\
  sgs_geometric2 dx dz <= sgs_arithmetic2 dx dz /\ sgs_geometric3 dx dy dz <= sgs_arithmetic3 dx dy dz.
Proof.
  intros Hx Hy Hz. assert (P2 : 0 < dx * dz) by nra. assert (P2' : 0 < dx * dy) by nra. assert (P3 : 0 < dx * dy * dz) by nra.
  unfold sgs_vertical3, sgs_vertical2, sgs_geometric3, sgs_geometric2, sgs_arithmetic3, sgs_arithmetic2.
  destruct (cbrt_cube_nonneg (dx * dy * dz)) as (C1 & C2); [lra|]. pose proof (cbrt_pos _ P3) as C0. set (c := cbrt (dx * dy * dz)) in *.
  pose proof (sqrt_lt_R0 _ P2) as S0. assert (S1 : sqrt (dx * dz) * sqrt (dx * dz) = dx * dz) by (apply sqrt_sqrt; lra). set (q := sqrt (dx * dz)) in *.
  split; [reflexivity|]. split; [reflexivity|]. split; [split; [exact C0|cbn [pow]; lra]|]. split; [split; [exact S0|cbn [pow]; lra]|]. split; [lra|]. split; [lra|]. split.
  - clearbody q. assert (4 * (q * q) <= (dx + dz) * (dx + dz)) by (rewrite S1; assert (0 <= (dx - dz) * (dx - dz)) by apply Rle_0_sqr; lra).
    destruct (Rle_or_lt q ((dx + dz) / 2)) as [H1|H1]; [exact H1|]. exfalso.
    set (m := (dx + dz) / 2) in *. assert (0 < m) by (unfold m; lra). assert (E : dx + dz = 2 * m) by (unfold m; lra). rewrite E in H. clearbody m. nra.
  - clearbody c. assert (27 * (c * c * c) <= (dx + dy + dz) * (dx + dy + dz) * (dx + dy + dz)).
    { rewrite C2. clear - Hx Hy Hz.
      assert (0 <= dx * ((dy - dz) * (dy - dz))) by (apply Rmult_le_pos; [lra|apply Rle_0_sqr]). assert (0 <= dy * ((dx - dz) * (dx - dz))) by (apply Rmult_le_pos; [lra|apply Rle_0_sqr]). assert (0 <= dz * ((dx - dy) * (dx - dy))) by (apply Rmult_le_pos; [lra|apply Rle_0_sqr]).
      assert (0 <= (dx + dy + dz) * ((dx - dy) * (dx - dy))) by (apply Rmult_le_pos; [lra|apply Rle_0_sqr]). assert (0 <= (dx + dy + dz) * ((dy - dz) * (dy - dz))) by (apply Rmult_le_pos; [lra|apply Rle_0_sqr]). assert (0 <= (dx + dy + dz) * ((dx - dz) * (dx - dz))) by (apply Rmult_le_pos; [lra|apply Rle_0_sqr]).
      lra. }
    destruct (Rle_or_lt c ((dx + dy + dz) / 3)) as [H1|H1]; [exact H1|]. exfalso. set (m := (dx + dy + dz) / 3) in *. assert (0 < m) by (unfold m; lra).
    assert (E : dx + dy + dz = 3 * m) by (unfold m; lra). rewrite E in H. assert (m * m < c * c) by nra. assert (m * m * m < c * c * c) by nra. lra.
Qed.

(** instance of C72_statistics: two throws of a coin; and of C72_pass *)
Theorem C72_instance : exists (E : (bool * bool -> R) -> R) r,
  mean E /\ standard E r 2 /\ (forall l, (l < 2)%nat -> E (fun w => (fun _ => 1) w * r l w) = 0) /\
  E (fun w => velocity 1 1 (fun _ => 1) (fun l => r l w) 1 2) = exp (-2).
Proof.
  pose (E := fun f : bool * bool -> R => (f (true, true) + f (true, false) + f (false, true) + f (false, false)) / 4).
  pose (sg := fun b : bool => if b then 1 else -1).
  pose (r := fun (k : nat) (w : bool * bool) => if (k =? 0)%nat then sg (fst w) else sg (snd w)).
  assert (HE : mean E).
  { constructor; unfold E; intros; rewrite ?H; lra. }
  assert (Hr : standard E r 2).
  { unfold standard, E, r, sg. repeat split; intros; try (destruct k as [|[|k]]; [| |lia]); try (destruct l as [|[|l]]; [| |lia]); cbn [Nat.eqb fst snd]; try lra; try lia. }
  assert (H0 : forall l, (l < 2)%nat -> E (fun w => (fun _ => 1) w * r l w) = 0).
  { intros l Hl. unfold E, r, sg. destruct l as [|[|l]]; [| |lia]; cbn [Nat.eqb fst snd]; lra. }
  exists E, r. split; [exact HE|]. split; [exact Hr|]. split; [exact H0|].
  assert (Hdt : forall l : nat, 0 <= (fun _ : nat => 1) l) by (intros; lra).
  destruct (C72_statistics E 1 1 (fun _ => 1) r (fun _ => 1) 2 HE Hr H0 ltac:(lra) ltac:(lra) Hdt) as (M & _).
  rewrite M, (mean_one E HE). rewrite Rmult_1_r. f_equal. cbn [sumR]. lra.
Qed.

Print Assumptions C72_energy.
Print Assumptions C72_time_scale.
Print Assumptions C72_statistics.
Print Assumptions C72_pass.
Print Assumptions C72_still_air.
Print Assumptions C73_tendency.
Print Assumptions C73_applied.
Print Assumptions C73_relaxation_partial.
Print Assumptions C73_relaxation_refuted.
Print Assumptions C72_length_scales.
Print Assumptions C72_instance.
