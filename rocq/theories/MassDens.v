(** * C55, continued: the mass density of droplets, integrated over all sizes, is the mass of the droplets *)
From Coq Require Import List Arith NArith ZArith Lia Reals Lra Bool.
From Coquelicot Require Import Coquelicot.
From Verif Require Import Base BaseProofs GaussInt LognormModel LognormProps ThermoModel CondPassModel MomsModel MomsProofs DiagModel DiagProps.
Import ListNotations.
Local Open Scope R_scope.

(** ** Specification *)
(** mass of the water in cell [c], in droplets selected, per volume of the cell: spheres of water *)
Definition selected_mass (P : parts) (E : cells) (S : nat -> bool) (c : nat) : R :=
  cellsum (p_np P) (p_ijk P) (fun i => if S i then N2R (p_n P i) * (4 / 3 * PI * wet_radius P i ^ 3 * rho_w) else 0) c / e_dv E c.

(** ** Integrals over the line *)
Lemma line_zero : integral_line (fun _ => 0) 0.
Proof.
  intros e He. exists 1. split; [lra|]. intros a b _ _. exists 0. split; [|rewrite Rminus_0_r, Rabs_R0; exact He].
  pose proof (is_RInt_const a b 0) as K. unfold scal in K; cbn in K; unfold mult in K; cbn in K. rewrite Rmult_0_r in K. exact K.
Qed.
Lemma line_plus f g l m : integral_line f l -> integral_line g m -> integral_line (fun x => f x + g x) (l + m).
Proof.
  intros F G e He. destruct (F (e / 2)) as (B & HB & K); [lra|]. destruct (G (e / 2)) as (B' & HB' & K'); [lra|].
  exists (Rmax B B'). pose proof (Rmax_l B B'). pose proof (Rmax_r B B'). split; [lra|]. intros a b Ha Hb.
  destruct (K a b) as (I & I1 & I2); [lra|lra|]. destruct (K' a b) as (J & J1 & J2); [lra|lra|].
  exists (I + J). split; [apply (is_RInt_plus (V := R_NormedModule)); assumption|].
  replace (I + J - (l + m)) with ((I - l) + (J - m)) by ring. eapply Rle_lt_trans; [apply Rabs_triang|]. lra.
Qed.
Lemma line_scal f l k : integral_line f l -> integral_line (fun x => k * f x) (k * l).
Proof.
  intros F e He. assert (Q : 0 < Rabs k + 1) by (pose proof (Rabs_pos k); lra).
  destruct (F (e / (Rabs k + 1))) as (B & HB & K); [apply Rdiv_lt_0_compat; assumption|].
  exists B. split; [exact HB|]. intros a b Ha Hb. destruct (K a b Ha Hb) as (I & I1 & I2). exists (k * I). split.
  - apply (is_RInt_scal (V := R_NormedModule)). exact I1.
  - replace (k * I - k * l) with (k * (I - l)) by ring. rewrite Rabs_mult. pose proof (Rabs_pos k). pose proof (Rabs_pos (I - l)).
    apply Rle_lt_trans with ((Rabs k + 1) * Rabs (I - l)); [nra|].
    apply Rlt_le_trans with ((Rabs k + 1) * (e / (Rabs k + 1))); [now apply Rmult_lt_compat_l|].
    right. field. lra.
Qed.
Lemma line_sum m (f : nat -> R -> R) (l : nat -> R) :
  (forall i, (i < m)%nat -> integral_line (f i) (l i)) -> integral_line (fun x => sumR m (fun i => f i x)) (sumR m l).
Proof.
  induction m as [|m IH]; intros H; cbn [sumR]; [apply line_zero|]. apply line_plus; [apply IH; intros; apply H; lia|apply H; lia].
Qed.

(** the normal distribution of the logarithm of radius about that of a droplet *)
Lemma line_gauss m s : 0 < s -> integral_line (fun u => exp (- (((m - u) / s) ^ 2) / 2)) (s * sqrt 2 * sqrt PI).
Proof.
  intros Hs. assert (H2 : 0 < sqrt 2) by (apply sqrt_lt_R0; lra). assert (S2 : sqrt 2 * sqrt 2 = 2) by (apply sqrt_sqrt; lra).
  set (k := s * sqrt 2). assert (Hk : 0 < k) by (unfold k; now apply Rmult_lt_0_compat).
  replace (k * sqrt PI) with (k * (sqrt PI / 2) - k * - (sqrt PI / 2)) by field.
  apply (line_of_primitive (fun u => k * gint ((u - m) / k))).
  - intros x. replace (exp (- (((m - x) / s) ^ 2) / 2)) with (k * (/ k * gauss ((x - m) / k))).
    + apply (is_derive_scal (fun u => gint ((u - m) / k))).
      apply (is_derive_comp gint (fun u => (u - m) / k) x (gauss ((x - m) / k)) (/ k)); [apply gint_derive|]. auto_derive; [exact I|]. field. lra.
    + unfold gauss. rewrite <- Rmult_assoc, Rinv_r, Rmult_1_l by lra. f_equal. unfold k.
      replace ((x - m) / (s * sqrt 2) * ((x - m) / (s * sqrt 2))) with ((x - m) * (x - m) / (s * s * (sqrt 2 * sqrt 2))) by (field; lra).
      rewrite S2. field. lra.
  - intros x. apply (ex_derive_continuous (K := R_AbsRing) (V := R_NormedModule)). auto_derive. exact I.
  - intros e He. destruct (gint_limit (e / k)) as (B & HB & K); [apply Rdiv_lt_0_compat; assumption|].
    exists (k * B + Rabs m). pose proof (Rabs_pos m). split; [assert (0 < k * B) by (now apply Rmult_lt_0_compat); lra|].
    intros x Hx. pose proof (Rle_abs m). pose proof (Rle_abs (- m)). rewrite Rabs_Ropp in *.
    assert (Kb : forall y, Rabs y < e / k -> Rabs (k * y) < e).
    { intros y Hy. rewrite Rabs_mult, (Rabs_pos_eq k) by lra. replace e with (k * (e / k)) by (field; lra). now apply Rmult_lt_compat_l. }
    assert (Q : forall z, k * B <= z -> B <= z / k).
    { intros z Hz. apply Rmult_le_reg_l with k; [exact Hk|]. replace (k * (z / k)) with z by (field; lra). exact Hz. }
    split.
    + rewrite <- Rmult_minus_distr_l. apply Kb, (K ((x - m) / k)). apply Q. lra.
    + rewrite <- Rmult_minus_distr_l. apply Kb. replace ((- x - m) / k) with (- ((x + m) / k)) by (field; lra).
      replace (gint (- ((x + m) / k)) - - (sqrt PI / 2)) with (gint (- ((x + m) / k)) + sqrt PI / 2) by ring.
      apply (K ((x + m) / k)). apply Q. lra.
Qed.

(** ** The estimate *)
Theorem C55_total_mass P E S sig0 c :
  0 < sig0 -> occupied (p_np P) (p_ijk P) c ->
  integral_line (fun lnr => wet_mass_density P E S (exp lnr) sig0 c) (selected_mass P E S c).
Proof.
  intros Hs [j [Hj Hjc]].
  set (cnt := cellsum (p_np P) (p_ijk P) (fun _ => 1) c).
  assert (Hcnt : 0 < cnt).
  { unfold cnt, cellsum. apply Rlt_le_trans with (sumR (p_np P) (fun i => if (i =? j)%nat then 1 else 0)).
    - clear - Hj. induction (p_np P) as [|n IH]; [lia|]. cbn [sumR]. destruct (Nat.eq_dec n j) as [->|D].
      + rewrite Nat.eqb_refl. assert (0 <= sumR j (fun i => if (i =? j)%nat then 1 else 0)); [|lra].
        clear. generalize j at 1. intros m. induction m as [|m IH]; cbn [sumR]; [lra|]. destruct (m =? j)%nat; lra.
      + replace (n =? j)%nat with false by (symmetry; now apply Nat.eqb_neq). rewrite Rplus_0_r. apply IH. lia.
    - clear - Hjc. induction (p_np P) as [|n IH]; cbn [sumR]; [lra|]. destruct (Nat.eqb_spec n j) as [->|D].
      + rewrite Hjc, Nat.eqb_refl. lra.
      + destruct (p_ijk P n =? c)%nat; lra. }
  set (sig := sig0 / cpow cnt (1 / 5)).
  assert (Hsig : 0 < sig).
  { unfold sig. apply Rdiv_lt_0_compat; [exact Hs|]. unfold cpow. destruct (Rlt_dec 0 cnt); [apply exp_pos|contradiction]. }
  assert (K : integral_line
    (fun lnr => 4 / 3 * rho_w * sqrt (PI / 2) / e_dv E c * sumR (p_np P) (fun i =>
       (if (p_ijk P i =? c)%nat then if S i then N2R (p_n P i) / sig * wet_radius P i ^ 3 else 0 else 0) * exp (- (((ln (wet_radius P i) - lnr) / sig) ^ 2) / 2)))
    (4 / 3 * rho_w * sqrt (PI / 2) / e_dv E c * sumR (p_np P) (fun i =>
       (if (p_ijk P i =? c)%nat then if S i then N2R (p_n P i) / sig * wet_radius P i ^ 3 else 0 else 0) * (sig * sqrt 2 * sqrt PI)))).
  { apply line_scal. apply line_sum. intros i Hi. apply line_scal. apply line_gauss. exact Hsig. }
  match type of K with integral_line _ ?v => replace (selected_mass P E S c) with v end.
  - revert K. apply integral_line_ext. intros u. unfold wet_mass_density. fold cnt. unfold sum_selected, cellsum, kernel_estimate. fold sig. rewrite ln_exp.
    set (a := 4 / 3 * rho_w * sqrt (PI / 2)).
    match goal with |- a / ?d * ?x = a * ?y / ?d => replace x with y; [unfold Rdiv; ring|] end.
    apply sumR_ext. intros i _. destruct (p_ijk P i =? c)%nat; [|ring]. destruct (S i); ring.
  - unfold selected_mass, cellsum. assert (HP : 0 < PI) by apply PI_RGT_0.
    assert (S1 : sqrt (PI / 2) * (sqrt 2 * sqrt PI) = PI).
    { rewrite <- sqrt_mult by lra. rewrite <- sqrt_mult by lra. replace (PI / 2 * (2 * PI)) with (PI * PI) by field. apply sqrt_square. lra. }
    match goal with |- ?a / ?d * ?x = ?y / ?d => replace y with (a * x); [unfold Rdiv; ring|] end.
    rewrite <- sumR_scal. apply sumR_ext. intros i _. destruct (p_ijk P i =? c)%nat; [|ring]. destruct (S i); [|ring].
    transitivity (N2R (p_n P i) * (4 / 3 * (sqrt (PI / 2) * (sqrt 2 * sqrt PI)) * wet_radius P i ^ 3 * rho_w)); [field; lra|].
    rewrite S1. reflexivity.
Qed.


(** as the user gets it: diag_wet_mass_dens and outbuf at every radius after some selections *)
Theorem C55_mass_integral o X fall sijk sid c0 r st st1 S0 sig0 :
  0 < sig0 -> diag_ok sijk sid st -> List.Forall range_ok (c0 :: r) -> starts c0 -> diags o X fall sijk sid (c0 :: r) st = Some st1 ->
  (forall c, (c < e_nc (g_E st1))%nat -> occupied (p_np (g_P st1)) (p_ijk (g_P st1)) c) ->
  forall cell, (cell < e_nc (g_E st1))%nat ->
  integral_line
    (fun lnr => match diag o X fall sijk sid (c_mass_dens (exp lnr) sig0) st1 with Some st2 => fst (outbuf sijk sid st2) cell | None => 0 end)
    (selected_mass (g_P st1) (g_E st1) (selected o X fall sijk sid (c0 :: r) st S0) cell).
Proof.
  intros Hs Hok Hr Hc Hd Hall cell Hcell.
  apply (integral_line_ext (fun lnr => wet_mass_density (g_P st1) (g_E st1) (selected o X fall sijk sid (c0 :: r) st S0) (exp lnr) sig0 cell)).
  - intros lnr. destruct (diag o X fall sijk sid (c_mass_dens (exp lnr) sig0) st1) as [st2|] eqn:E; [|discriminate E].
    symmetry. exact (C55_mass_density_partial o X fall sijk sid c0 r st st1 S0 (exp lnr) sig0 st2 Hok Hr Hc Hd Hall E cell Hcell).
  - apply C55_total_mass; [exact Hs|]. now apply Hall.
Qed.

(** an instance: two cells, three droplets of 10 um, of which one is in the first cell *)
Definition two_cells : cells :=
  mk_cells 2 (fun _ => 1 / 100) (fun _ => 300) (fun _ => 1) (fun _ => 100000) (fun _ => 0) (fun _ => 0) (fun _ => 0) (fun _ => 0) (fun _ => 2).
Definition drops3 : parts :=
  mk_parts 3 (fun i => if (i =? 0)%nat then 0%nat else 1%nat) (fun _ => 1000%N) (fun _ => 1 / 10 ^ 10) (fun _ => 1 / 10 ^ 21) (fun _ => 1) (fun _ => 0)
    (fun _ => 0) (fun _ => 0) (fun _ => 0) (fun _ => 0) (fun _ => 0) (fun _ => 0).
Definition state3 : dst := mk_dst drops3 two_cells (fun _ => 0) (fun _ => O) (fun _ => 0) (fun _ => 0) O.
Definition sijk3 : list nat := map (p_ijk drops3) (seq 0 3).
Theorem C55_mass_instance o X fall :
  integral_line
    (fun lnr => match diags o X fall sijk3 (seq 0 3) [c_all; c_mass_dens (exp lnr) (62 / 100)] state3 with Some st2 => fst (outbuf sijk3 (seq 0 3) st2) 1%nat | None => 0 end)
    (1000 * (4 / 3 * PI * (1 / 10 ^ 5) ^ 3 * rho_w)).
Proof.
  assert (Hs : sorted_pop 3 (p_ijk drops3) sijk3 (seq 0 3)) by (apply sorted_pop_id; cbn; repeat (constructor; try lia)).
  assert (Hok : diag_ok sijk3 (seq 0 3) state3).
  { unfold diag_ok, state3. cbn [g_P g_E]. split; [exact Hs|]. unfold drops3, two_cells; cbn [p_np p_ijk p_rw2 p_rd3 e_nc e_rhod e_dv].
    split; [intros i _; destruct (i =? 0)%nat; lia|]. repeat split; intros; lra. }
  assert (Hrw : sqrt (1 / 10 ^ 10) = 1 / 10 ^ 5).
  { replace (1 / 10 ^ 10) with ((1 / 10 ^ 5) * (1 / 10 ^ 5)) by lra. apply sqrt_square. lra. }
  assert (Hd : diags o X fall sijk3 (seq 0 3) [c_all] state3 = Some (set_sel state3 (n_real drops3))) by reflexivity.
  pose proof (C55_mass_integral o X fall sijk3 (seq 0 3) c_all [] state3 _ (fun _ => true) (62 / 100)
    ltac:(lra) Hok ltac:(repeat constructor) I Hd) as K.
  specialize (K ltac:(intros c Hc; exists c; cbn in Hc; cbn; split; [lia|destruct (c =? 0)%nat eqn:E; [apply Nat.eqb_eq in E; lia|apply Nat.eqb_neq in E; lia]]) 1%nat ltac:(cbn; lia)).
  match type of K with integral_line _ ?v => replace (1000 * (4 / 3 * PI * (1 / 10 ^ 5) ^ 3 * rho_w)) with v end; [exact K|].
  unfold selected_mass, cellsum, wet_radius. cbn [g_P g_E set_sel state3 drops3 two_cells p_np p_ijk p_rw2 p_n e_dv sumR Nat.eqb selected].
  rewrite Hrw. replace (N2R 1000) with 1000 by (unfold N2R; cbn [Z.of_N]; lra). cbn. field.
Qed.
Print Assumptions C55_total_mass.
Print Assumptions C55_mass_integral.
Print Assumptions C55_mass_instance.
