(** C84: the flow of the kinematic model and the Courant numbers it gives to the particles.  C85: the kinematic model drives the particles one call at a time,
    whatever the background thread does; spin-up and relaxation. *)
From Coq Require Import Reals ZArith List Bool Lra Lia Psatz.
From Verif Require Import Base BaseProofs ThermoModel ThermoProofs LognormModel LognormProps MotionModel KinModel.
Import ListNotations.
Local Open Scope R_scope.

(** * C84: the flow *)
(** a set-up that makes sense: at least two points in each direction, positive lengths, and air in all of the domain and half a cell around *)
Definition sensible (s : setup) (nx nz : Z) : Prop :=
  (2 <= nx)%Z /\ (2 <= nz)%Z /\ 0 < X_dom s /\ 0 < Z_dom s /\ 0 < dt_s s /\ 0 < th_0 s /\ 0 <= rv_0 s /\ 0 < p_0 s /\
  Z_dom s + dz s nz < z_top (th_0 s) (rv_0 s) (z_0 s) (p_0 s).

Lemma sensible_pos s nx nz : sensible s nx nz -> 0 < IZR nx - 1 /\ 0 < IZR nz - 1 /\ 0 < dx s nx /\ 0 < dz s nz /\ 0 < dt_s s.
Proof.
  intros (H1 & H2 & H3 & H4 & H5 & _). apply IZR_le in H1, H2. unfold dx, dz. repeat split; try lra; apply Rdiv_lt_0_compat; lra.
Qed.

Lemma rhod_pos_dec s nx nz z1 z2 : sensible s nx nz -> z1 < z2 -> z2 <= Z_dom s + dz s nz -> 0 < rhod s z2 < rhod s z1.
Proof.
  intros (H1 & H2 & H3 & H4 & H5 & H6 & H7 & H8 & H9) L Hz.
  destruct (C76_hydrostatic (th_0 s) (rv_0 s) (z_0 s) (p_0 s) H6 H7 H8) as (_ & P & D & _).
  assert (T2 : z2 < z_top (th_0 s) (rv_0 s) (z_0 s) (p_0 s)) by lra.
  assert (T1 : z1 < z_top (th_0 s) (rv_0 s) (z_0 s) (p_0 s)) by lra.
  destruct (P z1 T1) as (P1 & _). destruct (P z2 T2) as (P2 & _). pose proof (D _ _ L T2) as Q. unfold rhod.
  set (a := hydro_p z1 _ _ _ _) in *. set (b := hydro_p z2 _ _ _ _) in *. clearbody a b.
  destruct gas as (G1 & G2 & G3 & _).
  assert (K : forall p, 0 < p -> std_rhod p (th_0 s) (rv_0 s) = Rpower (p / p_1000) (1 - R_d / c_pd) * (p_1000 * (eps / (rv_0 s + eps)) / (R_d * th_0 s))).
  { intros p Hp. unfold std_rhod, p_v. assert (Hq : 0 < p / p_1000) by (unfold p_1000; lra). rewrite cpow_pos_eq by exact Hq.
    unfold Rminus at 2. rewrite Rpower_plus, Rpower_1, Rpower_Ropp by exact Hq. pose proof (exp_pos (R_d / c_pd * ln (p / p_1000))) as E. fold (Rpower (p / p_1000) (R_d / c_pd)) in E.
    unfold p_1000 at 2 3. unfold p_1000 in *. field. repeat split; lra. }
  rewrite (K a P1), (K b P2). set (c := p_1000 * _ / _).
  assert (Hc : 0 < c). { unfold c, p_1000. apply Rdiv_lt_0_compat; [|nra]. apply Rmult_lt_0_compat; [lra|]. apply Rdiv_lt_0_compat; lra. }
  assert (Hk : 0 < 1 - R_d / c_pd). { unfold R_d, c_pd, kaBoNA, M_d. lra. }
  split. { apply Rmult_lt_0_compat; [apply exp_pos|exact Hc]. }
  apply Rmult_lt_compat_r; [exact Hc|]. unfold Rpower. apply exp_increasing. apply Rmult_lt_compat_l; [exact Hk|].
  apply ln_increasing; unfold p_1000; lra.
Qed.

(** *** Stream function *)
Lemma psi_shift x z : psi (x + 1) z = psi x z.
Proof. unfold psi. replace (PI * (2 * (x + 1))) with (PI * (2 * x) + 2 * PI) by ring. rewrite cos_plus, cos_2PI, sin_2PI. ring. Qed.
Lemma psi_odd x z : psi x (- z) = - psi x z.
Proof. unfold psi. replace (PI * - z) with (- (PI * z)) by ring. rewrite sin_neg. ring. Qed.
Lemma psi_top x z : psi x (1 + z) = - psi x (1 - z).
Proof.
  unfold psi. replace (PI * (1 + z)) with (PI * z + PI) by ring. replace (PI * (1 - z)) with (- (PI * z) + PI) by ring.
  rewrite !neg_sin, sin_neg. ring.
Qed.
Lemma diff_x x h z : psi (x + h) z - psi (x - h) z = 2 * sin (PI * z) * sin (2 * PI * x) * sin (2 * PI * h).
Proof.
  unfold psi. replace (PI * (2 * (x + h))) with (2 * PI * x + 2 * PI * h) by ring. replace (PI * (2 * (x - h))) with (2 * PI * x - 2 * PI * h) by ring.
  rewrite cos_plus, cos_minus. ring.
Qed.
Lemma diff_z x z h : psi x (z + h) - psi x (z - h) = - 2 * cos (PI * z) * sin (PI * h) * cos (PI * (2 * x)).
Proof.
  unfold psi. replace (PI * (z + h)) with (PI * z + PI * h) by ring. replace (PI * (z - h)) with (PI * z - PI * h) by ring.
  rewrite sin_plus, sin_minus. ring.
Qed.
Lemma abs_sin_le x : Rabs (sin x) <= 1. Proof. apply Rabs_le. destruct (SIN_bound x). lra. Qed.
Lemma abs_cos_le x : Rabs (cos x) <= 1. Proof. apply Rabs_le. destruct (COS_bound x). lra. Qed.
Lemma abs_sin_small x : 0 <= x -> Rabs (sin x) <= x.
Proof.
  intros [H|<-]; [|rewrite sin_0, Rabs_R0; lra]. pose proof (sin_lt_x x H) as U. apply Rabs_le. split; [|lra].
  destruct (Rle_lt_dec x PI) as [L|L]. { pose proof (sin_ge_0 x). lra. } pose proof (SIN_bound x). pose proof PI2_3_2. lra.
Qed.
Lemma abs3 a b c m : Rabs a <= 1 -> Rabs b <= 1 -> Rabs c <= m -> Rabs (a * b * c) <= m.
Proof.
  intros H1 H2 H3. rewrite !Rabs_mult. pose proof (Rabs_pos a). pose proof (Rabs_pos b). pose proof (Rabs_pos c).
  assert (Rabs a * Rabs b <= 1) by nra. assert (0 <= Rabs a * Rabs b) by (apply Rmult_le_pos; lra). nra.
Qed.

(** *** The numbers *)
Section Flow.
  Variables (s : setup) (nx nz : Z).
  Hypothesis S : sensible s nx nz.
  Let Nx := IZR nx - 1. Let Nz := IZR nz - 1.
  Lemma adv_z_form i j : adv_z s nx nz i j =
    w_max s * dt_s s / dz s nz * ((sin (PI * ((IZR j + /2) / Nz)) * sin (2 * PI * (IZR i / Nx)) * sin (PI / Nx)) * (Nx / PI)).
  Proof.
    destruct (sensible_pos _ _ _ S) as (P1 & P2 & P3 & P4 & P5). fold Nx in P1. fold Nz in P2. pose proof PI_RGT_0 as PP. unfold adv_z, amp. fold Nx Nz.
    replace ((IZR i + /2) / Nx) with (IZR i / Nx + /2 / Nx) by (field; lra). replace ((IZR i - /2) / Nx) with (IZR i / Nx - /2 / Nx) by (field; lra).
    rewrite diff_x. replace (2 * PI * (/2 / Nx)) with (PI / Nx) by (field; lra). field. repeat split; lra.
  Qed.
  Lemma adv_x_form i j : adv_x s nx nz i j =
    w_max s * (X_dom s / Z_dom s) / 2 * dt_s s / dx s nx * ((cos (PI * (IZR j / Nz)) * cos (PI * (2 * ((IZR i + /2) / Nx))) * sin (PI * (/2 / Nz))) * (2 * Nz / PI)).
  Proof.
    destruct (sensible_pos _ _ _ S) as (P1 & P2 & P3 & P4 & P5). fold Nx in P1. fold Nz in P2. pose proof PI_RGT_0 as PP. destruct S as (_ & _ & S3 & S4 & _).
    unfold adv_x, amp. fold Nx Nz.
    replace ((IZR j + /2) / Nz) with (IZR j / Nz + /2 / Nz) by (field; lra). replace ((IZR j - /2) / Nz) with (IZR j / Nz - /2 / Nz) by (field; lra).
    rewrite diff_z. unfold dz, dx. fold Nx Nz. field. repeat split; lra.
  Qed.
  Lemma no_divergence i j : adv_x s nx nz i j - adv_x s nx nz (i - 1) j + (adv_z s nx nz i j - adv_z s nx nz i (j - 1)) = 0.
  Proof.
    destruct (sensible_pos _ _ _ S) as (P1 & P2 & P3 & P4 & P5). unfold adv_x, adv_z. rewrite !minus_IZR.
    replace (IZR i - 1 + /2) with (IZR i - /2) by lra. replace (IZR j - 1 + /2) with (IZR j - /2) by lra. field. lra.
  Qed.
  Lemma periodic i j : adv_x s nx nz (i + (nx - 1)) j = adv_x s nx nz i j /\ adv_z s nx nz (i + (nx - 1)) j = adv_z s nx nz i j.
  Proof.
    destruct (sensible_pos _ _ _ S) as (P1 & P2 & P3 & P4 & P5). unfold adv_x, adv_z. rewrite plus_IZR, minus_IZR. fold Nx Nz. fold Nx in P1.
    replace ((IZR i + Nx + /2) / Nx) with ((IZR i + /2) / Nx + 1) by (field; lra). replace ((IZR i + Nx - /2) / Nx) with ((IZR i - /2) / Nx + 1) by (field; lra).
    rewrite !psi_shift. split; reflexivity.
  Qed.
  Lemma ground i : adv_z s nx nz i (-1) = - adv_z s nx nz i 0.
  Proof.
    destruct (sensible_pos _ _ _ S) as (P1 & P2 & P3 & P4 & P5). unfold adv_z. fold Nx Nz. fold Nz in P2. fold Nx in P1.
    replace ((-1 + /2) / Nz) with (- ((0 + /2) / Nz)) by (field; lra). rewrite !psi_odd. field. lra.
  Qed.
  Lemma top i : adv_z s nx nz i (nz - 1) = - adv_z s nx nz i (nz - 2).
  Proof.
    destruct (sensible_pos _ _ _ S) as (P1 & P2 & P3 & P4 & P5). unfold adv_z. rewrite !minus_IZR. fold Nx Nz. fold Nz in P2. fold Nx in P1.
    replace ((Nz + /2) / Nz) with (1 + /2 / Nz) by (field; lra). replace ((IZR nz - 2 + /2) / Nz) with (1 - /2 / Nz) by (unfold Nz in *; field; lra).
    rewrite !psi_top. field. lra.
  Qed.
  Lemma up i j : 0 < w_max s -> (0 < 2 * i < nx - 1)%Z -> (0 <= j < nz - 1)%Z -> 0 < adv_z s nx nz i j.
  Proof.
    intros W Hi Hj. destruct (sensible_pos _ _ _ S) as (P1 & P2 & P3 & P4 & P5). rewrite adv_z_form. fold Nx in P1. fold Nz in P2. pose proof PI_RGT_0 as PP.
    assert (N2 : 1 < Nx). { assert (3 <= nx)%Z as Q by lia. apply IZR_le in Q. unfold Nx. lra. }
    apply Rmult_lt_0_compat; [apply Rdiv_lt_0_compat; [apply Rmult_lt_0_compat; assumption|lra]|]. apply Rmult_lt_0_compat; [|apply Rdiv_lt_0_compat; lra].
    assert (F : forall a b, 0 < b -> 0 < a < b -> 0 < PI * (a / b) < PI).
    { intros a b Hb Ha. assert (0 < a / b < 1). { split; [apply Rdiv_lt_0_compat; lra|]. apply Rmult_lt_reg_r with b; [lra|]. unfold Rdiv. rewrite Rmult_assoc, Rinv_l; lra. } nra. }
    destruct Hi as (Ha & Hb). apply IZR_lt in Ha, Hb. rewrite mult_IZR in Ha. rewrite mult_IZR, minus_IZR in Hb. destruct Hj as (Hc & Hd). apply IZR_le in Hc. assert (j + 1 <= nz - 1)%Z as Hd' by lia. apply IZR_le in Hd'. rewrite plus_IZR, minus_IZR in Hd'.
    apply Rmult_lt_0_compat; [apply Rmult_lt_0_compat|]; apply sin_gt_0.
    1,2: apply F; unfold Nz in *; try split; lra.
    1,2: replace (2 * PI * (IZR i / Nx)) with (PI * (2 * IZR i / Nx)) by (field; lra); apply F; unfold Nx in *; try split; lra.
    1,2: replace (PI / Nx) with (PI * (1 / Nx)) by (field; lra); apply F; try split; lra.
  Qed.
  Lemma down i j : 0 < w_max s -> (nx - 1 < 2 * i < 2 * (nx - 1))%Z -> (0 <= j < nz - 1)%Z -> adv_z s nx nz i j < 0.
  Proof.
    intros W Hi Hj. pose proof (up ((nx - 1) - i) j W ltac:(lia) Hj) as U. destruct (sensible_pos _ _ _ S) as (P1 & P2 & P3 & P4 & P5). fold Nx in P1.
    rewrite adv_z_form in U |- *. rewrite minus_IZR, minus_IZR in U. fold Nx in U.
    replace (2 * PI * ((Nx - IZR i) / Nx)) with (- (2 * PI * (IZR i / Nx)) + 2 * PI) in U by (field; lra).
    rewrite sin_plus, cos_2PI, sin_2PI, sin_neg in U. lra.
  Qed.
  Lemma small_sin N : 0 < N -> Rabs (sin (PI / N)) <= PI / N.
  Proof. intros H. apply abs_sin_small. left. apply Rdiv_lt_0_compat; [apply PI_RGT_0|exact H]. Qed.
  Lemma bound_z i j : Rabs (adv_z s nx nz i j) * (dz s nz / dt_s s) <= Rabs (w_max s).
  Proof.
    destruct (sensible_pos _ _ _ S) as (P1 & P2 & P3 & P4 & P5). fold Nx in P1. pose proof PI_RGT_0 as PP. rewrite adv_z_form.
    set (a := _ * _ * sin (PI / Nx)). assert (B : Rabs a <= PI / Nx) by (apply abs3; [apply abs_sin_le|apply abs_sin_le|apply small_sin, P1]). clearbody a.
    unfold Rdiv at 1 2. rewrite !Rabs_mult, !Rabs_inv, (Rabs_right (dt_s s)), (Rabs_right (dz s nz)), (Rabs_right Nx), (Rabs_right PI) by lra.
    replace (Rabs (w_max s) * dt_s s * / dz s nz * (Rabs a * (Nx * / PI)) * (dz s nz / dt_s s)) with (Rabs (w_max s) * (Rabs a * (Nx / PI))) by (field; lra).
    pose proof (Rabs_pos (w_max s)). assert (Rabs a * (Nx / PI) <= 1); [|nra]. apply Rle_trans with (PI / Nx * (Nx / PI)); [|right; field; lra].
    apply Rmult_le_compat_r; [left; apply Rdiv_lt_0_compat; lra|exact B].
  Qed.
  Lemma bound_x i j : Rabs (adv_x s nx nz i j) * (dx s nx / dt_s s) <= Rabs (w_max s) * (X_dom s / (2 * Z_dom s)).
  Proof.
    destruct (sensible_pos _ _ _ S) as (P1 & P2 & P3 & P4 & P5). fold Nz in P2. pose proof PI_RGT_0 as PP. destruct S as (_ & _ & S3 & S4 & _). rewrite adv_x_form.
    set (a := _ * _ * sin (PI * (/2 / Nz))). assert (B : Rabs a <= PI / (2 * Nz)).
    { apply abs3; [apply abs_cos_le|apply abs_cos_le|]. replace (PI * (/2 / Nz)) with (PI / (2 * Nz)) by (field; lra). apply small_sin. lra. } clearbody a.
    assert (Q1 : Rabs (X_dom s / Z_dom s) = X_dom s / Z_dom s). { apply Rabs_right. left. apply Rdiv_lt_0_compat; lra. }
    assert (Q2 : Rabs (2 * Nz / PI) = 2 * Nz / PI). { apply Rabs_right. left. apply Rdiv_lt_0_compat; lra. }
    assert (Q3 : Rabs (w_max s * (X_dom s / Z_dom s) / 2 * dt_s s / dx s nx * (a * (2 * Nz / PI))) =
      Rabs (w_max s) * (X_dom s / Z_dom s) * / 2 * dt_s s * / dx s nx * (Rabs a * (2 * Nz / PI))).
    { set (q := X_dom s / Z_dom s) in *. set (m := 2 * Nz / PI) in *. clearbody q m. unfold Rdiv.
      rewrite !Rabs_mult, !Rabs_inv, Q1, Q2, (Rabs_right (dt_s s)), (Rabs_right (dx s nx)), (Rabs_right 2) by lra. reflexivity. }
    rewrite Q3. clear Q1 Q2 Q3.
    replace (Rabs (w_max s) * (X_dom s / Z_dom s) * / 2 * dt_s s * / dx s nx * (Rabs a * (2 * Nz / PI)) * (dx s nx / dt_s s))
      with (Rabs (w_max s) * (X_dom s / (2 * Z_dom s)) * (Rabs a * (2 * Nz / PI))) by (field; lra).
    rewrite <- (Rmult_1_r (Rabs (w_max s) * _)) at 2. apply Rmult_le_compat_l.
    { apply Rmult_le_pos; [apply Rabs_pos|]. left. apply Rdiv_lt_0_compat; lra. }
    apply Rle_trans with (PI / (2 * Nz) * (2 * Nz / PI)); [|right; field; lra].
    apply Rmult_le_compat_r; [left; apply Rdiv_lt_0_compat; lra|exact B].
  Qed.
End Flow.

(** The prescribed momentum has no divergence in any cell, is periodic, vanishes at the ground and at the top, goes up in the left half of the domain and down in
    the right half, nowhere faster than asked for. *)
Theorem C84_flow s nx nz : sensible s nx nz ->
  let GCx := adv_x s nx nz in let GCz := adv_z s nx nz in
  (forall i j, GCx i j - GCx (i - 1)%Z j + (GCz i j - GCz i (j - 1)%Z) = 0) /\
  (forall i j, GCx (i + (nx - 1))%Z j = GCx i j /\ GCz (i + (nx - 1))%Z j = GCz i j) /\
  (forall i, (GCz i (-1)%Z + GCz i 0%Z) / 2 = 0 /\ (GCz i (nz - 2)%Z + GCz i (nz - 1)%Z) / 2 = 0) /\
  (0 < w_max s -> forall i j, (0 <= j < nz - 1)%Z ->
     ((0 < 2 * i < nx - 1)%Z -> 0 < GCz i j) /\ ((nx - 1 < 2 * i < 2 * (nx - 1))%Z -> GCz i j < 0)) /\
  (forall i j, Rabs (GCz i j) * (dz s nz / dt_s s) <= Rabs (w_max s) /\
               Rabs (GCx i j) * (dx s nx / dt_s s) <= Rabs (w_max s) * (X_dom s / (2 * Z_dom s))).
Proof.
  intros S GCx GCz. unfold GCx, GCz. split; [intros i j; apply no_divergence, S|]. split; [intros i j; apply periodic, S|].
  split. { intros i. rewrite (ground s nx nz S), (top s nx nz S). split; lra. }
  split. { intros W i j Hj. split; intros Hi; [apply up; assumption|apply down; assumption]. }
  intros i j. split; [apply bound_z, S|apply bound_x, S].
Qed.

(** The Courant numbers given to the particles: if the solver's [dj] is the spacing of levels, the mass of air that they carry into each cell leaves it; and the
    particles live between the middles of the outermost cells, a region as large as the domain. *)
Theorem C84_courants s nx nz i j : sensible s nx nz -> (0 <= j < nz)%Z ->
  let h := dz s nz in let cx := cour_x s h nx nz in let cz := cour_z s h nx nz in
  rhod s (IZR j * h) * (cx (i + 1)%Z j - cx i j) + (rhod s ((IZR j + /2) * h) * cz i (j + 1)%Z - rhod s ((IZR j - /2) * h) * cz i j) = 0 /\
  part_x1 s nx - part_x0 s nx = X_dom s /\ part_z1 s nz - part_z0 s nz = Z_dom s /\
  0 < part_x0 s nx < dx s nx /\ IZR (nx - 1) * dx s nx < part_x1 s nx < IZR nx * dx s nx /\
  0 < part_z0 s nz < dz s nz /\ IZR (nz - 1) * dz s nz < part_z1 s nz < IZR nz * dz s nz.
Proof.
  intros S Hj h cx cz. destruct (sensible_pos _ _ _ S) as (P1 & P2 & P3 & P4 & P5). split.
  - pose proof (no_divergence s nx nz S i j) as D. unfold cx, cz, cour_x, cour_z.
    replace (i + 1 - 1)%Z with i by lia. replace (j + 1 - 1)%Z with j by lia. rewrite plus_IZR. replace ((IZR j + 1 - /2) * h) with ((IZR j + /2) * h) by lra.
    destruct Hj as (Hj & Hj'). apply IZR_le in Hj. assert (j <= nz - 1)%Z as Hj2 by lia. apply IZR_le in Hj2. rewrite minus_IZR in Hj2.
    assert (Hh : 0 < h) by exact P4. assert (EZ : (IZR nz - 1) * h = Z_dom s) by (unfold h, dz; field; lra).
    assert (Q : forall z, z <= Z_dom s + h / 2 -> 0 < rhod s z). { intros z Hz. apply (rhod_pos_dec s nx nz (z - 1) z S); [lra|]. fold h. lra. }
    pose proof (Q (IZR j * h) ltac:(nra)). pose proof (Q ((IZR j + /2) * h) ltac:(nra)). pose proof (Q ((IZR j - /2) * h) ltac:(nra)).
    transitivity (adv_x s nx nz i j - adv_x s nx nz (i - 1) j + (adv_z s nx nz i j - adv_z s nx nz i (j - 1))); [field; lra|exact D].
  - unfold part_x0, part_x1, part_z0, part_z1. rewrite !minus_IZR.
    assert (E1 : (IZR nx - 1) * dx s nx = X_dom s) by (unfold dx; field; lra). assert (E2 : (IZR nz - 1) * dz s nz = Z_dom s) by (unfold dz; field; lra).
    repeat split; lra.
Qed.

(** ... but the flow given to the particles does not stop at the ground: densities differ on the two sides of it, so that a droplet at the lower boundary is moved
    through it in downdraughts, with both ways of advection. *)
Theorem C84_ground_refuted s nx nz i : sensible s nx nz -> 0 < w_max s -> (nx - 1 < 2 * i < 2 * (nx - 1))%Z ->
  let h := dz s nz in let C_l := cour_z s h nx nz i 0 in let C_r := cour_z s h nx nz i 1 in
  (C_l + C_r) / 2 < 0 /\
  adve_helper_expl h true (part_z0 s nz) 0 C_l C_r < part_z0 s nz /\
  (C_r - C_l < 1 -> adve_helper_impl h true (part_z0 s nz) 0 C_l C_r < part_z0 s nz).
Proof.
  intros S W Hi h C_l C_r. destruct (sensible_pos _ _ _ S) as (P1 & P2 & P3 & P4 & P5).
  assert (HZ : Z_dom s > 0) by (destruct S as (_ & _ & _ & S4 & _); exact S4).
  assert (nz2 : (2 <= nz)%Z) by (destruct S as (_ & S2 & _); exact S2).
  pose proof (down s nx nz S i 0 W Hi ltac:(lia)) as D. pose proof (ground s nx nz S i) as G.
  assert (Hh : 0 < h) by exact P4.
  destruct (rhod_pos_dec s nx nz (- (h / 2)) (h / 2) S ltac:(lra)) as (R1 & R2). { fold h. lra. }
  assert (EL : C_l = - adv_z s nx nz i 0 / rhod s (- (h / 2))).
  { unfold C_l, cour_z. change (0 - 1)%Z with (-1)%Z. rewrite G. f_equal. f_equal. lra. }
  assert (ER : C_r = adv_z s nx nz i 0 / rhod s (h / 2)).
  { unfold C_r, cour_z. change (1 - 1)%Z with 0%Z. f_equal. f_equal. lra. }
  clearbody C_l C_r. set (g := adv_z s nx nz i 0) in *. clearbody g. set (a := rhod s (- (h / 2))) in *. set (b := rhod s (h / 2)) in *. clearbody a b.
  assert (M : C_l + C_r < 0).
  { rewrite EL, ER. assert (/ a < / b) by (apply Rinv_lt_contravar; [apply Rmult_lt_0_compat; lra|exact R2]). unfold Rdiv. nra. }
  assert (Q : part_z0 s nz = h / 2) by reflexivity. rewrite Q. unfold adve_helper_expl, adve_helper_impl. simpl INR.
  split; [lra|]. split; [nra|]. intros L. apply Rmult_lt_reg_r with (1 - (C_r - C_l)); [lra|]. unfold Rdiv at 1. rewrite Rmult_assoc, Rinv_l by lra. nra.
Qed.

(** [dj] is nowhere set in the repository.  Were it left at zero, the Courant numbers given to the particles would carry more air out of the cells of the
    updraught than into them. *)
Theorem C84_spacing_refuted s nx nz i j : sensible s nx nz -> 0 < w_max s -> (0 < 2 * i < nx - 1)%Z -> (0 < j < nz - 1)%Z ->
  let h := dz s nz in let cx := cour_x s 0 nx nz in let cz := cour_z s 0 nx nz in
  rhod s (IZR j * h) * (cx (i + 1)%Z j - cx i j) + (rhod s ((IZR j + /2) * h) * cz i (j + 1)%Z - rhod s ((IZR j - /2) * h) * cz i j) < 0.
Proof.
  intros S W Hi Hj h cx cz. destruct (sensible_pos _ _ _ S) as (P1 & P2 & P3 & P4 & P5). assert (Hh : 0 < h) by exact P4.
  pose proof (no_divergence s nx nz S i j) as D. pose proof (up s nx nz S i j W Hi ltac:(lia)) as U1. pose proof (up s nx nz S i (j - 1) W Hi ltac:(lia)) as U2.
  unfold cx, cz, cour_x, cour_z. replace (i + 1 - 1)%Z with i by lia. replace (j + 1 - 1)%Z with j by lia. rewrite !Rmult_0_r.
  assert (EZ : (IZR nz - 1) * h = Z_dom s) by (unfold h, dz; field; lra).
  destruct Hj as (Hj & Hj'). apply IZR_lt in Hj. assert (j + 1 <= nz - 1)%Z as Hj2 by lia. apply IZR_le in Hj2. rewrite plus_IZR, minus_IZR in Hj2.
  assert (B : IZR j * h + h <= Z_dom s) by nra. assert (B0 : 0 < IZR j * h) by (apply Rmult_lt_0_compat; assumption).
  destruct (rhod_pos_dec s nx nz ((IZR j - /2) * h) (IZR j * h) S) as (R1 & R2); [lra|fold h; lra|].
  destruct (rhod_pos_dec s nx nz (IZR j * h) ((IZR j + /2) * h) S) as (R3 & R4); [lra|fold h; lra|].
  destruct (rhod_pos_dec s nx nz (- 1) 0 S) as (R5 & _); [lra|fold h; lra|].
  assert (I : 0 < / rhod s 0) by (apply Rinv_0_lt_compat, R5). set (q := / rhod s 0) in *. unfold Rdiv. fold q. clearbody q.
  set (gx1 := adv_x s nx nz i j) in *. set (gx0 := adv_x s nx nz (i - 1) j) in *. set (g1 := adv_z s nx nz i j) in *. set (g0 := adv_z s nx nz i (j - 1)) in *.
  set (ra := rhod s (IZR j * h)) in *. set (rb := rhod s ((IZR j + /2) * h)) in *. set (rc := rhod s ((IZR j - /2) * h)) in *. clearbody gx1 gx0 g1 g0 ra rb rc.
  replace (ra * (gx1 * q - gx0 * q) + (rb * (g1 * q) - rc * (g0 * q))) with (q * ((rb - ra) * g1 + (ra - rc) * g0 + ra * (gx1 - gx0 + (g1 - g0)))) by ring.
  rewrite D, Rmult_0_r, Rplus_0_r. assert ((rb - ra) * g1 < 0) by nra. assert ((ra - rc) * g0 < 0) by nra. nra.
Qed.

(** the default set-up (opts_common.hpp:46-55, icicle.cpp:106-107) *)
Definition default_setup : setup :=
  {| th_0 := 289; rv_0 := 75 / 10000; p_0 := 101500; w_max := 6 / 10; z_0 := 0; Z_dom := 1500; X_dom := 1500; dt_s := 1 |}.
Theorem C84_instance : sensible default_setup 76 76 /\ dx default_setup 76 = 20 /\
  0 < adv_z default_setup 76 76 19 37 /\ adv_z default_setup 76 76 56 37 < 0.
Proof.
  assert (S : sensible default_setup 76 76).
  { unfold sensible, dz, default_setup; cbn [th_0 rv_0 p_0 w_max z_0 Z_dom X_dom dt_s]. repeat split; try lra; try lia.
    unfold z_top. destruct gas as (G1 & G2 & _ & _ & G5).
    assert (K : 1 <= Rpower (101500 / p_1000) (R_d / c_pd)).
    { rewrite <- (Rpower_O (101500 / p_1000)) at 1 by (unfold p_1000; lra). apply Rle_Rpower; [unfold p_1000; lra|]. left. apply Rdiv_lt_0_compat; assumption. }
    set (q := Rpower _ _) in *. clearbody q. replace 0 with (0 + 0) at 1 by ring.
    assert (E : q * 289 * ((R_d + 75 / 10000 * R_v) / (1 + 75 / 10000)) * c_pd / R_d / (981 / 100)
      = q * (289 * (1 + 75 / 10000 * (R_v / R_d)) / (1 + 75 / 10000) * c_pd / (981 / 100))) by (field; lra).
    rewrite E. assert (0 < R_v / R_d) by (apply Rdiv_lt_0_compat; assumption). unfold c_pd. set (y := R_v / R_d) in *. clearbody y.
    assert (2000 <= 289 * (1 + 75 / 10000 * y) / (1 + 75 / 10000) * 1005 / (981 / 100)) by lra. nra. }
  split; [exact S|]. split; [unfold dx, default_setup; cbn; lra|].
  split; [apply up|apply down]; try exact S; unfold default_setup; cbn; try lra; lia.
Qed.

Print Assumptions C84_flow.
Print Assumptions C84_courants.
Print Assumptions C84_ground_refuted.
Print Assumptions C84_spacing_refuted.
Print Assumptions C84_instance.
