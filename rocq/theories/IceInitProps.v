(** C53: statistics of freezing; C54: freezing temperatures of new super-droplets. *)
From Coq Require Import Reals Arith Bool Lra Lia.
From Verif Require Import Base BaseProofs ThermoModel ThermoProofs CondPassModel IceInitModel.
Local Open Scope R_scope.

(** ** specification *)
(** number of active sites per unit area of a mineral at temperature [T] *)
Definition sites (T : R) : R := exp (- 0.517 * (T - 273.15) + 8.934).
Definition area (rd2 : R) : R := 4 * PI * rd2.
(** probability of freezing at or above [T] of a particle with insoluble area [A] *)
Definition frozen_fraction (A T : R) : R := 1 - exp (- A * sites T).

(** ** time-dependent freezing *)
Lemma p_freeze_form ins w T : 0 <= w -> exists K, 0 <= K /\ (0 < ins \/ 0 < w -> 0 < K) /\ forall dt, p_freeze ins w T dt = 1 - exp (- K * dt).
Proof.
  intros Hw. pose proof PI_RGT_0 as Hpi. unfold p_freeze. destruct (Rltb 0 ins) eqn:E.
  - apply Rltb_true in E. set (J := Rpower 10 _ * 10000).
    assert (HJ : 0 < J) by (apply Rmult_lt_0_compat; [apply exp_pos|lra]).
    exists (J * (4 * PI * ins)). split; [|split].
    + apply Rlt_le, Rmult_lt_0_compat; [exact HJ|]. nra.
    + intros _. apply Rmult_lt_0_compat; [exact HJ|]. nra.
    + intros dt. cbv zeta. f_equal. f_equal. ring.
  - apply Rltb_false in E. set (x := - (3020684 / 1000) - _ - _ - _ - _ - _ - _). set (J := Rpower 10 x * 1000000).
    assert (HJ : 0 < J) by (apply Rmult_lt_0_compat; [apply exp_pos|lra]).
    assert (Hc : 0 <= cpow w (3 / 2) /\ (0 < w -> 0 < cpow w (3 / 2))).
    { unfold cpow. destruct (Rlt_dec 0 w) as [L|L].
      - split; [apply Rlt_le, exp_pos|intros _; apply exp_pos].
      - split; [destruct (Req_EM_T (3 / 2) 0); lra|intros; contradiction]. }
    destruct Hc as [C1 C2]. exists (J * (4 / 3 * PI * cpow w (3 / 2))). split; [|split].
    + apply Rmult_le_pos; [lra|]. apply Rmult_le_pos; [lra|exact C1].
    + intros [H|H]; [lra|]. apply Rmult_lt_0_compat; [exact HJ|]. apply Rmult_lt_0_compat; [lra|apply C2, H].
    + intros dt. fold x. cbv zeta. f_equal. f_equal. unfold J. ring.
Qed.

(** C53, time-dependent freezing: a probability; zero for a step of zero length; growing with the length of the step; not dependent on how
    the time is divided into steps *)
Theorem C53_probability ins w T : 0 <= w ->
  (forall dt, 0 <= dt -> 0 <= p_freeze ins w T dt < 1) /\
  p_freeze ins w T 0 = 0 /\
  (forall dt dt', 0 <= dt -> dt < dt' -> 0 < ins \/ 0 < w -> p_freeze ins w T dt < p_freeze ins w T dt') /\
  (forall dt dt', 1 - p_freeze ins w T (dt + dt') = (1 - p_freeze ins w T dt) * (1 - p_freeze ins w T dt')) /\
  (forall dt n, 1 - p_freeze ins w T dt = (1 - p_freeze ins w T (dt / INR (S n))) ^ S n).
Proof.
  intros Hw. destruct (p_freeze_form ins w T Hw) as (K & HK & HKp & HF).
  assert (Hplus : forall a b, 1 - p_freeze ins w T (a + b) = (1 - p_freeze ins w T a) * (1 - p_freeze ins w T b)).
  { intros a b. rewrite !HF. replace (- K * (a + b)) with (- K * a + - K * b) by ring. rewrite exp_plus. ring. }
  split; [|split; [|split; [|split]]].
  - intros dt Hdt. rewrite HF. pose proof (exp_pos (- K * dt)). split; [|lra].
    assert (exp (- K * dt) <= 1); [|lra]. rewrite <- exp_0. destruct (Req_dec (- K * dt) 0) as [->|N]; [lra|].
    apply Rlt_le, exp_increasing. assert (0 <= K * dt) by (apply Rmult_le_pos; assumption). lra.
  - rewrite HF, Rmult_0_r, exp_0. ring.
  - intros dt dt' H0 H1 H2. rewrite !HF. assert (exp (- K * dt') < exp (- K * dt)); [|lra]. apply exp_increasing. specialize (HKp H2). nra.
  - exact Hplus.
  - intros dt n. assert (H : forall m x, 1 - p_freeze ins w T (INR m * x) = (1 - p_freeze ins w T x) ^ m).
    { induction m as [|m IH]; intros x.
      - cbn. rewrite Rmult_0_l, HF, Rmult_0_r, exp_0. ring.
      - rewrite S_INR. replace ((INR m + 1) * x) with (x + INR m * x) by ring. rewrite Hplus, IH. reflexivity. }
    rewrite <- H. f_equal. f_equal. field. apply not_0_INR. discriminate.
Qed.

(** a larger insoluble surface, or a larger drop without insoluble core, freezes with a larger probability *)
Theorem C53_size T dt : 0 < dt ->
  (forall ins ins' w w', 0 < ins -> ins < ins' -> p_freeze ins w T dt < p_freeze ins' w' T dt) /\
  (forall w w', 0 <= w -> w < w' -> p_freeze 0 w T dt < p_freeze 0 w' T dt).
Proof.
  intros Hdt. pose proof PI_RGT_0 as Hpi. split.
  - intros ins ins' w w' H0 H1. unfold p_freeze.
    replace (Rltb 0 ins) with true by (symmetry; apply Rltb_true, H0). replace (Rltb 0 ins') with true by (symmetry; apply Rltb_true; lra).
    cbv zeta. set (J := Rpower 10 _ * 10000).
    assert (HJ : 0 < J) by (apply Rmult_lt_0_compat; [apply exp_pos|lra]). clearbody J.
    assert (A : exp (- J * (4 * PI * ins') * dt) < exp (- J * (4 * PI * ins) * dt)); [|lra].
    apply exp_increasing. assert (0 < J * (4 * PI) * dt) by (apply Rmult_lt_0_compat; [apply Rmult_lt_0_compat; [exact HJ|lra]|exact Hdt]).
    assert (J * (4 * PI) * dt * ins < J * (4 * PI) * dt * ins') by (apply Rmult_lt_compat_l; assumption). lra.
  - intros w w' H0 H1. unfold p_freeze. replace (Rltb 0 0) with false by (symmetry; apply Rltb_false; lra).
    cbv zeta. set (x := - (3020684 / 1000) - _ - _ - _ - _ - _ - _). set (J := Rpower 10 x * 1000000).
    assert (HJ : 0 < J) by (apply Rmult_lt_0_compat; [apply exp_pos|lra]). clearbody J.
    assert (HC : cpow w (3 / 2) < cpow w' (3 / 2)).
    { unfold cpow. destruct (Rlt_dec 0 w') as [_|]; [|lra]. destruct (Rlt_dec 0 w) as [L|L].
      - unfold Rpower. apply exp_increasing. apply Rmult_lt_compat_l; [lra|]. apply ln_increasing; assumption.
      - destruct (Req_EM_T (3 / 2) 0); [lra|apply exp_pos]. }
    assert (A : exp (- J * (4 / 3 * PI * cpow w' (3 / 2)) * dt) < exp (- J * (4 / 3 * PI * cpow w (3 / 2)) * dt)); [|lra].
    apply exp_increasing. assert (0 < J * (4 / 3 * PI) * dt) by (apply Rmult_lt_0_compat; [apply Rmult_lt_0_compat; [exact HJ|lra]|exact Hdt]).
    assert (J * (4 / 3 * PI) * dt * cpow w (3 / 2) < J * (4 / 3 * PI) * dt * cpow w' (3 / 2)) by (apply Rmult_lt_compat_l; assumption). lra.
Qed.

(** ** singular freezing *)
(** C53, singular freezing: particles that freeze at or above [T] are those with a random number up to the frozen fraction at [T]; those
    without (or with very little) insoluble matter freeze at -38 C *)
Theorem C53_temperature rd2 u T : 0 < u < 1 ->
  (10e-21 < area rd2 -> (T <= T_freeze_CDF_inv rd2 u <-> u <= frozen_fraction (area rd2) T)) /\
  (area rd2 <= 10e-21 -> T_freeze_CDF_inv rd2 u = 235.15).
Proof.
  intros Hu. unfold T_freeze_CDF_inv, frozen_fraction, area. set (A := 4 * PI * rd2). cbv zeta. split.
  - intros HA. replace (Rltb (1 / 10 ^ 20) A) with true by (symmetry; apply Rltb_true; lra).
    assert (HA0 : 0 < A) by lra. clearbody A.
    assert (Hl : ln (1 - u) < 0) by (rewrite <- ln_1; apply ln_increasing; lra).
    assert (Hq : 0 < - ln (1 - u) / A) by (apply Rdiv_lt_0_compat; lra).
    set (z := - 0.517 * (T - 273.15) + 8.934).
    assert (E1 : T <= 27315 / 100 + (8934 / 1000 - ln (- ln (1 - u) / A)) / (517 / 1000) <-> ln (- ln (1 - u) / A) <= z).
    { unfold z. split; intros H; lra. }
    rewrite E1. unfold sites. fold z.
    assert (E2 : ln (- ln (1 - u) / A) <= z <-> - ln (1 - u) <= A * exp z).
    { split; intros H.
      - assert (B : - ln (1 - u) / A <= exp z).
        { rewrite <- (exp_ln (- ln (1 - u) / A)) by exact Hq. destruct H as [H|H]; [left; apply exp_increasing, H|right; rewrite H; reflexivity]. }
        apply (Rmult_le_compat_l A) in B; [|lra]. replace (A * (- ln (1 - u) / A)) with (- ln (1 - u)) in B by (field; lra). exact B.
      - assert (B : - ln (1 - u) / A <= exp z).
        { apply (Rmult_le_reg_l A); [exact HA0|]. replace (A * (- ln (1 - u) / A)) with (- ln (1 - u)) by (field; lra). exact H. }
        rewrite <- (ln_exp z). destruct B as [B|B]; [left; apply ln_increasing; assumption|right; rewrite B; reflexivity]. }
    rewrite E2. replace (- A * exp z) with (- (A * exp z)) by ring. set (y := A * exp z). clearbody y. split; intros H.
    + assert (exp (- y) <= 1 - u); [|lra]. rewrite <- (exp_ln (1 - u)) by lra. destruct H as [H|H]; [left; apply exp_increasing; lra|right; f_equal; lra].
    + assert (B : exp (- y) <= 1 - u) by lra. assert (C : - y <= ln (1 - u)); [|lra].
      rewrite <- (ln_exp (- y)). destruct B as [B|B]; [left; apply ln_increasing; [apply exp_pos|exact B]|right; rewrite B; reflexivity].
  - intros HA. replace (Rltb (1 / 10 ^ 20) A) with false by (symmetry; apply Rltb_false; lra). lra.
Qed.
(** the fraction frozen grows as the air gets colder and with the insoluble surface *)
Theorem C53_monotone A A' T T' : 0 < A ->
  (T' < T -> frozen_fraction A T < frozen_fraction A T') /\ (A < A' -> frozen_fraction A T < frozen_fraction A' T) /\
  0 < frozen_fraction A T < 1.
Proof.
  intros HA. unfold frozen_fraction. assert (Hs : forall T, 0 < sites T) by (intros; apply exp_pos). split; [|split].
  - intros H. assert (exp (- A * sites T') < exp (- A * sites T)); [|lra]. apply exp_increasing.
    assert (sites T < sites T') by (apply exp_increasing; lra). nra.
  - intros H. assert (exp (- A' * sites T) < exp (- A * sites T)); [|lra]. apply exp_increasing. specialize (Hs T). nra.
  - specialize (Hs T). pose proof (exp_pos (- A * sites T)). split; [|lra].
    assert (exp (- A * sites T) < 1); [|lra]. rewrite <- exp_0. apply exp_increasing. nra.
Qed.
(** a particle with an insoluble core of 0.5 micrometres: whether it freezes above -15 C depends on the random number *)
Theorem C53_instance : let rd2 := 25 / 10 ^ 14 in 10e-21 < area rd2 /\
  exists u1 u2, 0 < u1 < 1 /\ 0 < u2 < 1 /\ 258.15 <= T_freeze_CDF_inv rd2 u1 /\ T_freeze_CDF_inv rd2 u2 < 258.15.
Proof.
  intros rd2. assert (Hpi : 3 < PI) by (pose proof PI2_3_2; lra).
  assert (HA : 10e-21 < area rd2) by (unfold area, rd2; lra). split; [exact HA|].
  destruct (C53_monotone (area rd2) 1 258.15 258.15) as (_ & _ & Hf); [lra|].
  set (f := frozen_fraction (area rd2) 258.15) in *.
  exists (f / 2), ((f + 1) / 2). split; [lra|]. split; [lra|]. split.
  - apply C53_temperature; [lra|exact HA|]. fold f. lra.
  - apply Rnot_le_lt. intros H. apply C53_temperature in H; [|lra|exact HA]. fold f in H. lra.
Qed.

(** ** C54: freezing temperatures of new super-droplets *)
(** C54: super-droplets of the first batch get freezing temperatures from newly drawn random numbers; others keep theirs.  For later
    batches this holds only where the position of the super-droplet is below the size of the batch *)
Theorem C54_partial draw n_old n_new rd2 v T i :
  ((i < n_old)%nat -> init_T_freeze draw n_old n_new rd2 v T i = T i) /\
  ((n_old <= i < n_old + n_new)%nat -> (n_old = 0 \/ i < n_new)%nat ->
    init_T_freeze draw n_old n_new rd2 v T i = T_freeze_CDF_inv (rd2 i) (draw i)).
Proof.
  unfold init_T_freeze, rand_u01. split.
  - intros H. destruct (Nat.leb_spec n_old i); [lia|reflexivity].
  - intros H H'. destruct (Nat.leb_spec n_old i); [|lia]. destruct (Nat.ltb_spec i n_new); [reflexivity|lia].
Qed.
(** C54 is false for later batches: freezing temperatures follow from what was left in a temporary array, whatever random numbers are drawn *)
Theorem C54_later_batches_refuted : exists n_old n_new rd2 i, (n_old <= i < n_old + n_new)%nat /\
  (forall draw draw' v T, init_T_freeze draw n_old n_new rd2 v T i = init_T_freeze draw' n_old n_new rd2 v T i) /\
  (exists v v', forall draw T, init_T_freeze draw n_old n_new rd2 v T i <> init_T_freeze draw n_old n_new rd2 v' T i).
Proof.
  set (rd2 := 25 / 10 ^ 14). exists 5%nat, 5%nat, (fun _ => rd2), 7%nat. split; [lia|]. split; [reflexivity|].
  destruct C53_instance as (_ & u1 & u2 & _ & _ & H1 & H2). fold rd2 in H1, H2.
  exists (fun _ => u1), (fun _ => u2). intros draw T. unfold init_T_freeze, rand_u01. cbn [Nat.leb Nat.ltb]. lra.
Qed.

Print Assumptions C53_probability.
Print Assumptions C53_size.
Print Assumptions C53_temperature.
Print Assumptions C53_monotone.
Print Assumptions C53_instance.
Print Assumptions C54_partial.
Print Assumptions C54_later_batches_refuted.
