(** The Gaussian integral (mathematics used by LognormProps; nothing of the library is modelled here) *)
From Coq Require Import Reals Lra Lia Psatz.
From Coquelicot Require Import Coquelicot.
Local Open Scope R_scope.

Ltac inR := match goal with |- @eq _ ?a ?b => change (@eq R a b) end.
Definition gauss (t : R) : R := exp (- (t * t)).
Lemma gauss_cont x : continuous gauss x.
Proof. apply (ex_derive_continuous (K := R_AbsRing) (V := R_NormedModule)). unfold gauss. auto_derive. exact I. Qed.
Lemma gauss_ex a b : ex_RInt gauss a b.
Proof. apply (ex_RInt_continuous (V := R_CompleteNormedModule)). intros; apply gauss_cont. Qed.
Definition gint (x : R) : R := RInt gauss 0 x.
Lemma gint_0 : gint 0 = 0. Proof. unfold gint. rewrite RInt_point. reflexivity. Qed.
Lemma gint_derive x : is_derive gint x (gauss x).
Proof.
  apply (is_derive_RInt gauss gint 0 x).
  - apply filter_forall. intros y. apply (RInt_correct (V := R_CompleteNormedModule)), gauss_ex.
  - apply gauss_cont.
Qed.
Lemma gint_odd x : gint (- x) = - gint x.
Proof.
  assert (D : forall t, is_derive (fun t => gint (- t) + gint t) t 0).
  { intros t. replace 0 with (- (1) * gauss (- t) + gauss t) by (unfold gauss; replace (- t * - t) with (t * t) by ring; ring).
    apply (is_derive_plus (fun t => gint (- t)) gint); [|apply gint_derive].
    apply (is_derive_comp gint (fun t => - t) t (gauss (- t)) (- (1))); [apply gint_derive|]. apply (is_derive_opp (fun t => t) t 1). apply (is_derive_id (K := R_AbsRing)). }
  destruct (MVT_gen (fun t => gint (- t) + gint t) 0 x (fun _ => 0)) as (c & _ & Hc).
  - intros; apply D.
  - intros. apply continuity_pt_filterlim. apply (ex_derive_continuous (K := R_AbsRing) (V := R_NormedModule) (fun t => gint (- t) + gint t)). exists 0. apply D.
  - replace (- 0) with 0 in Hc by ring. rewrite gint_0 in Hc. lra.
Qed.

Definition hf (x t : R) : R := exp (- (x * x) * (1 + t * t)) / (1 + t * t).
Definition hint (x : R) : R := RInt (hf x) 0 1.
Lemma one_sq t : 0 < 1 + t * t. Proof. nra. Qed.
Lemma hf_derive x t : is_derive (fun u => hf u t) x (- (2 * x) * exp (- (x * x) * (1 + t * t))).
Proof. pose proof (one_sq t). unfold hf. auto_derive; [lra|]. field. lra. Qed.
Lemma hf_cont x t : continuous (hf x) t.
Proof. pose proof (one_sq t). apply (ex_derive_continuous (K := R_AbsRing) (V := R_NormedModule)). unfold hf. auto_derive. lra. Qed.
Lemma hf_ex x a b : ex_RInt (hf x) a b.
Proof. apply (ex_RInt_continuous (V := R_CompleteNormedModule)). intros; apply hf_cont. Qed.
Lemma hint_derive x : is_derive hint x (- (2 * gauss x * gint x)).
Proof.
  assert (D : is_derive hint x (RInt (fun t => Derive (fun u => hf u t) x) 0 1)).
  { apply (is_derive_RInt_param hf 0 1 x).
    - apply filter_forall. intros y t _. eexists. apply hf_derive.
    - intros t _. apply (continuity_2d_pt_ext (fun u v => - (2 * u) * exp (- (u * u) * (1 + v * v)))).
      { intros u v. symmetry. apply is_derive_unique, hf_derive. }
      apply continuity_2d_pt_mult.
      + apply continuity_2d_pt_opp, continuity_2d_pt_mult; [apply continuity_2d_pt_const|apply continuity_2d_pt_id1].
      + apply (continuity_1d_2d_pt_comp exp).
        * apply continuity_pt_filterlim. apply (ex_derive_continuous (K := R_AbsRing) (V := R_NormedModule)). auto_derive. exact I.
        * apply continuity_2d_pt_mult; [apply continuity_2d_pt_opp, continuity_2d_pt_mult; apply continuity_2d_pt_id1|].
          apply continuity_2d_pt_plus; [apply continuity_2d_pt_const|]. apply continuity_2d_pt_mult; apply continuity_2d_pt_id2.
    - apply filter_forall. intros y. apply hf_ex. }
  replace (- (2 * gauss x * gint x)) with (RInt (fun t => Derive (fun u => hf u t) x) 0 1); [exact D|].
  rewrite (RInt_ext _ (fun t => - (2 * gauss x) * (x * gauss (x * t + 0)))).
  2:{ intros t _. transitivity (- (2 * x) * exp (- (x * x) * (1 + t * t))); [apply is_derive_unique; exact (hf_derive x t)|]. unfold gauss. replace (exp (- (x * x) * (1 + t * t))) with (exp (- (x * x)) * exp (- ((x * t + 0) * (x * t + 0)))) by (rewrite <- exp_plus; f_equal; ring). inR. ring. }
  assert (E : is_RInt (fun t => - (2 * gauss x) * (x * gauss (x * t + 0))) 0 1 (- (2 * gauss x) * gint x)).
  { apply (is_RInt_scal (fun t => x * gauss (x * t + 0)) 0 1 (- (2 * gauss x)) (gint x)).
    apply (is_RInt_comp_lin (V := R_NormedModule) gauss x 0 0 1 (gint x)).
    assert (A0 : x * 0 + 0 = 0) by ring. assert (A1 : x * 1 + 0 = x) by ring.
    assert (A : is_RInt gauss 0 x (gint x)) by (apply (RInt_correct (V := R_CompleteNormedModule)), gauss_ex).
    rewrite <- A0 in A at 1. rewrite <- A1 in A at 2. exact A. }
  rewrite (is_RInt_unique _ _ _ _ E). inR. ring.
Qed.
Lemma hint_0 : hint 0 = PI / 4.
Proof.
  unfold hint. rewrite (RInt_ext _ (fun t => / (1 + t * t))).
  2:{ intros t _. pose proof (one_sq t). unfold hf. replace (- (0 * 0) * (1 + t * t)) with 0 by ring. rewrite exp_0. inR. field. lra. }
  assert (E : is_RInt (fun t => / (1 + t * t)) 0 1 (minus (atan 1) (atan 0))).
  { apply (is_RInt_derive atan).
    - intros t _. pose proof (one_sq t). replace (/ (1 + t * t)) with (/ (1 + t ^ 2)) by (f_equal; ring). apply is_derive_Reals. apply derivable_pt_lim_atan.
    - intros t _. pose proof (one_sq t). apply (ex_derive_continuous (K := R_AbsRing) (V := R_NormedModule)). auto_derive. lra. }
  rewrite (is_RInt_unique _ _ _ _ E). unfold minus, plus, opp. cbn. rewrite atan_0, atan_1. lra.
Qed.
Lemma sum_const x : gint x * gint x + hint x = PI / 4.
Proof.
  assert (D : forall t, is_derive (fun t => gint t * gint t + hint t) t 0).
  { intros t. replace 0 with (gauss t * gint t + gint t * gauss t + - (2 * gauss t * gint t)) by ring.
    apply (is_derive_plus (fun t => gint t * gint t) hint); [|apply hint_derive].
    apply (is_derive_mult gint gint t (gauss t) (gauss t)); [apply gint_derive|apply gint_derive|intros; apply Rmult_comm]. }
  assert (E : gint x * gint x + hint x = gint 0 * gint 0 + hint 0); [|rewrite E, gint_0, hint_0; ring].
  destruct (MVT_gen (fun t => gint t * gint t + hint t) 0 x (fun _ => 0)) as (c & _ & Hc).
  - intros; apply D.
  - intros. apply continuity_pt_filterlim. apply (ex_derive_continuous (K := R_AbsRing) (V := R_NormedModule) (fun t => gint t * gint t + hint t)). exists 0. apply D.
  - lra.
Qed.
Lemma hint_bounds x : 0 <= hint x <= exp (- (x * x)).
Proof.
  split.
  - apply RInt_ge_0; [lra|apply hf_ex|]. intros t _. unfold hf. pose proof (one_sq t). apply Rlt_le, Rdiv_lt_0_compat; [apply exp_pos|exact H].
  - replace (exp (- (x * x))) with (RInt (fun _ => exp (- (x * x))) 0 1) by (rewrite RInt_const; unfold scal; cbn; unfold mult; cbn; ring).
    apply RInt_le; [lra|apply hf_ex|apply ex_RInt_const|]. intros t _. unfold hf. pose proof (one_sq t).
    apply Rle_trans with (exp (- (x * x) * (1 + t * t))).
    + pose proof (exp_pos (- (x * x) * (1 + t * t))) as P. set (e := exp _) in *. apply Rmult_le_reg_r with (1 + t * t); [exact H|]. unfold Rdiv. rewrite Rmult_assoc, Rinv_l by lra. nra.
    + assert (- (x * x) * (1 + t * t) <= - (x * x)) by nra. destruct H0 as [H0|H0]; [apply Rlt_le, exp_increasing, H0|rewrite H0; lra].
Qed.

(** bounds and limits of the integral *)
Lemma gint_pos x : 0 <= x -> 0 <= gint x.
Proof. intros H. apply RInt_ge_0; [exact H|apply gauss_ex|]. intros; apply Rlt_le, exp_pos. Qed.
Lemma sqrt_quarter : sqrt PI / 2 * (sqrt PI / 2) = PI / 4.
Proof. assert (sqrt PI * sqrt PI = PI) by (apply sqrt_sqrt; pose proof PI_RGT_0; lra). nra. Qed.
Lemma gint_bound x : 0 <= x -> sqrt PI / 2 - 2 * exp (- (x * x)) <= gint x <= sqrt PI / 2.
Proof.
  intros H. pose proof (sum_const x) as S. destruct (hint_bounds x) as (H1 & H2). pose proof (gint_pos x H) as P. rewrite <- sqrt_quarter in S.
  assert (Q : 1 / 2 <= sqrt PI / 2). { assert (1 <= sqrt PI) by (rewrite <- sqrt_1; apply sqrt_le_1_alt; pose proof PI2_1; lra). lra. }
  set (q := sqrt PI / 2) in *. set (g := gint x) in *. set (e := exp (- (x * x))) in *. clearbody q g e. split; [|nra].
  destruct (Rle_or_lt (q - 2 * e) g) as [L|L]; [exact L|]. nra.
Qed.
Theorem gint_limit e : 0 < e -> exists B, 0 < B /\ forall x, B <= x -> Rabs (gint x - sqrt PI / 2) < e /\ Rabs (gint (- x) + sqrt PI / 2) < e.
Proof.
  intros He. exists (1 + 2 / e). assert (P : 0 < 2 / e) by (apply Rdiv_lt_0_compat; lra). split; [lra|]. intros x Hx.
  destruct (gint_bound x) as (L & U); [lra|].
  assert (E : 2 * exp (- (x * x)) < e).
  { rewrite exp_Ropp. pose proof (exp_ineq1 (x * x)) as I. assert (0 < x * x) by nra. specialize (I ltac:(lra)).
    assert (x <= x * x) by nra. assert (G : 2 / e < exp (x * x)) by lra.
    assert (0 < exp (x * x)) by apply exp_pos. set (z := exp (x * x)) in *. clearbody z.
    apply Rmult_lt_reg_r with (/ e * z); [apply Rmult_lt_0_compat; [apply Rinv_0_lt_compat|]; assumption|].
    replace (2 * / z * (/ e * z)) with (2 / e) by (field; lra). replace (e * (/ e * z)) with z by (field; lra). exact G. }
  rewrite gint_odd. split; apply Rabs_def1; lra.
Qed.
