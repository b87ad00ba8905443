(** C75: lognormal distributions.  C76: hydrostatic pressure *)
From Coq Require Import Reals Lra Lia Psatz.
From Coquelicot Require Import Coquelicot.
From Verif Require Import Base BaseProofs ThermoModel ThermoProofs LognormModel GaussInt.
Local Open Scope R_scope.

(** ** specification: the integral over all real numbers, and over all positive ones, is [l] *)
Definition integral_line (f : R -> R) (l : R) : Prop :=
  forall e, 0 < e -> exists B, 0 < B /\ forall a b, a <= - B -> B <= b -> exists I, is_RInt f a b I /\ Rabs (I - l) < e.
Definition integral_pos (f : R -> R) (l : R) : Prop :=
  forall e, 0 < e -> exists B, 1 < B /\ forall a b, 0 < a <= 1 / B -> B <= b -> exists I, is_RInt f a b I /\ Rabs (I - l) < e.

Lemma integral_line_ext f g l : (forall x, f x = g x) -> integral_line f l -> integral_line g l.
Proof.
  intros H F e He. destruct (F e He) as (B & HB & K). exists B. split; [exact HB|]. intros a b Ha Hb. destruct (K a b Ha Hb) as (I & I1 & I2).
  exists I. split; [|exact I2]. apply (is_RInt_ext f); [intros; apply H|exact I1].
Qed.
(** primitives with limits *)
Lemma line_of_primitive F f lm lp : (forall x, is_derive F x (f x)) -> (forall x, continuous f x) ->
  (forall e, 0 < e -> exists B, 0 < B /\ forall x, B <= x -> Rabs (F x - lp) < e /\ Rabs (F (- x) - lm) < e) -> integral_line f (lp - lm).
Proof.
  intros HD HC HL e He. destruct (HL (e / 2)) as (B & HB & K); [lra|]. exists B. split; [exact HB|]. intros a b Ha Hb.
  exists (minus (F b) (F a)). split.
  - apply (is_RInt_derive F f); intros; [apply HD|apply HC].
  - destruct (K b Hb) as (K1 & _). destruct (K (- a)) as (_ & K2); [lra|]. rewrite Ropp_involutive in K2.
    unfold minus, plus, opp. cbn. apply Rabs_def2 in K1. apply Rabs_def2 in K2. apply Rabs_def1; lra.
Qed.
Lemma pos_of_line f l : (forall x, continuous f x) -> integral_line f l -> integral_pos (fun r => f (ln r) / r) l.
Proof.
  intros HC H e He. destruct (H e He) as (B & HB & K). exists (exp B). split; [rewrite <- exp_0; apply exp_increasing; exact HB|].
  intros a b (Ha & Ha') Hb.
  assert (Pa : ln a <= - B).
  { rewrite <- (ln_exp (- B)). apply ln_le; [exact Ha|]. rewrite exp_Ropp. unfold Rdiv in Ha'. lra. }
  assert (Hb0 : 0 < b) by (pose proof (exp_pos B); lra).
  assert (Pb : B <= ln b). { rewrite <- (ln_exp B). apply ln_le; [apply exp_pos|exact Hb]. }
  destruct (K (ln a) (ln b) Pa Pb) as (I & I1 & I2). exists I. split; [|exact I2].
  assert (Hab : a <= b). { destruct (Rle_or_lt a b) as [L|L]; [exact L|]. apply ln_increasing in L; [lra|exact Hb0]. }
  apply (is_RInt_ext (fun r => scal (/ r) (f (ln r)))); [intros; unfold scal; cbn; unfold mult; cbn; unfold Rdiv; apply Rmult_comm|].
  assert (E : I = RInt f (ln a) (ln b)) by (symmetry; apply is_RInt_unique; exact I1). rewrite E.
  apply (is_RInt_comp f ln (fun r => / r) a b).
  - intros; apply HC.
  - intros r Hr. rewrite Rmin_left, Rmax_right in Hr by exact Hab. assert (0 < r) by lra. split.
    + apply is_derive_Reals. apply derivable_pt_lim_ln. exact H0.
    + apply (ex_derive_continuous (K := R_AbsRing) (V := R_NormedModule)). auto_derive. lra.
Qed.

(** ** the normal density with parameters m, s *)
Definition dens (n m s x : R) : R := n * exp (- (x - m) ^ 2 / 2 / s ^ 2) / s / sqrt (2 * PI).
Definition yy (m s x : R) : R := (x - m) / (s * sqrt 2).
Section Normal.
  Variables (n m s : R).
  Hypothesis Hs : 0 < s.
  Lemma s2pos : 0 < sqrt 2. Proof. apply sqrt_lt_R0. lra. Qed.
  Lemma spipos : 0 < sqrt PI. Proof. apply sqrt_lt_R0. apply PI_RGT_0. Qed.
  Lemma s2sq : sqrt 2 * sqrt 2 = 2. Proof. apply sqrt_sqrt. lra. Qed.
  Lemma dens_gauss x : dens n m s x = n / sqrt PI * (/ (s * sqrt 2) * gauss (yy m s x)).
  Proof.
    pose proof s2pos. pose proof spipos. pose proof s2sq. unfold dens, gauss, yy. rewrite sqrt_mult_alt by lra.
    replace (- ((x - m) / (s * sqrt 2) * ((x - m) / (s * sqrt 2)))) with (- (x - m) ^ 2 / 2 / s ^ 2).
    2:{ set (q := sqrt 2) in *. clearbody q. transitivity (- (x - m) ^ 2 / (q * q) / s ^ 2); [rewrite H1; reflexivity|field; lra]. }
    field. lra.
  Qed.
  Lemma dens_cont x : continuous (dens n m s) x.
  Proof.
    pose proof s2pos. pose proof spipos. assert (0 < sqrt (2 * PI)) by (apply sqrt_lt_R0; pose proof PI_RGT_0; lra).
    apply (ex_derive_continuous (K := R_AbsRing) (V := R_NormedModule)). unfold dens. auto_derive. repeat split; try lra. 
  Qed.
  Lemma yy_derive x : is_derive (yy m s) x (/ (s * sqrt 2)).
  Proof. pose proof s2pos. unfold yy. auto_derive; [exact I|]. field. lra. Qed.
  Definition prim (x : R) : R := n / sqrt PI * gint (yy m s x).
  Lemma prim_derive x : is_derive prim x (dens n m s x).
  Proof.
    rewrite dens_gauss. apply (is_derive_scal (fun x => gint (yy m s x)) x (n / sqrt PI)).
    apply (is_derive_comp gint (yy m s) x (gauss (yy m s x)) (/ (s * sqrt 2))); [apply gint_derive|apply yy_derive].
  Qed.
  (** y grows without bound *)
  Lemma yy_large Y : 0 < Y -> exists B, 0 < B /\ forall x, B <= x -> Y <= yy m s x /\ Y <= - yy m s (- x).
  Proof.
    intros HY. pose proof s2pos as P2. assert (P : 0 < s * sqrt 2) by nra. exists (Rabs m + Y * (s * sqrt 2)). pose proof (Rabs_pos m) as Pm.
    assert (0 < Y * (s * sqrt 2)) by nra. split; [lra|]. intros x Hx. pose proof (Rle_abs m). pose proof (Rle_abs (- m)) as Q. rewrite Rabs_Ropp in Q.
    unfold yy. set (d := s * sqrt 2) in *. clearbody d. split.
    - apply Rmult_le_reg_r with d; [exact P|]. unfold Rdiv. rewrite Rmult_assoc, Rinv_l by lra. lra.
    - apply Rmult_le_reg_r with d; [exact P|]. replace (- ((- x - m) / d) * d) with (x + m) by (field; lra). lra.
  Qed.
  Lemma dens_total : integral_line (dens n m s) n.
  Proof.
    pose proof spipos as Pp. replace n with (n / 2 - - (n / 2)) at 2 by field.
    apply (line_of_primitive prim); [apply prim_derive|apply dens_cont|]. intros e He.
    assert (He' : 0 < e * sqrt PI / (Rabs n + 1)) by (pose proof (Rabs_pos n); apply Rdiv_lt_0_compat; nra).
    destruct (gint_limit _ He') as (Y & HY & K). destruct (yy_large Y HY) as (B & HB & KB). exists B. split; [exact HB|]. intros x Hx.
    destruct (KB x Hx) as (Y1 & Y2). destruct (K _ Y1) as (K1 & _). destruct (K _ Y2) as (_ & K2). rewrite Ropp_involutive in K2.
    assert (G : forall d, Rabs d < e * sqrt PI / (Rabs n + 1) -> Rabs (n / sqrt PI * d) < e).
    { intros d Hd. rewrite Rabs_mult. unfold Rdiv at 1. rewrite Rabs_mult, (Rabs_pos_eq (/ sqrt PI)) by (apply Rlt_le, Rinv_0_lt_compat, Pp).
      pose proof (Rabs_pos n) as N0. pose proof (Rabs_pos d) as D0. set (N := Rabs n) in *. set (D := Rabs d) in *. set (q := sqrt PI) in *. clearbody N D q.
      apply Rmult_lt_reg_r with q; [exact Pp|]. replace (N * / q * D * q) with (N * D) by (field; lra).
      apply Rle_lt_trans with (D * (N + 1)); [nra|]. apply Rmult_lt_reg_r with (/ (N + 1)); [apply Rinv_0_lt_compat; lra|].
      replace (D * (N + 1) * / (N + 1)) with D by (field; lra). exact Hd. }
    unfold prim. split.
    - replace (n / sqrt PI * gint (yy m s x) - n / 2) with (n / sqrt PI * (gint (yy m s x) - sqrt PI / 2)) by (field; lra). apply G, K1.
    - replace (n / sqrt PI * gint (yy m s (- x)) - - (n / 2)) with (n / sqrt PI * (gint (yy m s (- x)) + sqrt PI / 2)) by (field; lra). apply G, K2.
  Qed.
  (** the tails *)
  Lemma gauss_tail Y y : 0 < Y -> Y <= Rabs y -> Rabs (y * gauss y) <= / Y /\ Rabs (gauss y) <= / Y / Y.
  Proof.
    intros HY Hy. assert (Hy2 : y * y = Rabs y * Rabs y) by (destruct (Rle_or_lt 0 y); [rewrite Rabs_pos_eq by assumption|rewrite Rabs_left by assumption]; ring).
    unfold gauss. rewrite exp_Ropp, Rabs_mult, Hy2. set (a := Rabs y) in *. clearbody a.
    assert (P : 0 < a * a) by nra. pose proof (exp_ineq1 (a * a)) as I. specialize (I ltac:(lra)). pose proof (exp_pos (a * a)) as E0.
    set (E := exp (a * a)) in *. clearbody E. rewrite (Rabs_pos_eq (/ E)) by (apply Rlt_le, Rinv_0_lt_compat, E0). split.
    - apply Rmult_le_reg_r with (E * Y); [nra|]. replace (a * / E * (E * Y)) with (a * Y) by (field; lra). replace (/ Y * (E * Y)) with E by (field; lra). nra.
    - apply Rmult_le_reg_r with (E * (Y * Y)); [nra|]. replace (/ E * (E * (Y * Y))) with (Y * Y) by (field; lra). replace (/ Y / Y * (E * (Y * Y))) with E by (field; lra). nra.
  Qed.
  Lemma dens_derive x : is_derive (dens n m s) x (- (x - m) / s ^ 2 * dens n m s x).
  Proof.
    assert (0 < sqrt (2 * PI)) by (apply sqrt_lt_R0; pose proof PI_RGT_0; lra).
    unfold dens. auto_derive; [repeat split; lra|]. replace (- ((x + - m) * ((x + - m) * 1)) * / 2 * / (s * (s * 1))) with (- (x - m) ^ 2 / 2 / s ^ 2) by (field; lra). field. lra.
  Qed.
  Lemma x_dens x : (x - m) * dens n m s x = n / sqrt PI * (yy m s x * gauss (yy m s x)).
  Proof. rewrite dens_gauss. unfold yy at 2. pose proof s2pos. pose proof spipos. set (g := gauss _). field. lra. Qed.
  (** smallness of the tails *)
  Lemma small c e : 0 < e -> exists Y, 1 < Y /\ Rabs c * / Y < e.
  Proof.
    intros He. pose proof (Rabs_pos c). exists (2 + Rabs c / e). assert (0 <= Rabs c / e) by (apply Rle_mult_inv_pos; lra). split; [lra|].
    set (a := Rabs c) in *. clearbody a. set (Y := 2 + a / e). assert (HY : 0 < Y) by (unfold Y; lra). apply Rmult_lt_reg_r with Y; [exact HY|].
    replace (a * / Y * Y) with a by (field; lra). unfold Y. replace (e * (2 + a / e)) with (2 * e + a) by (field; lra). lra.
  Qed.
  Lemma tail_limit (f : R -> R) c : (forall x Y, 1 < Y -> Y <= Rabs (yy m s x) -> Rabs (f x) <= Rabs c * / Y) ->
    forall e, 0 < e -> exists B, 0 < B /\ forall x, B <= x -> Rabs (f x - 0) < e /\ Rabs (f (- x) - 0) < e.
  Proof.
    intros H e He. destruct (small c e He) as (Y & HY & K). destruct (yy_large Y) as (B & HB & KB); [lra|]. exists B. split; [exact HB|].
    intros x Hx. destruct (KB x Hx) as (Y1 & Y2). pose proof (Rle_abs (yy m s x)). pose proof (Rle_abs (- yy m s (- x))) as Q. rewrite Rabs_Ropp in Q.
    split; rewrite Rminus_0_r; (eapply Rle_lt_trans; [apply (H _ Y)|exact K]); lra.
  Qed.
  Lemma dens_first : integral_line (fun x => (x - m) * dens n m s x) 0.
  Proof.
    replace 0 with (0 - 0) by ring. apply (line_of_primitive (fun x => - s ^ 2 * dens n m s x)).
    - intros x. replace ((x - m) * dens n m s x) with (- s ^ 2 * (- (x - m) / s ^ 2 * dens n m s x)) by (field; lra).
      apply (is_derive_scal (dens n m s) x (- s ^ 2)). apply dens_derive.
    - intros x. apply (continuous_mult (fun x => x - m) (dens n m s)); [|apply dens_cont].
      apply (ex_derive_continuous (K := R_AbsRing) (V := R_NormedModule)). auto_derive. exact I.
    - apply (tail_limit (fun x => - s ^ 2 * dens n m s x) (s ^ 2 * (n / sqrt PI * / (s * sqrt 2)))). intros x Y HY Hy.
      rewrite dens_gauss. destruct (gauss_tail Y (yy m s x)) as (_ & T); [lra|exact Hy|].
      replace (- s ^ 2 * (n / sqrt PI * (/ (s * sqrt 2) * gauss (yy m s x)))) with (- (s ^ 2 * (n / sqrt PI * / (s * sqrt 2))) * gauss (yy m s x)) by ring.
      rewrite Rabs_mult, Rabs_Ropp. apply Rmult_le_compat_l; [apply Rabs_pos|]. eapply Rle_trans; [exact T|].
      assert (0 < / Y) by (apply Rinv_0_lt_compat; lra). assert (/ Y <= 1) by (rewrite <- Rinv_1; apply Rinv_le_contravar; lra). unfold Rdiv. nra.
  Qed.
  Lemma dens_second : integral_line (fun x => (x - m) ^ 2 * dens n m s x) (n * s ^ 2).
  Proof.
    assert (A : integral_line (fun x => (x - m) ^ 2 * dens n m s x - s ^ 2 * dens n m s x) 0).
    { replace 0 with (0 - 0) by ring. apply (line_of_primitive (fun x => - s ^ 2 * ((x - m) * dens n m s x))).
      - intros x. replace ((x - m) ^ 2 * dens n m s x - s ^ 2 * dens n m s x) with (- s ^ 2 * (1 * dens n m s x + (x - m) * (- (x - m) / s ^ 2 * dens n m s x))) by (field; lra).
        apply (is_derive_scal (fun x => (x - m) * dens n m s x) x (- s ^ 2)).
        apply (is_derive_mult (fun x => x - m) (dens n m s) x 1); [|apply dens_derive|intros; apply Rmult_comm]. auto_derive; [exact I|ring].
      - intros x. apply (continuous_minus (fun x => (x - m) ^ 2 * dens n m s x) (fun x => s ^ 2 * dens n m s x)).
        + apply (continuous_mult (fun x => (x - m) ^ 2) (dens n m s)); [|apply dens_cont].
          apply (ex_derive_continuous (K := R_AbsRing) (V := R_NormedModule)). auto_derive. exact I.
        + apply (continuous_mult (fun x => s ^ 2) (dens n m s)); [apply continuous_const|apply dens_cont].
      - apply (tail_limit (fun x => - s ^ 2 * ((x - m) * dens n m s x)) (s ^ 2 * (n / sqrt PI))). intros x Y HY Hy. rewrite x_dens.
        destruct (gauss_tail Y (yy m s x)) as (T & _); [lra|exact Hy|].
        replace (- s ^ 2 * (n / sqrt PI * (yy m s x * gauss (yy m s x)))) with (- (s ^ 2 * (n / sqrt PI)) * (yy m s x * gauss (yy m s x))) by ring.
        rewrite Rabs_mult, Rabs_Ropp. apply Rmult_le_compat_l; [apply Rabs_pos|exact T]. }
    intros e He. destruct (A (e / 2)) as (B1 & HB1 & K1); [lra|]. assert (Hs2 : 0 < s ^ 2) by (apply pow_lt; exact Hs).
    destruct (dens_total (e / 2 / s ^ 2)) as (B2 & HB2 & K2); [apply Rdiv_lt_0_compat; lra|]. exists (B1 + B2). split; [lra|]. intros a b Ha Hb.
    destruct (K1 a b) as (I1 & P1 & Q1); [lra|lra|]. destruct (K2 a b) as (I2 & P2 & Q2); [lra|lra|].
    exists (I1 + s ^ 2 * I2). split.
    - apply (is_RInt_ext (fun x => plus ((x - m) ^ 2 * dens n m s x - s ^ 2 * dens n m s x) (s ^ 2 * dens n m s x))).
      + intros x _. unfold plus. cbn. ring.
      + apply (is_RInt_plus (V := R_NormedModule)); [exact P1|]. apply (is_RInt_scal (V := R_NormedModule) (dens n m s) a b (s ^ 2) I2). exact P2.
    - apply Rabs_def2 in Q1. apply Rabs_def2 in Q2. destruct Q2 as (Q2 & Q3).
      apply (Rmult_lt_compat_l (s ^ 2)) in Q2; [|exact Hs2]. apply (Rmult_lt_compat_l (s ^ 2)) in Q3; [|exact Hs2].
      replace (s ^ 2 * (e / 2 / s ^ 2)) with (e / 2) in Q2 by (field; lra). replace (s ^ 2 * - (e / 2 / s ^ 2)) with (- (e / 2)) in Q3 by (field; lra).
      apply Rabs_def1; nra.
  Qed.
End Normal.

(** ** C75 *)
Lemma sd_pos sd : 1 < sd -> 0 < ln sd. Proof. intros H. rewrite <- ln_1. apply ln_increasing; lra. Qed.
Lemma ne_dens r0 sd n x : 0 < r0 -> n_e r0 sd n x = dens n (ln r0) (ln sd) x.
Proof. intros H. unfold n_e, dens. replace (r0 / 1) with r0 by field. reflexivity. Qed.
Lemma nr_ne r0 sd n r : 0 < r0 -> 1 < sd -> 0 < r -> n_r r0 sd n r = n_e r0 sd n (ln r) / r.
Proof.
  intros H1 H2 H. unfold n_r, n_e. replace (r0 / 1) with r0 by field. replace (ln (r / r0)) with (ln r - ln r0) by (unfold Rdiv; rewrite ln_mult by (try apply Rinv_0_lt_compat; assumption); rewrite ln_Rinv by exact H1; reflexivity).
  assert (0 < sqrt (2 * PI)) by (apply sqrt_lt_R0; pose proof PI_RGT_0; lra). pose proof (sd_pos sd H2). field. lra.
Qed.
Lemma integral_pos_ext f g l : (forall x, 0 < x -> f x = g x) -> integral_pos f l -> integral_pos g l.
Proof.
  intros H F e He. destruct (F e He) as (B & HB & K). exists B. split; [exact HB|]. intros a b Ha Hb. destruct (K a b Ha Hb) as (I & I1 & I2).
  exists I. split; [|exact I2]. apply (is_RInt_ext f); [|exact I1]. intros x Hx. apply H.
  assert (1 / B < 1) by (apply Rmult_lt_reg_r with B; [lra|]; unfold Rdiv; rewrite Rmult_1_l, Rinv_l; lra). rewrite Rmin_left, Rmax_right in Hx by lra. lra.
Qed.

(** The two functions are one distribution, as a function of ln r and of r; the total number is [n_tot]; the mean of ln r is that of [mean_r] and the variance
    of ln r the square of ln [stdev]; [mean_r] is the median: numbers between mean_r / c and mean_r and between mean_r and c mean_r are equal. *)
Theorem C75_lognormal mean_r stdev n_tot : 0 < mean_r -> 1 < stdev ->
  (forall r, 0 < r -> n_r mean_r stdev n_tot r * r = n_e mean_r stdev n_tot (ln r)) /\
  integral_line (n_e mean_r stdev n_tot) n_tot /\ integral_pos (n_r mean_r stdev n_tot) n_tot /\
  integral_line (fun x => (x - ln mean_r) * n_e mean_r stdev n_tot x) 0 /\
  integral_line (fun x => (x - ln mean_r) ^ 2 * n_e mean_r stdev n_tot x) (n_tot * ln stdev ^ 2) /\
  (forall c, 1 <= c -> exists I, is_RInt (n_e mean_r stdev n_tot) (ln mean_r - ln c) (ln mean_r) I /\ is_RInt (n_e mean_r stdev n_tot) (ln mean_r) (ln mean_r + ln c) I).
Proof.
  intros H1 H2. pose proof (sd_pos _ H2) as Hs. split; [|split; [|split; [|split; [|split]]]].
  - intros r Hr. rewrite nr_ne by assumption. field. lra.
  - apply (integral_line_ext (dens n_tot (ln mean_r) (ln stdev))); [intros x; symmetry; apply ne_dens; exact H1|]. apply dens_total, Hs.
  - apply (integral_pos_ext (fun r => dens n_tot (ln mean_r) (ln stdev) (ln r) / r)); [intros; rewrite nr_ne, ne_dens by assumption; reflexivity|].
    exact (pos_of_line _ _ (dens_cont _ _ _) (dens_total _ _ _ Hs)).
  - apply (integral_line_ext (fun x => (x - ln mean_r) * dens n_tot (ln mean_r) (ln stdev) x)); [intros; rewrite ne_dens by exact H1; reflexivity|]. apply dens_first, Hs.
  - apply (integral_line_ext (fun x => (x - ln mean_r) ^ 2 * dens n_tot (ln mean_r) (ln stdev) x)); [intros; rewrite ne_dens by exact H1; reflexivity|]. apply dens_second, Hs.
  - intros c Hc. pose proof (prim_derive n_tot (ln mean_r) (ln stdev) Hs) as PD. pose proof (dens_cont n_tot (ln mean_r) (ln stdev)) as PC.
    exists (n_tot / sqrt PI * gint (ln c / (ln stdev * sqrt 2))).
    assert (G : forall a b, is_RInt (n_e mean_r stdev n_tot) a b (minus (prim n_tot (ln mean_r) (ln stdev) b) (prim n_tot (ln mean_r) (ln stdev) a))).
    { intros a b. apply (is_RInt_ext (dens n_tot (ln mean_r) (ln stdev))); [intros; symmetry; apply ne_dens, H1|]. apply (is_RInt_derive (prim n_tot (ln mean_r) (ln stdev)) (dens n_tot (ln mean_r) (ln stdev))); intros; [apply PD|apply PC]. }
    pose proof s2pos. assert (Y0 : yy (ln mean_r) (ln stdev) (ln mean_r) = 0) by (unfold yy, Rdiv; ring).
    assert (Y1 : yy (ln mean_r) (ln stdev) (ln mean_r + ln c) = ln c / (ln stdev * sqrt 2)) by (unfold yy; field; lra).
    assert (Y2 : yy (ln mean_r) (ln stdev) (ln mean_r - ln c) = - (ln c / (ln stdev * sqrt 2))) by (unfold yy; field; lra).
    split.
    + specialize (G (ln mean_r - ln c) (ln mean_r)). unfold prim in G. rewrite Y0, Y2, gint_odd, gint_0 in G. unfold minus, plus, opp in G. cbn in G.
      replace (n_tot / sqrt PI * gint (ln c / (ln stdev * sqrt 2))) with (n_tot / sqrt PI * 0 + - (n_tot / sqrt PI * - gint (ln c / (ln stdev * sqrt 2)))) by ring. exact G.
    + specialize (G (ln mean_r) (ln mean_r + ln c)). unfold prim in G. rewrite Y0, Y1, gint_0 in G. unfold minus, plus, opp in G. cbn in G.
      replace (n_tot / sqrt PI * gint (ln c / (ln stdev * sqrt 2))) with (n_tot / sqrt PI * gint (ln c / (ln stdev * sqrt 2)) + - (n_tot / sqrt PI * 0)) by ring. exact G.
Qed.
(** All moments, of any real order: the sum of r^k is n_tot mean_r^k exp(k^2 (ln stdev)^2 / 2).  In particular the mean radius is not [mean_r] but larger. *)
Theorem C75_moments mean_r stdev n_tot k : 0 < mean_r -> 1 < stdev ->
  integral_pos (fun r => Rpower r k * n_r mean_r stdev n_tot r) (n_tot * (Rpower mean_r k * exp (k ^ 2 * ln stdev ^ 2 / 2))).
Proof.
  intros H1 H2. pose proof (sd_pos _ H2) as Hs. set (s := ln stdev) in *.
  set (N := n_tot * (Rpower mean_r k * exp (k ^ 2 * s ^ 2 / 2))).
  apply (integral_pos_ext (fun r => dens N (ln mean_r + k * s ^ 2) s (ln r) / r)).
  - intros r Hr. rewrite nr_ne, ne_dens by assumption. fold s. unfold dens, N, Rpower.
    replace (n_tot * (exp (k * ln mean_r) * exp (k ^ 2 * s ^ 2 / 2)) * exp (- (ln r - (ln mean_r + k * s ^ 2)) ^ 2 / 2 / s ^ 2))
      with (n_tot * (exp (k * ln r) * exp (- (ln r - ln mean_r) ^ 2 / 2 / s ^ 2))).
    2:{ rewrite Rmult_assoc, <- !exp_plus. do 2 f_equal. field. lra. }
    assert (0 < sqrt (2 * PI)) by (apply sqrt_lt_R0; pose proof PI_RGT_0; lra). field. lra.
  - exact (pos_of_line _ _ (dens_cont _ _ _) (dens_total _ _ _ Hs)).
Qed.
(** a [stdev] below one makes concentrations negative; nothing checks for it *)
Theorem C75_small_stdev_refuted mean_r stdev n_tot x : 0 < mean_r -> 0 < stdev < 1 -> 0 < n_tot -> n_e mean_r stdev n_tot x < 0.
Proof.
  intros H1 (H2 & H3) H4. unfold n_e. assert (L : ln stdev < 0) by (rewrite <- ln_1; apply ln_increasing; lra).
  assert (S : 0 < sqrt (2 * PI)) by (apply sqrt_lt_R0; pose proof PI_RGT_0; lra).
  set (e := exp _). assert (E : 0 < e) by apply exp_pos. clearbody e.
  replace (n_tot * e / ln stdev / sqrt (2 * PI)) with (- (n_tot * e / (- ln stdev) / sqrt (2 * PI))) by (field; lra).
  apply Ropp_lt_gt_0_contravar. apply Rdiv_lt_0_compat; [|exact S]. apply Rdiv_lt_0_compat; [|lra]. nra.
Qed.

(** ** C76: hydrostatic balance *)
(** the height at which the formula gives zero pressure *)
Definition z_top (th_0 r_0 z_0 p_0 : R) : R := z_0 + Rpower (p_0 / p_1000) (R_d / c_pd) * th_0 * ((R_d + r_0 * R_v) / (1 + r_0)) * c_pd / R_d / (981 / 100).
(** a pressure profile in hydrostatic balance at height z with air of constant potential temperature [th_0] and vapour mixing ratio [r_0]: the total density is
    that of dry air, as given by the library for that pressure (theta_std), times 1 + r_0 *)
Definition hydrostatic (th_0 r_0 : R) (p : R -> R) (z : R) : Prop := is_derive p z (- (981 / 100) * ((1 + r_0) * std_rhod (p z) th_0 r_0)).

Lemma gas : 0 < R_d /\ 0 < c_pd /\ 0 < eps /\ R_v = R_d / eps /\ 0 < R_v.
Proof. unfold R_d, R_v, c_pd, eps, kaBoNA, M_v, M_d, M_H, M_OH. repeat split; try lra; field. Qed.
Lemma rho_gas p th r w : 0 < th -> 0 <= r -> 0 < w -> cpow (p / p_1000) (R_d / c_pd) = w ->
  (1 + r) * std_rhod p th r = p / ((R_d + r * R_v) / (1 + r) * (th * w)).
Proof.
  intros Ht Hr Hw E. destruct gas as (G1 & G2 & G3 & G4 & _). unfold std_rhod, p_v. rewrite E, G4. field. repeat split; try lra.
  assert (0 < R_d * eps) by nra. assert (0 <= r * R_d) by nra. lra.
Qed.
Section Hydro.
  Variables (th r z0 p0 : R).
  Hypotheses (Ht : 0 < th) (Hr : 0 <= r) (Hp : 0 < p0).
  Let k := R_d / c_pd.
  Let RR := (R_d + r * R_v) / (1 + r).
  Let c := k * (981 / 100) / th / RR.
  Let A := Rpower (p0 / p_1000) k.
  Let b z := A - c * (z - z0).
  Lemma RRpos : 0 < RR. Proof. destruct gas as (G1 & _ & _ & _ & G5). unfold RR. apply Rdiv_lt_0_compat; nra. Qed.
  Lemma kpos : 0 < k. Proof. destruct gas as (G1 & G2 & _). apply Rdiv_lt_0_compat; assumption. Qed.
  Lemma cpos : 0 < c. Proof. pose proof kpos. pose proof RRpos. unfold c. repeat (apply Rdiv_lt_0_compat; [|assumption]). lra. Qed.
  Lemma p1000 : 0 < p_1000. Proof. unfold p_1000. lra. Qed.
  Lemma hydro_b z : hydro_p z th r z0 p0 = p_1000 * cpow (b z) (/ k).
  Proof.
    unfold hydro_p, g_earth, R_moist, mix, b, c, A, RR, k. pose proof p1000. rewrite (cpow_pos_eq (p0 / p_1000)) by (apply Rdiv_lt_0_compat; assumption).
    destruct gas as (G1 & G2 & _). replace (c_pd / R_d) with (/ (R_d / c_pd)) by (field; lra). reflexivity.
  Qed.
  Lemma below_top z : z < z_top th r z0 p0 <-> 0 < b z.
  Proof.
    assert (E : z_top th r z0 p0 = z0 + A / c).
    { unfold z_top, c. fold k A RR. pose proof RRpos. pose proof kpos. destruct gas as (G1 & G2 & _). unfold k at 1. rewrite <- (Rinv_inv (R_d / c_pd)). 
      unfold k. field. repeat split; lra. }
    rewrite E. pose proof cpos. unfold b. split; intros H1.
    - assert (z - z0 < A / c) by lra. apply (Rmult_lt_compat_l c) in H0; [|exact H]. replace (c * (A / c)) with A in H0 by (field; lra). lra.
    - apply Rmult_lt_reg_l with c; [exact H|]. replace (c * (z0 + A / c)) with (c * z0 + A) by (field; lra). lra.
  Qed.
  Lemma Rpower_inv x : 0 < x -> Rpower (Rpower x (/ k)) k = x.
  Proof. intros H. pose proof kpos. rewrite Rpower_mult, Rinv_l by lra. apply Rpower_1. exact H. Qed.
  Lemma hydro_derive z : 0 < b z -> hydrostatic th r (fun z => hydro_p z th r z0 p0) z.
  Proof.
    intros Hb. pose proof kpos as Pk. pose proof RRpos as PR. pose proof cpos as Pc. pose proof p1000 as Pp. unfold hydrostatic.
    assert (Ep : hydro_p z th r z0 p0 = p_1000 * Rpower (b z) (/ k)) by (rewrite hydro_b, cpow_pos_eq by exact Hb; reflexivity).
    rewrite (rho_gas _ th r (b z) Ht Hr Hb).
    2:{ rewrite Ep. replace (p_1000 * Rpower (b z) (/ k) / p_1000) with (Rpower (b z) (/ k)) by (field; lra). rewrite cpow_pos_eq by apply Rpower_pos. apply Rpower_inv, Hb. }
    fold RR. rewrite Ep.
    apply (is_derive_ext_loc (fun z => p_1000 * exp (/ k * ln (b z)))).
    { assert (C : continuous b z) by (apply (ex_derive_continuous (K := R_AbsRing) (V := R_NormedModule)); unfold b; auto_derive; exact I).
      assert (L : locally z (fun t => 0 < b t)) by (apply (C (fun v => 0 < v)); apply (open_gt 0); exact Hb).
      destruct L as (d & L). exists d. intros t Bt. rewrite hydro_b, cpow_pos_eq by (apply L, Bt). reflexivity. }
    unfold Rpower. unfold b. auto_derive; [fold (b z); unfold b in Hb; lra|].
    change (A + - (c * (z + - z0))) with (b z). change (A - c * (z - z0)) with (b z). set (E := exp (/ k * ln (b z))). clearbody E. unfold c. field. lra.
  Qed.
  Lemma hydro_unique q z : q z0 = p0 -> (forall t, Rmin z0 z <= t <= Rmax z0 z -> 0 < q t /\ hydrostatic th r q t) ->
    0 < b z /\ q z = hydro_p z th r z0 p0.
  Proof.
    intros Q0 HQ. pose proof kpos as Pk. pose proof RRpos as PR. pose proof cpos as Pc. pose proof p1000 as Pp.
    set (w := fun t => exp (k * ln (q t / p_1000)) + c * (t - z0)).
    assert (D : forall t, Rmin z0 z <= t <= Rmax z0 z -> is_derive w t 0).
    { intros t Hin. destruct (HQ t Hin) as (Pq & Dq). unfold hydrostatic in Dq.
      assert (Pq' : 0 < q t / p_1000) by (apply Rdiv_lt_0_compat; assumption).
      set (W := exp (k * ln (q t / p_1000))). assert (PW : 0 < W) by apply exp_pos.
      rewrite (rho_gas _ th r W Ht Hr PW) in Dq by (rewrite cpow_pos_eq by exact Pq'; reflexivity). fold RR in Dq.
      unfold w. set (dq := - (981 / 100) * (q t / (RR * (th * W)))) in *.
      replace 0 with (k * (/ (q t / p_1000) * (dq * / p_1000)) * W + c).
      2:{ unfold dq, c. field. repeat split; lra. }
      apply (is_derive_plus (fun t => exp (k * ln (q t / p_1000))) (fun t => c * (t - z0))); [|auto_derive; [exact I|ring]].
      apply (is_derive_comp exp (fun t => k * ln (q t / p_1000)) t W); [apply is_derive_exp|].
      apply (is_derive_scal (fun t => ln (q t / p_1000)) t k).
      replace (/ (q t / p_1000) * (dq * / p_1000)) with (dq * / p_1000 * / (q t / p_1000)) by ring.
      apply (is_derive_comp ln (fun t => q t / p_1000) t (/ (q t / p_1000)) (dq * / p_1000)).
      - apply is_derive_Reals. apply derivable_pt_lim_ln. exact Pq'.
      - apply (is_derive_ext (fun t => / p_1000 * q t)); [intros; inR; unfold Rdiv; ring|]. rewrite (Rmult_comm dq). apply (is_derive_scal q t (/ p_1000)). exact Dq. }
    destruct (MVT_gen w z0 z (fun _ => 0)) as (t & _ & Hw).
    - intros t Hin. apply D. lra.
    - intros t Hin. apply continuity_pt_filterlim. apply (ex_derive_continuous (K := R_AbsRing) (V := R_NormedModule) w). exists 0. apply D, Hin.
    - assert (Ew : exp (k * ln (q z / p_1000)) = b z).
      { unfold w in Hw. rewrite Q0 in Hw. change (exp (k * ln (p0 / p_1000))) with A in Hw. unfold b. lra. }
      assert (Hb : 0 < b z) by (rewrite <- Ew; apply exp_pos). split; [exact Hb|].
      rewrite hydro_b, cpow_pos_eq by exact Hb. rewrite <- Ew.
      destruct (HQ z) as (Pq & _); [split; [apply Rmin_r|apply Rmax_r]|].
      change (exp (k * ln (q z / p_1000))) with (Rpower (q z / p_1000) k). rewrite Rpower_mult, Rinv_r by lra. rewrite Rpower_1 by (apply Rdiv_lt_0_compat; assumption). field. lra.
  Qed.
End Hydro.

(** The profile starts at p_0, is positive below its top, in hydrostatic balance there, decreases with height; and any profile in hydrostatic balance between
    z_0 and z agrees with it (and so z is below the top). *)
Theorem C76_hydrostatic th_0 r_0 z_0 p_0 : 0 < th_0 -> 0 <= r_0 -> 0 < p_0 ->
  let p z := hydro_p z th_0 r_0 z_0 p_0 in
  p z_0 = p_0 /\
  (forall z, z < z_top th_0 r_0 z_0 p_0 -> 0 < p z /\ hydrostatic th_0 r_0 p z) /\
  (forall z z', z < z' -> z' < z_top th_0 r_0 z_0 p_0 -> p z' < p z) /\
  (forall q z, q z_0 = p_0 -> (forall t, Rmin z_0 z <= t <= Rmax z_0 z -> 0 < q t /\ hydrostatic th_0 r_0 q t) -> z < z_top th_0 r_0 z_0 p_0 /\ q z = p z).
Proof.
  intros Ht Hr Hp p. pose proof p1000 as Pp.
  pose proof (below_top th_0 r_0 z_0 p_0 Ht Hr) as BT. pose proof (hydro_b th_0 r_0 z_0 p_0 Hp) as HB.
  pose proof (hydro_derive th_0 r_0 z_0 p_0 Ht Hr Hp) as HD. pose proof (hydro_unique th_0 r_0 z_0 p_0 Ht Hr Hp) as HU. pose proof (cpos th_0 r_0 Ht Hr) as Pc. pose proof kpos as Pk.
  cbv zeta in *. set (c := R_d / c_pd * (981 / 100) / th_0 / ((R_d + r_0 * R_v) / (1 + r_0))) in *. set (k := R_d / c_pd) in *.
  set (A := Rpower (p_0 / p_1000) k) in *.
  split; [|split; [|split]].
  - unfold p. rewrite HB. replace (A - c * (z_0 - z_0)) with A by ring. rewrite cpow_pos_eq by apply Rpower_pos. unfold A.
    rewrite Rpower_mult, Rinv_r, Rpower_1 by (try apply Rdiv_lt_0_compat; lra). field. lra.
  - intros z Hz. apply BT in Hz. split; [|apply HD, Hz]. unfold p. rewrite HB. apply Rmult_lt_0_compat; [exact Pp|]. apply cpow_pos, Hz.
  - intros z z' Hlt Hz. apply BT in Hz. unfold p. rewrite !HB. apply Rmult_lt_compat_l; [exact Pp|].
    assert (Hm : c * (z - z_0) < c * (z' - z_0)) by (apply Rmult_lt_compat_l; lra). rewrite !cpow_pos_eq by lra.
    unfold Rpower. apply exp_increasing. apply Rmult_lt_compat_l; [apply Rinv_0_lt_compat, Pk|]. apply ln_increasing; lra.
  - intros q z Q0 HQ. destruct (HU q z Q0 HQ) as (U1 & U2). split; [apply BT, U1|exact U2].
Qed.
(** an instance: 300 K, dry, 1000 hPa; the top is above 30 km *)
Theorem C76_instance : 30000 < z_top 300 0 0 100000 /\ hydro_p 0 300 0 0 100000 = 100000.
Proof.
  split; [|apply C76_hydrostatic; lra]. unfold z_top. replace (100000 / p_1000) with 1 by (unfold p_1000; field).
  unfold Rpower. rewrite ln_1, Rmult_0_r, exp_0. destruct gas as (G1 & G2 & _). replace (0 + 1 * 300 * ((R_d + 0 * R_v) / (1 + 0)) * c_pd / R_d / (981 / 100)) with (300 * c_pd / (981 / 100)) by (field; lra). unfold c_pd. lra.
Qed.
(** an instance: 60 particles per cm3 of 0.04 um with a geometric standard deviation of 1.4 *)
Theorem C75_instance : integral_pos (n_r (4 / 100000000) (14 / 10) 60000000) 60000000.
Proof. apply C75_lognormal; lra. Qed.

Print Assumptions C75_lognormal.
Print Assumptions C75_moments.
Print Assumptions C75_small_stdev_refuted.
Print Assumptions C76_hydrostatic.
Print Assumptions C76_instance.
Print Assumptions C75_instance.
