(** C19: the root finder stays in its bracket, keeps the sign change, terminates within the
    iteration limit and converges. *)
From Coq Require Import Reals Ranalysis5 List NArith ZArith Bool Lra Lia Psatz.
From Verif Require Import Base BaseProofs TomsModel.
Import ListNotations.
Local Open Scope R_scope.

(** ** specification *)

(** machine constants: epsilon is positive and at most 1/8 (2^-23 and 2^-52 in fact) *)
Definition fp_ok (p : fptype) : Prop := 0 < feps p <= 1/8.
(** two numbers agree to the relative tolerance [e] *)
Definition agree (e a b : R) : Prop := Rabs (a - b) <= e * Rmin (Rabs a) (Rabs b).
(** [(a,b)] is a bracket of a sign change of [f] within [(A,B)] *)
Definition sign_bracket (f : R -> R) (A B a b : R) : Prop :=
  A <= a /\ a < b /\ b <= B /\ f a * f b < 0.

(** ** the tolerance *)
Lemma eps_tolerance_agree p bits a b :
  eps_tolerance p bits a b = true <-> agree (tol_eps p bits) a b.
Proof. unfold eps_tolerance, agree. rewrite Rleb_true, cmin_Rmin. tauto. Qed.
Lemma tol_eps_ge p bits : 4 * feps p <= tol_eps p bits.
Proof. unfold tol_eps. rewrite cmax_Rmax. apply Rmax_r. Qed.

(** a tolerance that does not stop while the bracket is wider than four epsilons *)
Definition tol_wide (p : fptype) (tol : R -> R -> bool) : Prop :=
  forall a b, tol a b = false -> 4 * feps p * Rmin (Rabs a) (Rabs b) < Rabs (a - b).
Lemma eps_tolerance_wide p bits : tol_wide p (eps_tolerance p bits).
Proof.
  intros a b H. unfold eps_tolerance in H. apply Rleb_false in H. rewrite cmin_Rmin in H.
  pose proof (tol_eps_ge p bits). 
  assert (0 <= Rmin (Rabs a) (Rabs b)) by (apply Rmin_glb; apply Rabs_pos).
  nra.
Qed.

(** ** bracket() *)
Ltac cases_abs := unfold Rabs in *; repeat (destruct Rcase_abs); try lra.

Lemma wide_left p a b : fp_ok p -> a < b ->
  4 * feps p * Rmin (Rabs a) (Rabs b) < Rabs (a - b) ->
  Rabs a * (feps p * 2) <= (1/2 + 2 * feps p) * (b - a).
Proof.
  intros [He He'] Hab Hw.
  assert (Hd : Rabs (a - b) = b - a) by (rewrite Rabs_left; lra).
  rewrite Hd in Hw.
  destruct (Rmin_cases (Rabs a) (Rabs b)) as [[H1 H2]|[H1 H2]]; rewrite H2 in Hw.
  - nra.
  - assert (Rabs a <= Rabs b + (b - a)) by cases_abs. nra.
Qed.

Lemma bracket_point_in p a b c : fp_ok p -> a < b ->
  4 * feps p * Rmin (Rabs a) (Rabs b) < Rabs (a - b) ->
  a <= bracket_point p a b c <= b.
Proof.
  intros Hp Hab Hw. pose proof (wide_left p a b Hp Hab Hw) as HL. destruct Hp as [He He'].
  pose proof (Rabs_pos a). pose proof (Rabs_pos b).
  assert (0 <= Rabs a * (feps p * 2)) by nra.
  assert (0 <= Rabs b * (feps p * 2)) by nra.
  unfold bracket_point.
  destruct (Rltb (b - a) (2 * (feps p * 2) * a)) eqn:E1; [lra|].
  destruct (Rleb c (a + Rabs a * (feps p * 2))) eqn:E2.
  - nra.
  - destruct (Rleb (b - Rabs b * (feps p * 2)) c) eqn:E3; [nra|].
    apply Rleb_false in E2, E3. lra.
Qed.

(** at the midpoint the bracket shrinks by almost a half *)
Lemma bracket_point_mid p a b : fp_ok p -> a < b ->
  4 * feps p * Rmin (Rabs a) (Rabs b) < Rabs (a - b) ->
  bracket_point p a b (a + (b - a) / 2) - a <= (1/2 + 2 * feps p) * (b - a) /\
  b - bracket_point p a b (a + (b - a) / 2) <= (1/2 + 2 * feps p) * (b - a).
Proof.
  intros Hp Hab Hw. pose proof (wide_left p a b Hp Hab Hw) as HL. destruct Hp as [He He'].
  pose proof (Rabs_pos a). pose proof (Rabs_pos b).
  assert (0 <= (b - a) * feps p) by nra.
  unfold bracket_point.
  destruct (Rltb (b - a) (2 * (feps p * 2) * a)) eqn:E1; [lra|].
  destruct (Rleb (a + (b - a) / 2) (a + Rabs a * (feps p * 2))) eqn:E2.
  - apply Rleb_true in E2. lra.
  - destruct (Rleb (b - Rabs b * (feps p * 2)) (a + (b - a) / 2)) eqn:E3; [|lra].
    apply Rleb_true in E3.
    assert (Rabs b <= Rabs a + (b - a)) by cases_abs. split; nra.
Qed.

(** invariant of the bracket *)
Definition binv (f : R -> R) (A B : R) (k : brk) : Prop :=
  A <= ba k /\ ba k <= bb k /\ bb k <= B /\ bfa k = f (ba k) /\ bfb k = f (bb k) /\
  bfb k <> 0 /\ (bfa k = 0 \/ bfa k * bfb k < 0).

Lemma binv_lt f A B k : binv f A B k -> bfa k <> 0 -> ba k < bb k.
Proof.
  intros (H1 & H2 & H3 & H4 & H5 & H6 & [H7|H7]) H; [contradiction|].
  destruct H2 as [H2|H2]; [exact H2|]. rewrite H4, H5, H2 in H7. nra.
Qed.

Lemma bracket_inv p f tol A B k c : fp_ok p -> tol_wide p tol -> binv f A B k ->
  bfa k <> 0 -> tol (ba k) (bb k) = false ->
  let x := bracket_point p (ba k) (bb k) c in
  let k' := bracket p f k c in
  binv f A B k' /\ A <= x <= B /\ bb k' - ba k' <= bb k - ba k /\
  (c = ba k + (bb k - ba k) / 2 -> bb k' - ba k' <= (1/2 + 2 * feps p) * (bb k - ba k)).
Proof.
  intros Hp Ht Hi Hf Htol x k'.
  pose proof (binv_lt f A B k Hi Hf) as Hlt.
  specialize (Ht _ _ Htol).
  pose proof (bracket_point_in p _ _ c Hp Hlt Ht) as Hx. fold x in Hx.
  assert (Hm : c = ba k + (bb k - ba k) / 2 ->
               x - ba k <= (1/2 + 2 * feps p) * (bb k - ba k) /\
               bb k - x <= (1/2 + 2 * feps p) * (bb k - ba k)).
  { intros ->. apply bracket_point_mid; assumption. }
  destruct Hi as (H1 & H2 & H3 & H4 & H5 & H6 & [H7|H7]); [contradiction|].
  subst k'. unfold bracket. fold x.
  destruct (Reqb (f x) 0) eqn:E1; [apply Reqb_true in E1 | apply Reqb_false in E1];
    [|destruct (Rltb (bfa k * f x) 0) eqn:E2; [apply Rltb_true in E2|apply Rltb_false in E2]];
    cbn [ba bb bfa bfb].
  - unfold binv; cbn [ba bb bfa bfb].
    split; [|split; [lra|split; [lra|intros E; destruct (Hm E); lra]]].
    split; [lra|split; [lra|split; [lra|]]].
    split; [auto|split; [auto|split; [auto|left; reflexivity]]].
  - unfold binv; cbn [ba bb bfa bfb].
    split; [|split; [lra|split; [lra|intros E; destruct (Hm E); lra]]].
    split; [lra|split; [lra|split; [lra|]]].
    split; [auto|split; [auto|split; [auto|right; exact E2]]].
  - unfold binv; cbn [ba bb bfa bfb].
    split; [|split; [lra|split; [lra|intros E; destruct (Hm E); lra]]].
    split; [lra|split; [lra|split; [lra|]]].
    split; [auto|split; [auto|split; [auto|right]]].
    assert (0 < bfa k * f x).
    { destruct E2 as [E2|E2]; [exact E2|]. exfalso. symmetry in E2.
      apply Rmult_integral in E2. tauto. }
    nra.
Qed.

(** ** the state *)
Definition tinv (f : R -> R) (A B : R) (m : N) (s : tst) : Prop :=
  binv f A B (tb s) /\ Forall (fun x => A <= x <= B) (tevals s) /\
  (tcount s + N.of_nat (length (tevals s)) = m)%N.

Lemma going_true tol s : going tol s = true ->
  tcount s <> 0%N /\ bfa (tb s) <> 0 /\ tol (ba (tb s)) (bb (tb s)) = false.
Proof.
  unfold going. intros H. apply andb_prop in H. destruct H as [H H3].
  apply andb_prop in H. destruct H as [H1 H2].
  apply negb_true_iff in H1, H2, H3. apply N.eqb_neq in H1. apply Reqb_false in H2. auto.
Qed.
Lemma going_false tol s : going tol s = false ->
  tcount s = 0%N \/ bfa (tb s) = 0 \/ tol (ba (tb s)) (bb (tb s)) = true.
Proof.
  unfold going. intros H.
  destruct (N.eqb (tcount s) 0) eqn:E1; [left; apply N.eqb_eq; exact E1|].
  destruct (Reqb (bfa (tb s)) 0) eqn:E2; [right; left; apply Reqb_true; exact E2|].
  destruct (tol (ba (tb s)) (bb (tb s))); [tauto|discriminate].
Qed.

Definition width (s : tst) : R := bb (tb s) - ba (tb s).

Lemma tstep_inv p f tol A B m s c : fp_ok p -> tol_wide p tol ->
  tinv f A B m s -> going tol s = true ->
  tinv f A B m (tstep p f s c) /\ tcount (tstep p f s c) = (tcount s - 1)%N /\
  width (tstep p f s c) <= width s /\
  (c = ba (tb s) + (bb (tb s) - ba (tb s)) / 2 ->
   width (tstep p f s c) <= (1/2 + 2 * feps p) * width s).
Proof.
  intros Hp Ht (Hb & Hev & Hc) Hg. destruct (going_true _ _ Hg) as (G1 & G2 & G3).
  destruct (bracket_inv p f tol A B (tb s) c Hp Ht Hb G2 G3) as (I1 & I2 & I3 & I4).
  assert (Hd : dec64 (tcount s) = (tcount s - 1)%N).
  { unfold dec64. destruct (N.eqb_spec (tcount s) 0); [contradiction|reflexivity]. }
  unfold tinv, width; cbn [tstep tb tevals tcount].
  split; [split; [exact I1|split]|split; [exact Hd|split; [exact I3|exact I4]]].
  - constructor; assumption.
  - rewrite Hd. cbn [length]. lia.
Qed.

Lemma tinv_save f A B m s : tinv f A B m s -> tinv f A B m (save_e s).
Proof. intros H. exact H. Qed.
Lemma going_save tol s : going tol (save_e s) = going tol s.
Proof. reflexivity. Qed.

Lemma width_nonneg f A B m s : tinv f A B m s -> 0 <= width s.
Proof. intros ((_ & H & _) & _). unfold width. lra. Qed.

(** one iteration of the loop *)
Lemma titer_inv p f tol A B m s : fp_ok p -> tol_wide p tol ->
  tinv f A B m s -> going tol s = true ->
  let (s', c) := titer p f tol s in
  tinv f A B m s' /\ (tcount s' < tcount s)%N /\ width s' <= width s /\
  (if c then width s' <= (1/2 + 2 * feps p) * width s /\ (tcount s <= tcount s' + 4)%N
   else going tol s' = false /\ (tcount s <= tcount s' + 3)%N).
Proof.
  intros Hp Ht Hi Hg. unfold titer.
  destruct (going_true _ _ Hg) as (G0 & _).
  set (c1 := interpolate p s 2). clearbody c1.
  destruct (tstep_inv p f tol A B m (save_e s) c1 Hp Ht (tinv_save _ _ _ _ _ Hi))
    as (I1 & C1 & W1 & _); [rewrite going_save; exact Hg|].
  set (s1 := tstep p f (save_e s) c1) in *.
  change (tcount (save_e s)) with (tcount s) in C1. change (width (save_e s)) with (width s) in W1.
  clearbody s1.
  destruct (going tol s1) eqn:E1; cbn [negb].
  2:{ split; [exact I1|split; [lia|split; [exact W1|split; [exact E1|lia]]]]. }
  destruct (going_true _ _ E1) as (G1 & _).
  set (c2 := interpolate p s1 3). clearbody c2.
  destruct (tstep_inv p f tol A B m s1 c2 Hp Ht I1 E1) as (I2 & C2 & W2 & _).
  set (s2 := tstep p f s1 c2) in *. clearbody s2.
  destruct (going tol s2) eqn:E2; cbn [negb].
  2:{ split; [exact I2|split; [lia|split; [lra|split; [exact E2|lia]]]]. }
  destruct (going_true _ _ E2) as (G2 & _).
  set (c3 := double_secant (tb s2)). clearbody c3.
  destruct (tstep_inv p f tol A B m (save_e s2) c3 Hp Ht (tinv_save _ _ _ _ _ I2))
    as (I3 & C3 & W3 & _); [rewrite going_save; exact E2|].
  set (s3 := tstep p f (save_e s2) c3) in *.
  change (tcount (save_e s2)) with (tcount s2) in C3.
  change (width (save_e s2)) with (width s2) in W3. clearbody s3.
  destruct (going tol s3) eqn:E3; cbn [negb].
  2:{ split; [exact I3|split; [lia|split; [lra|split; [exact E3|lia]]]]. }
  destruct (going_true _ _ E3) as (G3 & _).
  pose proof (width_nonneg _ _ _ _ _ Hi) as Hw.
  destruct (Rltb (bb (tb s3) - ba (tb s3)) (1 / 2 * (bb (tb s) - ba (tb s)))) eqn:E4.
  { apply Rltb_true in E4.
    split; [exact I3|split; [lia|split; [lra|split; [|lia]]]].
    fold (width s3) in E4. fold (width s) in E4. destruct Hp. nra. }
  destruct (tstep_inv p f tol A B m (save_e s3) (ba (tb s3) + (bb (tb s3) - ba (tb s3)) / 2)
              Hp Ht (tinv_save _ _ _ _ _ I3)) as (I4 & C4 & W4 & M4);
    [rewrite going_save; exact E3|].
  specialize (M4 eq_refl).
  change (tcount (save_e s3)) with (tcount s3) in C4.
  change (width (save_e s3)) with (width s3) in W4, M4.
  split; [exact I4|split; [lia|split; [lra|split; [|lia]]]].
  destruct Hp. nra.
Qed.

(** the loop *)
Lemma tloop_inv p f tol A B m : fp_ok p -> tol_wide p tol -> forall fuel s,
  tinv f A B m s -> (N.to_nat (tcount s) < fuel)%nat ->
  exists s' k, tloop p f tol fuel s = Some s' /\ tinv f A B m s' /\ going tol s' = false /\
    width s' <= (1/2 + 2 * feps p) ^ k * width s /\ (tcount s <= tcount s' + N.of_nat (4 * k + 3))%N.
Proof.
  intros Hp Ht. induction fuel as [|n IH]; intros s Hi Hf; [lia|].
  cbn [tloop]. destruct (going tol s) eqn:Eg.
  2:{ exists s, 0%nat. split; [reflexivity|split; [exact Hi|split; [exact Eg|split]]].
      - cbn. lra.
      - lia. }
  pose proof (titer_inv p f tol A B m s Hp Ht Hi Eg) as HT.
  pose proof (width_nonneg _ _ _ _ _ Hi) as Hw0.
  destruct (titer p f tol s) as [s' c]. destruct HT as (I' & C' & W' & HC).
  destruct c.
  - destruct HC as [HW HCnt].
    destruct (IH s' I') as (s'' & k & E & I'' & G'' & W'' & C''); [lia|].
    exists s'', (S k). split; [exact E|split; [exact I''|split; [exact G''|split]]].
    + cbn [pow]. assert (0 <= (1 / 2 + 2 * feps p) ^ k) by (apply pow_le; destruct Hp; lra).
      apply Rle_trans with (1:=W'').
      rewrite (Rmult_comm (1 / 2 + 2 * feps p)), Rmult_assoc.
      apply Rmult_le_compat_l; assumption.
    + lia.
  - destruct HC as [HG HCnt]. exists s', 0%nat.
    split; [reflexivity|split; [exact I'|split; [exact HG|split]]].
    + cbn. lra.
    + lia.
Qed.

(** ** toms748_solve *)
Definition outcome (f : R -> R) (A B : R) (tol : R -> R -> bool) (rho : R) (m : N) (r : R)
           (it : N) (evs : list R) : Prop :=
  A <= r <= B /\ it = N.of_nat (length evs) /\ (it <= m)%N /\ Forall (fun x => A <= x <= B) evs /\
  (f r = 0 \/
   exists a b, sign_bracket f A B a b /\ r = (a + b) / 2 /\
     (tol a b = true \/
      it = m /\ exists k, (m <= N.of_nat (4 * k + 5))%N /\ b - a <= rho ^ k * (B - A))).

Lemma tresult_zero k : bfa k = 0 -> tresult k = ba k.
Proof. intros H. unfold tresult. replace (Reqb (bfa k) 0) with true; [lra|symmetry; apply Reqb_true; exact H]. Qed.
Lemma tresult_mid k : bfa k <> 0 -> bfb k <> 0 -> tresult k = (ba k + bb k) / 2.
Proof.
  intros H H'. unfold tresult. apply Reqb_false in H, H'. rewrite H, H'. reflexivity.
Qed.

Lemma solve_outcome p f ax bx tol m : fp_ok p -> tol_wide p tol ->
  ax < bx -> f ax * f bx <= 0 -> (1 <= m < Z.to_N W64)%N ->
  exists r it evs, toms748_solve p f ax bx (f ax) (f bx) tol m = Some (r, it, evs) /\
    outcome f ax bx tol (1/2 + 2 * feps p) m r it evs.
Proof.
  intros Hp Ht Hab Hs Hm. unfold toms748_solve.
  destruct (tol ax bx || Reqb (f ax) 0 || Reqb (f bx) 0) eqn:E0.
  - eexists _, _, _. split; [reflexivity|]. unfold outcome.
    cbn [length]. unfold tresult; cbn [ba bb bfa bfb].
    destruct (Reqb (f ax) 0) eqn:Ea; [apply Reqb_true in Ea|apply Reqb_false in Ea].
    { replace ((ax + ax) / 2) with ax by lra.
      split; [lra|split; [reflexivity|split; [lia|split; [constructor|left; exact Ea]]]]. }
    destruct (Reqb (f bx) 0) eqn:Eb; [apply Reqb_true in Eb|apply Reqb_false in Eb].
    { replace ((bx + bx) / 2) with bx by lra.
      split; [lra|split; [reflexivity|split; [lia|split; [constructor|left; exact Eb]]]]. }
    split; [lra|split; [reflexivity|split; [lia|split; [constructor|]]]].
    right. exists ax, bx. split; [|split; [reflexivity|left]].
    + split; [lra|split; [lra|split; [lra|]]].
      assert (f ax * f bx <> 0) by (intros H; apply Rmult_integral in H; tauto). lra.
    + rewrite !orb_false_r in E0. exact E0.
  - apply orb_false_elim in E0. destruct E0 as [E0 Eb].
    apply orb_false_elim in E0. destruct E0 as [E0 Ea].
    apply Reqb_false in Ea, Eb.
    assert (Hlt : f ax * f bx < 0).
    { assert (f ax * f bx <> 0) by (intros H; apply Rmult_integral in H; tauto). lra. }
    set (s0 := {| tb := {| ba := ax; bb := bx; bfa := f ax; bfb := f bx; bd := 0; bfd := 100000 |};
                  te := 100000; tfe := 100000; tcount := m; tevals := [] |}).
    assert (I0 : tinv f ax bx m s0).
    { unfold tinv, binv; cbn [s0 tb ba bb bfa bfb tevals tcount length].
      split; [|split; [constructor|lia]].
      split; [lra|split; [lra|split; [lra|]]].
      split; [reflexivity|split; [reflexivity|split; [exact Eb|right; exact Hlt]]]. }
    assert (G0 : going tol s0 = true).
    { unfold going; cbn [s0 tb ba bb bfa tcount]. apply Reqb_false in Ea. rewrite E0, Ea.
      replace (N.eqb m 0) with false; [reflexivity|symmetry; apply N.eqb_neq; lia]. }
    destruct (tstep_inv p f tol ax bx m s0 (secant_interpolate p ax bx (f ax) (f bx)) Hp Ht I0 G0)
      as (I1 & C1 & W1 & _).
    set (s1 := tstep p f s0 (secant_interpolate p ax bx (f ax) (f bx))) in *. clearbody s1.
    change (tcount s0) with m in C1. change (width s0) with (bx - ax) in W1.
    assert (H2 : exists s2,
       (if going tol s1
        then tstep p f (save_e s1)
               (quadratic_interpolate p (ba (tb s1)) (bb (tb s1)) (bd (tb s1)) (bfa (tb s1))
                  (bfb (tb s1)) (bfd (tb s1)) 2) else s1) = s2 /\
       tinv f ax bx m s2 /\ (m <= tcount s2 + 2)%N /\ width s2 <= bx - ax).
    { destruct (going tol s1) eqn:E1.
      - eexists. split; [reflexivity|].
        destruct (tstep_inv p f tol ax bx m (save_e s1)
                   (quadratic_interpolate p (ba (tb s1)) (bb (tb s1)) (bd (tb s1)) (bfa (tb s1))
                      (bfb (tb s1)) (bfd (tb s1)) 2) Hp Ht I1 E1) as (I2 & C2 & W2 & _).
        change (tcount (save_e s1)) with (tcount s1) in C2.
        change (width (save_e s1)) with (width s1) in W2.
        split; [exact I2|split; [lia|lra]].
      - exists s1. split; [reflexivity|split; [exact I1|split; [lia|exact W1]]]. }
    destruct H2 as (s2 & -> & I2 & C2 & W2).
    destruct (tloop_inv p f tol ax bx m Hp Ht (S (N.to_nat (tcount s2))) s2 I2)
      as (s3 & k & E3 & I3 & G3 & W3 & C3); [lia|].
    rewrite E3. eexists _, _, _. split; [reflexivity|].
    destruct I3 as (B3 & EV3 & CN3).
    assert (Hit : sub64 m (tcount s3) = N.of_nat (length (rev (tevals s3)))).
    { rewrite rev_length. unfold sub64. rewrite wrap64_small; lia. }
    destruct B3 as (P1 & P2 & P3 & P4 & P5 & P6 & P7).
    rewrite Hit. rewrite rev_length.
    unfold outcome.
    destruct (Req_EM_T (bfa (tb s3)) 0) as [Ez|Ez].
    + rewrite (tresult_zero _ Ez).
      split; [lra|split; [rewrite rev_length; reflexivity|split; [lia|split; [apply Forall_rev; exact EV3|]]]].
      left. rewrite <- P4. exact Ez.
    + rewrite (tresult_mid _ Ez P6).
      assert (Hlt3 : ba (tb s3) < bb (tb s3)).
      { apply (binv_lt f ax bx); [|exact Ez]. unfold binv. auto 10. }
      split; [lra|split; [rewrite rev_length; reflexivity|split; [lia|split; [apply Forall_rev; exact EV3|]]]].
      right. exists (ba (tb s3)), (bb (tb s3)).
      split; [|split; [reflexivity|]].
      * split; [lra|split; [lra|split; [lra|]]]. rewrite <- P4, <- P5. tauto.
      * destruct (going_false _ _ G3) as [H|[H|H]]; [right|contradiction|left; exact H].
        split; [lia|]. exists k. split; [lia|]. unfold width in W3.
        apply Rle_trans with (1:=W3).
        apply Rmult_le_compat_l; [apply pow_le; destruct Hp; lra|exact W2].
Qed.

(** C19, main statement: the solver with the library's tolerance, for every function, bracket with
    a sign change and positive iteration limit, returns a point of the bracket after at most the
    permitted number of evaluations, all of them inside the bracket; the returned point is an exact
    zero or the midpoint of a bracket of a sign change that agrees to the tolerance unless the
    evaluations are used up; the reported number of iterations is the number of evaluations. *)
Theorem C19_root p f ax bx bits m :
  fp_ok p -> ax < bx -> f ax * f bx <= 0 -> (1 <= m < Z.to_N W64)%N ->
  exists r it evs,
    toms748_solve p f ax bx (f ax) (f bx) (eps_tolerance p bits) m = Some (r, it, evs) /\
    ax <= r <= bx /\ it = N.of_nat (length evs) /\ (it <= m)%N /\
    (forall x, In x evs -> ax <= x <= bx) /\
    (f r = 0 \/
     exists a b, sign_bracket f ax bx a b /\ r = (a + b) / 2 /\
                 (agree (tol_eps p bits) a b \/ it = m)).
Proof.
  intros Hp Hab Hs Hm.
  destruct (solve_outcome p f ax bx _ m Hp (eps_tolerance_wide p bits) Hab Hs Hm)
    as (r & it & evs & E & O1 & O2 & O3 & O4 & O5).
  exists r, it, evs. split; [exact E|split; [exact O1|split; [exact O2|split; [exact O3|split]]]].
  - apply Forall_forall. exact O4.
  - destruct O5 as [O5|(a & b & Q1 & Q2 & [Q3|[Q3 _]])]; [left; exact O5| |];
      right; exists a, b; split; [exact Q1|split; [exact Q2|left]| exact Q1|split; [exact Q2|right; exact Q3]].
    apply eps_tolerance_agree. exact Q3.
Qed.

(** C19, the overload that evaluates the end points itself: it reports and makes at most [m]
    evaluations in total, for every limit of at least three *)
Theorem C19_ends p f ax bx bits m :
  fp_ok p -> ax < bx -> f ax * f bx <= 0 -> (3 <= m < Z.to_N W64)%N ->
  exists r it evs,
    toms748_solve_ends p f ax bx (eps_tolerance p bits) m = Some (r, it, evs) /\
    ax <= r <= bx /\ it = (N.of_nat (length evs) + 2)%N /\ (it <= m)%N /\
    (f r = 0 \/
     exists a b, sign_bracket f ax bx a b /\ r = (a + b) / 2 /\
                 (agree (tol_eps p bits) a b \/ it = m)).
Proof.
  intros Hp Hab Hs Hm. unfold toms748_solve_ends.
  assert (E2 : sub64 m 2 = (m - 2)%N).
  { unfold sub64. rewrite wrap64_small; lia. }
  rewrite E2.
  destruct (C19_root p f ax bx bits (m - 2)%N Hp Hab Hs) as (r & it & evs & E & O1 & O2 & O3 & _ & O5); [lia|].
  rewrite E. exists r, (it + 2)%N, evs.
  split; [rewrite wrap64_small by lia; f_equal; f_equal; f_equal; lia|].
  split; [exact O1|split; [lia|split; [lia|]]].
  destruct O5 as [O5|(a & b & Q1 & Q2 & [Q3|Q3])]; [left; exact O5| |];
    right; exists a, b; split; [exact Q1|split; [exact Q2|left; exact Q3]| exact Q1|split; [exact Q2|right; lia]].
Qed.

(** an exact zero at an end point is returned at once *)
Theorem C19_exact_ends p f ax bx tol m : 
  (f ax = 0 -> toms748_solve p f ax bx (f ax) (f bx) tol m = Some (ax, 0%N, [])) /\
  (f ax <> 0 -> f bx = 0 -> toms748_solve p f ax bx (f ax) (f bx) tol m = Some (bx, 0%N, [])).
Proof.
  split; [intros H|intros H' H]; unfold toms748_solve.
  - apply Reqb_true in H. rewrite H, orb_true_r. cbn [orb]. unfold tresult; cbn [bfa ba].
    rewrite H. replace ((ax + ax) / 2) with ax by lra. reflexivity.
  - apply Reqb_true in H. apply Reqb_false in H'. rewrite H, orb_true_r. unfold tresult; cbn [bfa bfb ba bb].
    rewrite H, H'. replace ((bx + bx) / 2) with bx by lra. reflexivity.
Qed.

(** C19, convergence: for a bracket of positive numbers and a limit of [4 k + 2] evaluations,
    [(1/2 + 2 eps)^k (bx - ax) <= tolerance * ax] guarantees convergence to the tolerance,
    whatever the function. *)
Theorem C19_convergence p f ax bx bits m k :
  fp_ok p -> 0 < ax -> ax < bx -> f ax * f bx <= 0 -> (m < Z.to_N W64)%N ->
  (N.of_nat (4 * k + 2) <= m)%N ->
  (1/2 + 2 * feps p) ^ k * (bx - ax) <= tol_eps p bits * ax ->
  exists r it evs,
    toms748_solve p f ax bx (f ax) (f bx) (eps_tolerance p bits) m = Some (r, it, evs) /\
    (f r = 0 \/
     exists a b, sign_bracket f ax bx a b /\ r = (a + b) / 2 /\ agree (tol_eps p bits) a b).
Proof.
  intros Hp Ha Hab Hs Hm Hk Hc.
  destruct (solve_outcome p f ax bx _ m Hp (eps_tolerance_wide p bits) Hab Hs)
    as (r & it & evs & E & O1 & O2 & O3 & O4 & O5); [lia|].
  exists r, it, evs. split; [exact E|].
  destruct O5 as [O5|(a & b & Q1 & Q2 & Q3)]; [left; exact O5|right].
  exists a, b. split; [exact Q1|split; [exact Q2|]].
  destruct Q3 as [Q3|[_ (k' & K1 & K2)]]; [apply eps_tolerance_agree; exact Q3|].
  destruct Q1 as (R1 & R2 & R3 & _). unfold agree.
  assert (Hpow : (1 / 2 + 2 * feps p) ^ k' <= (1 / 2 + 2 * feps p) ^ k).
  { assert (k <= k')%nat by lia. replace k' with (k + (k' - k))%nat by lia.
    rewrite pow_add. rewrite <- (Rmult_1_r ((1 / 2 + 2 * feps p) ^ k)) at 2.
    apply Rmult_le_compat_l; [apply pow_le; destruct Hp; lra|].
    apply Rle_trans with (1 ^ (k' - k)); [apply pow_incr; destruct Hp; lra|rewrite pow1; lra]. }
  rewrite Rabs_left by lra.
  rewrite (Rabs_right a), (Rabs_right b), Rmin_left by lra.
  pose proof (tol_eps_ge p bits). destruct Hp as [He He'].
  assert ((1 / 2 + 2 * feps p) ^ k' * (bx - ax) <= (1 / 2 + 2 * feps p) ^ k * (bx - ax)) by nra.
  nra.
Qed.

(** C19, accuracy: if moreover the function is continuous on the bracket, the returned point is
    within half of the final bracket of a root. *)
Lemma root_between f a b : a < b -> f a * f b < 0 ->
  (forall x, a <= x <= b -> continuity_pt f x) -> exists z, a <= z <= b /\ f z = 0.
Proof.
  intros Hab Hs Hc.
  destruct (Rlt_dec (f a) 0) as [Ha|Ha].
  - destruct (IVT_interv f a b Hc Hab Ha) as (z & H1 & H2); [assert (HH : 0 < f b) by nra; exact HH|]. exists z. auto.
  - assert (0 < f a) by (destruct (Req_dec (f a) 0) as [E|E]; [rewrite E in Hs; lra|lra]).
    destruct (IVT_interv (fun x => - f x) a b) as (z & H1 & H2).
    + intros x Hx. apply continuity_pt_opp, Hc, Hx.
    + exact Hab.
    + lra.
    + nra.
    + exists z. split; [exact H1|lra].
Qed.

Theorem C19_accuracy p f ax bx bits m k :
  fp_ok p -> 0 < ax -> ax < bx -> f ax * f bx <= 0 -> (m < Z.to_N W64)%N ->
  (N.of_nat (4 * k + 2) <= m)%N ->
  (1/2 + 2 * feps p) ^ k * (bx - ax) <= tol_eps p bits * ax ->
  (forall x, ax <= x <= bx -> continuity_pt f x) ->
  exists r it evs z,
    toms748_solve p f ax bx (f ax) (f bx) (eps_tolerance p bits) m = Some (r, it, evs) /\
    ax <= z <= bx /\ f z = 0 /\ Rabs (r - z) <= tol_eps p bits / 2 * z.
Proof.
  intros Hp Ha Hab Hs Hm Hk Hc Hf.
  destruct (C19_root p f ax bx bits m) as (r & it & evs & E & Hr & _); try assumption; [lia|].
  destruct (C19_convergence p f ax bx bits m k) as (r' & it' & evs' & E' & O); try assumption.
  rewrite E in E'. injection E' as <- <- <-.
  pose proof (tol_eps_ge p bits). destruct Hp as [He He'].
  destruct O as [O|(a & b & (R1 & R2 & R3 & R4) & Q2 & Q3)].
  - exists r, it, evs, r. split; [exact E|split; [exact Hr|split; [exact O|]]].
    replace (r - r) with 0 by lra. rewrite Rabs_R0. nra.
  - destruct (root_between f a b R2 R4) as (z & Hz & Fz).
    { intros x Hx. apply Hf. lra. }
    exists r, it, evs, z. split; [exact E|split; [lra|split; [exact Fz|]]].
    unfold agree in Q3. rewrite Rabs_left in Q3 by lra.
    rewrite (Rabs_right a), (Rabs_right b), Rmin_left in Q3 by lra.
    assert (Rabs (r - z) <= (b - a) / 2) by (unfold Rabs; destruct Rcase_abs; lra).
    nra.
Qed.

(** ** refuted parts *)

(** With an iteration limit of zero the counter wraps around: the function is evaluated although
    no iteration is allowed (also through the overload that subtracts two for the end points). *)
Lemma tloop_keeps p f tol x : forall fuel s s',
  In x (tevals s) -> tloop p f tol fuel s = Some s' -> In x (tevals s').
Proof.
  induction fuel as [|n IH]; intros s s' Hx E; [discriminate|].
  cbn [tloop] in E. destruct (going tol s); [|injection E as <-; exact Hx].
  assert (HT : In x (tevals (fst (titer p f tol s)))).
  { unfold titer.
    match goal with |- context [tstep p f (save_e s) ?c] => set (s1 := tstep p f (save_e s) c) end.
    assert (H1 : In x (tevals s1)) by (right; exact Hx). clearbody s1.
    destruct (going tol s1); cbn [negb]; [|exact H1].
    match goal with |- context [tstep p f s1 ?c] => set (s2 := tstep p f s1 c) end.
    assert (H2 : In x (tevals s2)) by (right; exact H1). clearbody s2.
    destruct (going tol s2); cbn [negb]; [|exact H2].
    match goal with |- context [tstep p f (save_e s2) ?c] => set (s3 := tstep p f (save_e s2) c) end.
    assert (H3 : In x (tevals s3)) by (right; exact H2). clearbody s3.
    destruct (going tol s3); cbn [negb]; [|exact H3].
    destruct (Rltb _ _); [exact H3|right; exact H3]. }
  destruct (titer p f tol s) as [s1 c]. cbn [fst] in HT.
  destruct c; [exact (IH s1 s' HT E)|injection E as <-; exact HT].
Qed.

Theorem C19_zero_iterations_refuted p f ax bx bits r it evs :
  fp_ok p -> ~ agree (tol_eps p bits) ax bx -> f ax <> 0 -> f bx <> 0 ->
  toms748_solve p f ax bx (f ax) (f bx) (eps_tolerance p bits) 0 = Some (r, it, evs) ->
  (1 <= length evs)%nat.
Proof.
  intros Hp Ha Hfa Hfb. unfold toms748_solve.
  apply Reqb_false in Hfa, Hfb. rewrite Hfa, Hfb.
  replace (eps_tolerance p bits ax bx) with false.
  2:{ symmetry. destruct (eps_tolerance p bits ax bx) eqn:E; [|reflexivity].
      apply eps_tolerance_agree in E. contradiction. }
  cbn [orb].
  match goal with |- context [tstep p f ?s0 ?c] => set (s1 := tstep p f s0 c) end.
  assert (H1 : exists x, In x (tevals s1)) by (eexists; left; reflexivity).
  clearbody s1.
  match goal with |- context [tloop p f _ _ ?s] => set (s2 := s) end.
  assert (H2 : exists x, In x (tevals s2)).
  { subst s2. destruct (going _ s1); [destruct H1 as [x H1]; exists x; right; exact H1|exact H1]. }
  clearbody s2. destruct H2 as [x H2].
  destruct (tloop p f _ _ s2) as [s3|] eqn:E; [|discriminate].
  intros H. injection H as <- <- <-.
  apply (tloop_keeps _ _ _ x) in E; [|exact H2].
  rewrite rev_length. destruct (tevals s3); [contradiction|cbn [length]; lia].
Qed.

(** With a tolerance tighter than four epsilons the function may be evaluated outside of the
    bracket (negative numbers one epsilon apart). *)
Theorem C19_tight_tolerance_refuted p : fp_ok p ->
  exists f ax bx r it evs,
    ax < bx /\ f ax * f bx < 0 /\
    toms748_solve p f ax bx (f ax) (f bx) (fun _ _ => false) 1 = Some (r, it, evs) /\
    exists x, In x evs /\ ~ (ax <= x <= bx).
Proof.
  intros Hp. pose proof Hp as [He He'].
  set (ax := -1). set (bx := -1 + feps p).
  set (f := fun x => if Rltb x bx then -1 else 1).
  assert (Fa : f ax = -1).
  { unfold f. replace (Rltb ax bx) with true; [reflexivity|symmetry; apply Rltb_true; unfold ax, bx; lra]. }
  assert (Fb : f bx = 1).
  { unfold f. replace (Rltb bx bx) with false; [reflexivity|symmetry; apply Rltb_false; lra]. }
  assert (Hsec : secant_interpolate p ax bx (f ax) (f bx) = (ax + bx) / 2).
  { unfold secant_interpolate. rewrite Fa, Fb.
    match goal with |- (if ?c then _ else _) = _ => replace c with true; [reflexivity|] end.
    symmetry. apply orb_true_intro. left. apply Rleb_true. unfold ax, bx.
    rewrite (Rabs_left (-1)) by lra. lra. }
  assert (Hpt : bracket_point p ax bx ((ax + bx) / 2) = -1 + 2 * feps p).
  { unfold bracket_point.
    replace (Rltb (bx - ax) (2 * (feps p * 2) * ax)) with false
      by (symmetry; apply Rltb_false; unfold ax, bx; lra).
    replace (Rleb ((ax + bx) / 2) (ax + Rabs ax * (feps p * 2))) with true
      by (symmetry; apply Rleb_true; unfold ax, bx; rewrite (Rabs_left (-1)) by lra; lra).
    unfold ax. rewrite (Rabs_left (-1)) by lra. lra. }
  exists f, ax, bx.
  assert (E : exists r it, toms748_solve p f ax bx (f ax) (f bx) (fun _ _ => false) 1
                = Some (r, it, [-1 + 2 * feps p])).
  { unfold toms748_solve.
    replace (Reqb (f ax) 0) with false by (symmetry; apply Reqb_false; rewrite Fa; lra).
    replace (Reqb (f bx) 0) with false by (symmetry; apply Reqb_false; rewrite Fb; lra).
    cbn [orb]. rewrite Hsec.
    match goal with |- context [tstep p f ?s0 ?c] => set (s1 := tstep p f s0 c) end.
    assert (C1 : tcount s1 = 0%N) by reflexivity.
    assert (V1 : tevals s1 = [-1 + 2 * feps p]).
    { subst s1. cbn [tstep tevals tb ba bb]. rewrite Hpt. reflexivity. }
    assert (G1 : going (fun _ _ => false) s1 = false) by (unfold going; rewrite C1; reflexivity).
    clearbody s1. rewrite G1. rewrite C1. cbn [N.to_nat tloop]. rewrite G1, V1.
    eexists _, _. reflexivity. }
  destruct E as (r & it & E). exists r, it, [-1 + 2 * feps p].
  split; [unfold ax, bx; lra|split; [rewrite Fa, Fb; lra|split; [exact E|]]].
  exists (-1 + 2 * feps p). split; [left; reflexivity|]. unfold ax, bx. lra.
Qed.

(** ** instances *)
(** IEEE double and single precision *)
Definition fp_double : fptype := {| fmax := 2 ^ 1024; fmin := / 2 ^ 1022; feps := / 2 ^ 52 |}.
Definition fp_single : fptype := {| fmax := 2 ^ 128; fmin := / 2 ^ 126; feps := / 2 ^ 23 |}.
Lemma fp_double_ok : fp_ok fp_double.
Proof. unfold fp_ok; cbn [fp_double feps]. lra. Qed.
Lemma fp_single_ok : fp_ok fp_single.
Proof. unfold fp_ok; cbn [fp_single feps]. lra. Qed.

Lemma toms_default_tol : tol_eps fp_double (8 * 8 / 4) = / 2 ^ 15.
Proof.
  unfold tol_eps. rewrite cmax_Rmax. change (8 * 8 / 4)%nat with 16%nat. cbn [fp_double feps].
  rewrite Rmax_left; lra.
Qed.

(** 24 iterations at the guaranteed rate, in double precision *)
Lemma pow24_bound : (1 / 2 + 2 * feps fp_double) ^ 24 <= / 2 ^ 23.
Proof.
  cbn [fp_double feps].
  assert (H0 : 1/2 + 2 * / 2 ^ 52 <= 1/2 * (1 + / 2 ^ 50)) by lra.
  apply Rle_trans with ((1 / 2 * (1 + / 2 ^ 50)) ^ 24).
  - apply pow_incr. lra.
  - rewrite Rpow_mult_distr.
    assert (H1 : (1 + / 2 ^ 50) ^ 24 <= 2).
    { assert (HB : forall n, (n <= 24)%nat -> (1 + / 2 ^ 50) ^ n <= 1 + INR n * / 2 ^ 40).
      { induction n as [|n IH]; intros Hn; [cbn; lra|]. rewrite <- tech_pow_Rmult, S_INR.
        assert (INR n <= 24) by (replace 24 with (INR 24) by (cbn; lra); apply le_INR; lia).
        specialize (IH ltac:(lia)). pose proof (pos_INR n).
        assert (/ 2 ^ 50 * 1024 = / 2 ^ 40) by lra. assert (0 < / 2 ^ 50) by lra. nra. }
      specialize (HB 24%nat ltac:(lia)). replace (INR 24) with 24 in HB by (cbn; lra). lra. }
    assert ((1/2) ^ 24 = / 2 ^ 24) by lra.
    lra.
Qed.

(** in double precision 100 evaluations suffice for every bracket [ax, bx] with [bx <= 257 ax],
    whatever the function *)
Theorem C19_hundred_iterations f ax bx :
  0 < ax -> ax < bx <= 257 * ax -> f ax * f bx <= 0 ->
  exists r it evs, toms748_default fp_double 8 f ax bx = Some (r, it, evs) /\ ax <= r <= bx /\
    (f r = 0 \/ exists a b, sign_bracket f ax bx a b /\ r = (a + b) / 2 /\ agree (/ 2 ^ 15) a b).
Proof.
  intros Ha Hb Hs. unfold toms748_default. rewrite <- toms_default_tol.
  destruct (C19_root fp_double f ax bx (8*8/4) 100 fp_double_ok) as (r & it & evs & E & H1 & _);
    [lra|exact Hs|split; [lia|reflexivity]|].
  destruct (C19_convergence fp_double f ax bx (8 * 8 / 4) 100 24) as (r' & it' & evs' & E' & H);
    [exact fp_double_ok|exact Ha|lra|exact Hs|reflexivity|discriminate| |].
  - rewrite toms_default_tol. generalize pow24_bound; generalize ((1 / 2 + 2 * feps fp_double) ^ 24); intros q24 H24.
    nra.
  - rewrite E in E'. injection E' as <- <- <-.
    exists r, it, evs. split; [exact E|split; [exact H1|exact H]].
Qed.

(** a concrete case that meets the hypotheses: the square root of two *)
Theorem C19_instance :
  exists r it evs z,
    toms748_solve fp_double (fun x => x * x - 2) 1 2 (1 * 1 - 2) (2 * 2 - 2)
      (eps_tolerance fp_double 16) 100 = Some (r, it, evs) /\
    1 <= z <= 2 /\ z * z - 2 = 0 /\ Rabs (r - z) <= / 2 ^ 15 / 2 * z.
Proof.
  rewrite <- toms_default_tol. change (8 * 8 / 4)%nat with 16%nat.
  apply (C19_accuracy fp_double (fun x => x * x - 2) 1 2 16 100 24).
  - apply fp_double_ok.
  - lra.
  - lra.
  - lra.
  - reflexivity.
  - discriminate.
  - change 16%nat with (8 * 8 / 4)%nat. rewrite toms_default_tol. cbn [fp_double feps].
    apply Rle_trans with ((51/100) ^ 24 * (2 - 1)).
    + apply Rmult_le_compat_r; [lra|]. apply pow_incr. lra.
    + lra.
  - intros x _. apply derivable_continuous_pt. reg.
Qed.

Print Assumptions C19_root.
Print Assumptions C19_ends.
Print Assumptions C19_exact_ends.
Print Assumptions C19_convergence.
Print Assumptions C19_accuracy.
Print Assumptions C19_zero_iterations_refuted.
Print Assumptions C19_tight_tolerance_refuted.
Print Assumptions C19_hundred_iterations.
Print Assumptions C19_instance.
