(** * C65: fall speeds of the double-moment bulk scheme are mean speeds of an exponential distribution of drops *)
From Coq Require Import List Arith NArith ZArith Reals Bool Lia Lra Psatz.
From Coquelicot Require Import Coquelicot.
From Verif Require Import Base BaseProofs ThermoModel ThermoProofs CondModel InitModel Blk2mModel Blk2mProps.
Import ListNotations.
Open Scope R_scope.

(** ** Specification *)
(** the error function *)
Definition erf_like (e : R -> R) : Prop := forall x, is_derive e x (2 / sqrt PI * exp (- x ^ 2)).
(** fall speed [m/s] of a drop of diameter D [m] at standard density, Simmel et al.: alpha m^beta with the mass in grams and the result in cm/s *)
Definition drop_speed (D : R) : R :=
  let m := PI / 6 * 1000 * D ^ 3 * 1000 in
  (if Rlt_dec D (13443 / 100000000) then 457950 * Rpower m (2 / 3)
   else if Rlt_dec D (151164 / 100000000) then 4962 * Rpower m (1 / 3)
   else if Rlt_dec D (347784 / 100000000) then 1732 * Rpower m (1 / 6) else 917) / 100.
(** the slope of an exponential distribution of diameters of [nr] drops with the mass [rr] *)
Definition slope (rr nr l : R) : Prop := 0 < l /\ rr * l ^ 3 = PI / 6 * 1000 * nr * 6.
(** mean speed of drops up to the diameter [B], weighted by the k-th power of diameter *)
Definition mean_speed_upto (l : R) (k : nat) (B : R) : R :=
  RInt (fun D => drop_speed D * D ^ k * (l * exp (- l * D))) 0 B / (INR (fact k) / l ^ k).

Section Antiderivatives.
  Variables (erf : R -> R) (l : R).
  Hypotheses (HE : erf_like erf) (Hl : 0 < l).
  Ltac expo := rewrite ?Ropp_mult_distr_l_reverse.
  Lemma d_mint_1 D : is_derive (mint_1 l) D (D ^ 5 * exp (- l * D)).
  Proof. unfold mint_1. auto_derive; [trivial|]. field. lra. Qed.
  Lemma d_mint_2 D : is_derive (mint_2 l) D (D ^ 4 * exp (- l * D)).
  Proof. unfold mint_2. auto_derive; [trivial|]. field. lra. Qed.
  Lemma d_mint_4 D : is_derive (mint_4 l) D (D ^ 3 * exp (- l * D)).
  Proof. unfold mint_4. auto_derive; [trivial|]. field. lra. Qed.
  Lemma d_nint_1 D : is_derive (nint_1 l) D (D ^ 2 * exp (- l * D)).
  Proof. unfold nint_1. auto_derive; [trivial|]. field. lra. Qed.
  Lemma d_nint_2 D : is_derive (nint_2 l) D (D * exp (- l * D)).
  Proof. unfold nint_2. auto_derive; [trivial|]. field. lra. Qed.
  Lemma d_nint_4 D : is_derive (nint_4 l) D (exp (- l * D)).
  Proof. unfold nint_4. auto_derive; [trivial|]. field. lra. Qed.
  Lemma d_erf_sqrt D : 0 < D -> is_derive (fun x => erf (sqrt (l * x))) D (/ sqrt PI * sqrt l / sqrt D * exp (- l * D)).
  Proof.
    intros HD. assert (HlD : 0 < l * D) by nra.
    evar_last. { apply (is_derive_comp erf (fun x => sqrt (l * x))); [apply HE|]. apply is_derive_sqrt; [|exact HlD]. apply is_derive_scal. apply is_derive_id. }
    change (l * 1 / (2 * sqrt (l * D)) * (2 / sqrt PI * exp (- sqrt (l * D) ^ 2)) = / sqrt PI * sqrt l / sqrt D * exp (- l * D)).
    rewrite <- Rsqr_pow2, Rsqr_sqrt by lra. replace (- (l * D)) with (- l * D) by ring. rewrite sqrt_mult by lra.
    assert (A := sqrt_lt_R0 l Hl). assert (B := sqrt_lt_R0 D HD). assert (P := sqrt_lt_R0 PI PI_RGT_0).
    replace l with (sqrt l * sqrt l) at 1 by (apply sqrt_sqrt; lra). field. repeat split; lra.
  Qed.
  Lemma l_power k : ThermoModel.cpow l (INR k + 1 / 2) = l ^ k * sqrt l.
  Proof. rewrite cpow_pos_eq by exact Hl. rewrite Rpower_plus, Rpower_pow by exact Hl. f_equal. replace (1 / 2) with (/ 2) by lra. now apply Rpower_sqrt. Qed.
  Lemma d_mint_3 D : 0 < D -> is_derive (mint_3 erf l) D (D ^ 3 * sqrt D * exp (- l * D)).
  Proof.
    intros HD. assert (HlD : 0 < l * D) by nra. unfold mint_3. replace (9 / 2) with (INR 4 + 1 / 2) by (cbn [INR]; lra). rewrite l_power.
    assert (A := sqrt_lt_R0 l Hl). assert (B := sqrt_lt_R0 D HD). assert (P := sqrt_lt_R0 PI PI_RGT_0).
    set (k := 1 / 16 / (l ^ 4 * sqrt l)).
    assert (G : is_derive (fun x => 2 * sqrt (l * x) * exp (- l * x) * (8 * (l * x) ^ 3 + 28 * (l * x) ^ 2 + 70 * (l * x) + 105)) D
      (sqrt l / sqrt D * exp (- l * D) * (105 - 16 * (l * D) ^ 4))).
    { auto_derive; [exact HlD|]. rewrite sqrt_mult by lra. set (a := sqrt l) in *. set (b := sqrt D) in *. set (e := exp _).
      assert (La : l = a * a) by (unfold a; symmetry; apply sqrt_sqrt; lra). assert (Db : D = b * b) by (unfold b; symmetry; apply sqrt_sqrt; lra).
      clearbody e. rewrite La, Db. clear - A B. field. split; lra. }
    evar_last.
    { apply (is_derive_scal (fun x => 105 * sqrt PI * erf (sqrt (l * x)) - 2 * sqrt (l * x) * exp (- l * x) * (8 * (l * x) ^ 3 + 28 * (l * x) ^ 2 + 70 * (l * x) + 105)) D k).
      apply (is_derive_minus (fun x => 105 * sqrt PI * erf (sqrt (l * x)))); [apply (is_derive_scal (fun x => erf (sqrt (l * x)))); apply d_erf_sqrt; exact HD|exact G]. }
    unfold minus, plus, opp; simpl (AbelianGroup.sort _). cbn. unfold k. set (a := sqrt l) in *. set (b := sqrt D) in *. set (e := exp _). set (q := sqrt PI) in *.
    assert (La : l = a * a) by (unfold a; symmetry; apply sqrt_sqrt; lra). assert (Db : D = b * b) by (unfold b; symmetry; apply sqrt_sqrt; lra).
    clearbody e. rewrite La, Db. clear - A B P. field. repeat split; lra.
  Qed.
  Lemma d_nint_3 D : 0 < D -> is_derive (nint_3 erf l) D (sqrt D * exp (- l * D)).
  Proof.
    intros HD. assert (HlD : 0 < l * D) by nra. unfold nint_3. replace (3 / 2) with (INR 1 + 1 / 2) by (cbn [INR]; lra). rewrite l_power.
    assert (A := sqrt_lt_R0 l Hl). assert (B := sqrt_lt_R0 D HD). assert (P := sqrt_lt_R0 PI PI_RGT_0).
    assert (G : is_derive (fun x => sqrt x * exp (- l * x) / l) D (/ (2 * sqrt D) * exp (- l * D) / l - sqrt D * exp (- l * D))).
    { auto_derive; [exact HD|]. field. split; lra. }
    assert (G2 : is_derive (fun x => sqrt PI * erf (sqrt (l * x)) / 2 / (l ^ 1 * sqrt l)) D (/ (2 * sqrt D) * exp (- l * D) / l)).
    { apply (is_derive_ext (fun x => sqrt PI / 2 / (l ^ 1 * sqrt l) * erf (sqrt (l * x)))); [intros t; change (sqrt PI / 2 / (l ^ 1 * sqrt l) * erf (sqrt (l * t)) = sqrt PI * erf (sqrt (l * t)) / 2 / (l ^ 1 * sqrt l)); field; split; lra|].
      evar_last. { apply (is_derive_scal (fun x => erf (sqrt (l * x)))). apply d_erf_sqrt. exact HD. } cbn. field. repeat split; lra. }
    evar_last. { exact (is_derive_minus _ _ D _ _ G2 G). } unfold minus, plus, opp. cbn. ring.
  Qed.
End Antiderivatives.

Lemma piece (F g h : R -> R) (a b k : R) : a <= b -> (forall x, a <= x <= b -> is_derive F x (g x)) -> (forall x, a <= x <= b -> continuous g x) ->
  (forall x, a < x < b -> h x = k * g x) -> is_RInt h a b (k * (F b - F a)).
Proof.
  intros Hab HD HC HE. apply (is_RInt_ext (fun x => k * g x)).
  - intros x. rewrite Rmin_left, Rmax_right by exact Hab. intros Hx. symmetry. now apply HE.
  - apply (is_RInt_scal g a b k (F b - F a)). apply (is_RInt_derive F g a b); intros x; rewrite Rmin_left, Rmax_right by exact Hab; [apply HD|apply HC].
Qed.
Lemma mass_power D b : 0 < D -> Rpower (PI / 6 * 1000 * D ^ 3 * 1000) b = ThermoModel.cpow (c_md * 1000) b * Rpower D (3 * b).
Proof.
  intros H. assert (C := c_md_pos). rewrite cpow_pos_eq by lra. replace (3 * b) with (INR 3 * b) by (cbn [INR]; lra). rewrite <- Rpower_mult, Rpower_pow by exact H.
  assert (H3 : 0 < D ^ 3) by now apply pow_lt. replace (PI / 6 * 1000 * D ^ 3 * 1000) with ((c_md * 1000) * D ^ 3) by (unfold c_md, rho_w; ring). rewrite Rpower_mult_distr by lra. reflexivity.
Qed.
Lemma drop_1 D : 0 < D < d1 -> drop_speed D = fall_coeff (d1 / 4) / 100 * D ^ 2.
Proof.
  intros (H0 & H). unfold drop_speed. unfold d1 in H. destruct (Rlt_dec _ _) as [_|N]; [|exfalso; lra]. rewrite mass_power by exact H0.
  unfold fall_coeff, alpha_fall, beta_fall. replace (Reqb (2 * (d1 / 4)) 0) with false by (symmetry; apply Reqb_false; unfold d1; lra). replace (Rltb (2 * (d1 / 4)) d1) with true by (symmetry; apply Rltb_true; unfold d1; lra).
  replace (3 * (2 / 3)) with (INR 2) by (cbn [INR]; lra). rewrite Rpower_pow by exact H0. unfold Rdiv. ring.
Qed.
Lemma drop_2 D : d1 < D < d2 -> drop_speed D = fall_coeff ((d1 + d2) / 4) / 100 * D.
Proof.
  intros (H0 & H). assert (P : 0 < D) by (unfold d1 in H0; lra). unfold drop_speed. unfold d1, d2 in H, H0. destruct (Rlt_dec _ _) as [N|_]; [exfalso; lra|]. destruct (Rlt_dec _ _) as [_|N]; [|exfalso; lra]. rewrite mass_power by exact P.
  unfold fall_coeff, alpha_fall, beta_fall. replace (Reqb (2 * ((d1 + d2) / 4)) 0) with false by (symmetry; apply Reqb_false; unfold d1, d2; lra). replace (Rltb (2 * ((d1 + d2) / 4)) d1) with false by (symmetry; apply Rltb_false; unfold d1, d2; lra).
  replace (Rltb (2 * ((d1 + d2) / 4)) d2) with true by (symmetry; apply Rltb_true; unfold d1, d2; lra).
  replace (3 * (1 / 3)) with 1 by lra. rewrite Rpower_1 by exact P. unfold Rdiv. ring.
Qed.
Lemma drop_3 D : d2 < D < d3 -> drop_speed D = fall_coeff ((d2 + d3) / 4) / 100 * sqrt D.
Proof.
  intros (H0 & H). assert (P : 0 < D) by (unfold d2 in H0; lra). unfold drop_speed. unfold d3, d2 in H, H0. destruct (Rlt_dec _ _) as [N|_]; [exfalso; lra|]. destruct (Rlt_dec _ _) as [N|_]; [exfalso; lra|]. destruct (Rlt_dec _ _) as [_|N]; [|exfalso; lra]. rewrite mass_power by exact P.
  unfold fall_coeff, alpha_fall, beta_fall. replace (Reqb (2 * ((d2 + d3) / 4)) 0) with false by (symmetry; apply Reqb_false; unfold d3, d2; lra). replace (Rltb (2 * ((d2 + d3) / 4)) d1) with false by (symmetry; apply Rltb_false; unfold d1, d2, d3; lra).
  replace (Rltb (2 * ((d2 + d3) / 4)) d2) with false by (symmetry; apply Rltb_false; unfold d3, d2; lra). replace (Rltb (2 * ((d2 + d3) / 4)) d3) with true by (symmetry; apply Rltb_true; unfold d3, d2; lra).
  replace (3 * (1 / 6)) with (/ 2) by lra. rewrite Rpower_sqrt by exact P. unfold Rdiv. ring.
Qed.
Lemma alpha_d3 : alpha_fall d3 = 917.
Proof.
  unfold alpha_fall. replace (Reqb (2 * d3) 0) with false by (symmetry; apply Reqb_false; unfold d3; lra).
  replace (Rltb (2 * d3) d1) with false by (symmetry; apply Rltb_false; unfold d1, d3; lra). replace (Rltb (2 * d3) d2) with false by (symmetry; apply Rltb_false; unfold d2, d3; lra). replace (Rltb (2 * d3) d3) with false by (symmetry; apply Rltb_false; unfold d3; lra). reflexivity.
Qed.
Lemma drop_4 D : d3 < D -> drop_speed D = alpha_fall d3 / 100 * 1.
Proof.
  intros H. rewrite alpha_d3. unfold drop_speed. unfold d3 in H. destruct (Rlt_dec _ _) as [N|_]; [exfalso; lra|]. destruct (Rlt_dec _ _) as [N|_]; [exfalso; lra|]. destruct (Rlt_dec _ _) as [N|_]; [exfalso; lra|]. lra.
Qed.

Section Means.
  Variables (erf : R -> R) (l : R).
  Hypotheses (HE : erf_like erf) (Hl : 0 < l).
  Ltac cont := let x := fresh "x" in let Hx := fresh "Hx" in intros x Hx; apply (ex_derive_continuous (K := R_AbsRing) (V := R_NormedModule)); auto_derive; first [exact I | (unfold d1, d2, d3 in *; lra)].
  Lemma mass_RInt B : d3 <= B -> is_RInt (fun D => drop_speed D * D ^ 3 * (l * exp (- l * D))) 0 B
    (l / 100 * (fall_coeff (d1 / 4) * (mint_1 l d1 - mint_1 l 0) + fall_coeff ((d1 + d2) / 4) * (mint_2 l d2 - mint_2 l d1) +
       fall_coeff ((d2 + d3) / 4) * (mint_3 erf l d3 - mint_3 erf l d2) + alpha_fall d3 * (mint_4 l B - mint_4 l d3))).
  Proof.
    intros HB.
    assert (P1 : is_RInt (fun D => drop_speed D * D ^ 3 * (l * exp (- l * D))) 0 d1 (fall_coeff (d1 / 4) / 100 * l * (mint_1 l d1 - mint_1 l 0))).
    { apply (piece (mint_1 l) (fun D => D ^ 5 * exp (- l * D))); [unfold d1; lra|intros x _; now apply d_mint_1|cont|]. intros x Hx. rewrite drop_1 by exact Hx. ring. }
    assert (P2 : is_RInt (fun D => drop_speed D * D ^ 3 * (l * exp (- l * D))) d1 d2 (fall_coeff ((d1 + d2) / 4) / 100 * l * (mint_2 l d2 - mint_2 l d1))).
    { apply (piece (mint_2 l) (fun D => D ^ 4 * exp (- l * D))); [unfold d1, d2; lra|intros x _; now apply d_mint_2|cont|]. intros x Hx. rewrite drop_2 by exact Hx. ring. }
    assert (P3 : is_RInt (fun D => drop_speed D * D ^ 3 * (l * exp (- l * D))) d2 d3 (fall_coeff ((d2 + d3) / 4) / 100 * l * (mint_3 erf l d3 - mint_3 erf l d2))).
    { apply (piece (mint_3 erf l) (fun D => D ^ 3 * sqrt D * exp (- l * D))); [unfold d3, d2; lra|intros x Hx; apply d_mint_3; [exact HE|exact Hl|unfold d2 in Hx; lra]|cont|]. intros x Hx. rewrite drop_3 by exact Hx. ring. }
    assert (P4 : is_RInt (fun D => drop_speed D * D ^ 3 * (l * exp (- l * D))) d3 B (alpha_fall d3 / 100 * l * (mint_4 l B - mint_4 l d3))).
    { apply (piece (mint_4 l) (fun D => D ^ 3 * exp (- l * D))); [exact HB|intros x _; now apply d_mint_4|cont|]. intros x Hx. rewrite drop_4 by apply Hx. ring. }
    assert (Q := is_RInt_Chasles _ _ _ _ _ _ (is_RInt_Chasles _ _ _ _ _ _ (is_RInt_Chasles _ _ _ _ _ _ P1 P2) P3) P4). evar_last; [exact Q|].
    unfold plus. cbn. unfold Rdiv. ring.
  Qed.
  Lemma number_RInt B : d3 <= B -> is_RInt (fun D => drop_speed D * D ^ 0 * (l * exp (- l * D))) 0 B
    (l / 100 * (fall_coeff (d1 / 4) * (nint_1 l d1 - nint_1 l 0) + fall_coeff ((d1 + d2) / 4) * (nint_2 l d2 - nint_2 l d1) +
       fall_coeff ((d2 + d3) / 4) * (nint_3 erf l d3 - nint_3 erf l d2) + alpha_fall d3 * (nint_4 l B - nint_4 l d3))).
  Proof.
    intros HB.
    assert (P1 : is_RInt (fun D => drop_speed D * D ^ 0 * (l * exp (- l * D))) 0 d1 (fall_coeff (d1 / 4) / 100 * l * (nint_1 l d1 - nint_1 l 0))).
    { apply (piece (nint_1 l) (fun D => D ^ 2 * exp (- l * D))); [unfold d1; lra|intros x _; now apply d_nint_1|cont|]. intros x Hx. rewrite drop_1 by exact Hx. ring. }
    assert (P2 : is_RInt (fun D => drop_speed D * D ^ 0 * (l * exp (- l * D))) d1 d2 (fall_coeff ((d1 + d2) / 4) / 100 * l * (nint_2 l d2 - nint_2 l d1))).
    { apply (piece (nint_2 l) (fun D => D * exp (- l * D))); [unfold d1, d2; lra|intros x _; now apply d_nint_2|cont|]. intros x Hx. rewrite drop_2 by exact Hx. ring. }
    assert (P3 : is_RInt (fun D => drop_speed D * D ^ 0 * (l * exp (- l * D))) d2 d3 (fall_coeff ((d2 + d3) / 4) / 100 * l * (nint_3 erf l d3 - nint_3 erf l d2))).
    { apply (piece (nint_3 erf l) (fun D => sqrt D * exp (- l * D))); [unfold d3, d2; lra|intros x Hx; apply d_nint_3; [exact HE|exact Hl|unfold d2 in Hx; lra]|cont|]. intros x Hx. rewrite drop_3 by exact Hx. ring. }
    assert (P4 : is_RInt (fun D => drop_speed D * D ^ 0 * (l * exp (- l * D))) d3 B (alpha_fall d3 / 100 * l * (nint_4 l B - nint_4 l d3))).
    { apply (piece (nint_4 l) (fun D => exp (- l * D))); [exact HB|intros x _; now apply d_nint_4|cont|]. intros x Hx. rewrite drop_4 by apply Hx. ring. }
    assert (Q := is_RInt_Chasles _ _ _ _ _ _ (is_RInt_Chasles _ _ _ _ _ _ (is_RInt_Chasles _ _ _ _ _ _ P1 P2) P3) P4). evar_last; [exact Q|].
    unfold plus. cbn. unfold Rdiv. ring.
  Qed.
  (** tails vanish *)
  Lemma exp_fourth y : 0 <= y -> y ^ 4 <= 256 * exp y.
  Proof.
    intros H. replace (exp y) with (exp (y / 4) ^ 4) by (transitivity (exp (y / 4 + y / 4 + y / 4 + y / 4)); [rewrite !exp_plus; ring|f_equal; lra]).
    assert (E : y / 4 <= exp (y / 4)) by (left; eapply Rlt_le_trans; [|apply exp_ineq1_le]; lra).
    assert (E4 : (y / 4) ^ 4 <= exp (y / 4) ^ 4) by (apply pow_incr; lra). replace ((y / 4) ^ 4) with (y ^ 4 / 256) in E4 by field. lra.
  Qed.
  Lemma tail_bound B : 1 / l <= B -> 0 <= exp (- l * B) * ((l * B) ^ 3 + 3 * (l * B) ^ 2 + 6 * (l * B) + 6) <= 4096 / l * / B.
  Proof.
    intros H. assert (I := Rinv_0_lt_compat l Hl). assert (HB : 0 < B) by (unfold Rdiv in H; lra).
    assert (Y : 1 <= l * B). { apply (Rmult_le_compat_l l) in H; [|lra]. replace (l * (1 / l)) with 1 in H by (field; lra). exact H. }
    replace (4096 / l * / B) with (4096 / (l * B)) by (field; lra). replace (- l * B) with (- (l * B)) by ring. set (y := l * B) in *. clearbody y.
    rewrite exp_Ropp. assert (E := exp_fourth y ltac:(lra)). assert (P := exp_pos y). set (e := exp y) in *. clearbody e. assert (J := Rinv_0_lt_compat e P).
    assert (S : y ^ 3 + 3 * y ^ 2 + 6 * y + 6 <= 16 * y ^ 3) by nra.
    assert (S0 : 0 <= y ^ 3 + 3 * y ^ 2 + 6 * y + 6) by nra. split; [apply Rmult_le_pos; lra|].
    apply (Rmult_le_reg_l (e * y)); [nra|]. replace (e * y * (/ e * (y ^ 3 + 3 * y ^ 2 + 6 * y + 6))) with (y * (y ^ 3 + 3 * y ^ 2 + 6 * y + 6)) by (field; lra).
    replace (e * y * (4096 / y)) with (4096 * e) by (field; lra). nra.
  Qed.
  Lemma inv_lim k : is_lim (fun B => k * / B) p_infty 0.
  Proof.
    evar_last. { apply is_lim_scal_l. apply is_lim_inv; [apply is_lim_id|discriminate]. } cbn. f_equal. ring.
  Qed.
  Lemma mint_4_lim : is_lim (mint_4 l) p_infty 0.
  Proof.
    apply (is_lim_le_le_loc (fun B => - (/ l ^ 4 * (4096 / l)) * / B) (fun _ => 0)).
    - exists (1 / l). intros B HB. destruct (tail_bound B ltac:(lra)) as (T1 & T2). unfold mint_4. assert (I := Rinv_0_lt_compat (l ^ 4) ltac:(now apply pow_lt)). set (x := (l * B) ^ 3 + _ + _ + _) in *.
      replace (- / l ^ 4 * exp (- l * B) * x) with (- (/ l ^ 4 * (exp (- l * B) * x))) by ring. set (y := exp (- l * B) * x) in *. set (z := 4096 / l * / B) in *.
      replace (- (/ l ^ 4 * (4096 / l)) * / B) with (- (/ l ^ 4 * z)) by (unfold z, Rdiv; ring). split; nra.
    - apply inv_lim.
    - apply is_lim_const.
  Qed.
  Lemma nint_4_lim : is_lim (nint_4 l) p_infty 0.
  Proof.
    apply (is_lim_le_le_loc (fun B => - (/ l * (4096 / l)) * / B) (fun _ => 0)).
    - exists (1 / l). intros B HB. destruct (tail_bound B ltac:(lra)) as (T1 & T2). unfold nint_4. assert (I := Rinv_0_lt_compat l Hl).
      assert (HlB : 0 < l * B). { apply Rmult_lt_0_compat; [exact Hl|]. unfold Rdiv in HB. lra. }
      assert (P := exp_pos (- l * B)). set (x := l * B) in *. set (e := exp (- l * B)) in *. assert (e <= e * (x ^ 3 + 3 * x ^ 2 + 6 * x + 6)). { assert (0 < x ^ 3) by (now apply pow_lt). assert (0 < x ^ 2) by (now apply pow_lt). nra. }
      replace (- / l * e) with (- (/ l * e)) by ring. set (z := 4096 / l * / B) in *. replace (- (/ l * (4096 / l)) * / B) with (- (/ l * z)) by (unfold z, Rdiv; ring). split; nra.
    - apply inv_lim.
    - apply is_lim_const.
  Qed.
  Lemma mean_lim k s a (m : R -> R) : (forall B, d3 <= B -> is_RInt (fun D => drop_speed D * D ^ k * (l * exp (- l * D))) 0 B (l / 100 * (s + a * (m B - m d3)))) ->
    is_lim m p_infty 0 -> is_lim (mean_speed_upto l k) p_infty (l / 100 * (s + a * (0 - m d3)) / (INR (fact k) / l ^ k)).
  Proof.
    intros H Hm. apply (is_lim_ext_loc (fun B => l / 100 / (INR (fact k) / l ^ k) * (s - a * m d3) + l / 100 / (INR (fact k) / l ^ k) * a * m B)).
    - exists d3. intros B HB. unfold mean_speed_upto. rewrite (is_RInt_unique _ _ _ _ (H B ltac:(lra))). unfold Rdiv. ring.
    - evar_last. { apply is_lim_plus'; [apply is_lim_const|]. evar_last; [apply (is_lim_scal_l m _ p_infty 0 Hm)|]. cbn. reflexivity. } f_equal. unfold Rdiv. ring.
  Qed.
End Means.

Lemma drop_speed_nonneg D : 0 <= drop_speed D.
Proof.
  unfold drop_speed. apply Rmult_le_pos; [|lra]. assert (E : forall x y, 0 < Rpower x y) by (intros; apply exp_pos).
  set (m := PI / 6 * _ * _ * _). assert (E1 := E m (2 / 3)). assert (E2 := E m (1 / 3)). assert (E3 := E m (1 / 6)).
  destruct (Rlt_dec _ _); [lra|]. destruct (Rlt_dec _ _); [lra|]. destruct (Rlt_dec _ _); lra.
Qed.
Lemma mean_nonneg l k s : 0 < l -> (forall B, d3 <= B -> ex_RInt (fun D => drop_speed D * D ^ k * (l * exp (- l * D))) 0 B) ->
  is_lim (mean_speed_upto l k) p_infty (Finite s) -> 0 <= s.
Proof.
  intros Hl H Hs. apply (is_lim_le_loc (fun _ => 0) (mean_speed_upto l k) p_infty (Finite 0) (Finite s)); [|apply is_lim_const|exact Hs].
  exists d3. intros B HB. unfold mean_speed_upto. assert (P : 0 < l ^ k) by now apply pow_lt. assert (F : 0 < INR (fact k)) by (apply lt_0_INR, lt_O_fact).
  apply Rmult_le_pos; [|left; apply Rinv_0_lt_compat; now apply Rdiv_lt_0_compat]. assert (HB0 : 0 <= B) by (unfold d3 in HB; lra).
  apply RInt_ge_0; [exact HB0|apply H; lra|]. intros x (Hx & _). assert (A := drop_speed_nonneg x). assert (X : 0 < x ^ k) by now apply pow_lt. assert (E := exp_pos (- l * x)).
  apply Rmult_le_pos; [nra|nra].
Qed.
Lemma slope_spec tgamma rr nr : gamma_like tgamma -> 0 < rr -> 0 < nr -> slope rr nr (lambda_r tgamma nr rr).
Proof.
  intros HG Hr Hn. split; [now apply lambda_r_pos|]. unfold lambda_r. destruct HG as (G1 & G2 & G3). unfold d_md.
  assert (E : tgamma (3 + 1) = 6). { rewrite G2 by lra. replace 3 with (2 + 1) at 2 by lra. rewrite G2 by lra. replace 2 with (1 + 1) at 2 by lra. rewrite G2 by lra. rewrite G3. lra. }
  rewrite E. assert (C := c_md_pos). assert (P : 0 < c_md * nr * 6 / rr) by (apply Rdiv_lt_0_compat; nra).
  replace (cpow (c_md * nr * 6 / rr) (1 / 3) ^ 3) with (c_md * nr * 6 / rr).
  - unfold c_md, rho_w. field. lra.
  - rewrite cpow_pos_eq by exact P. rewrite <- (Rpower_pow 3) by apply exp_pos. rewrite Rpower_mult. replace (1 / 3 * INR 3) with 1 by (cbn [INR]; lra). symmetry. now apply Rpower_1.
Qed.

(** C65. The fall speeds of mass and number are those of the drops, averaged over an exponential distribution that has the given number and mass
    of drops, weighted by mass or not; none is negative; without enough rain they are zero. *)
Theorem C65_fall_speeds :
  forall tgamma erf num_eps rhod rr nr, gamma_like tgamma -> erf_like erf -> 0 < num_eps -> 0 < rhod ->
    let vm := v_term_m tgamma erf num_eps rhod rr nr in let vn := v_term_n tgamma erf num_eps rhod rr nr in
    (num_eps / 10000 <= rr -> 1000000 * num_eps <= nr -> exists l, slope rr nr l /\
      is_lim (mean_speed_upto l 3) p_infty (Finite (rhod / rho_stp * vm)) /\ is_lim (mean_speed_upto l 0) p_infty (Finite (rhod / rho_stp * vn))) /\
    (rr < num_eps / 10000 \/ nr < 1000000 * num_eps -> vm = 0 /\ vn = 0) /\ 0 <= vm /\ 0 <= vn.
Proof.
  intros tgamma erf num_eps rhod rr nr HG HE He Hrho vm vn.
  assert (RS : 0 < rho_stp) by (unfold rho_stp, p_stp, T_stp; assert (Q := R_d_pos); apply Rdiv_lt_0_compat; [apply Rdiv_lt_0_compat; lra|lra]).
  assert (Z : rr < num_eps / 10000 \/ nr < 1000000 * num_eps -> vm = 0 /\ vn = 0).
  { intros H. unfold vm, vn, v_term_m, v_term_n, rr_eps, nr_eps. replace (_ || _) with true; [now split|]. symmetry. apply orb_true_intro. destruct H; [left|right]; apply Rltb_true; lra. }
  assert (A : num_eps / 10000 <= rr -> 1000000 * num_eps <= nr -> exists l, slope rr nr l /\
      (is_lim (mean_speed_upto l 3) p_infty (Finite (rhod / rho_stp * vm)) /\ is_lim (mean_speed_upto l 0) p_infty (Finite (rhod / rho_stp * vn))) /\ 0 <= rhod / rho_stp * vm /\ 0 <= rhod / rho_stp * vn).
  { intros H1 H2. exists (lambda_r tgamma nr rr). assert (Hl : 0 < lambda_r tgamma nr rr) by (apply lambda_r_pos; [exact HG|lra|lra]). split; [apply slope_spec; [exact HG|lra|lra]|].
    assert (L : is_lim (mean_speed_upto (lambda_r tgamma nr rr) 3) p_infty (Finite (rhod / rho_stp * vm)) /\ is_lim (mean_speed_upto (lambda_r tgamma nr rr) 0) p_infty (Finite (rhod / rho_stp * vn))).
    { unfold vm, vn, v_term_m, v_term_n, rr_eps, nr_eps. replace (_ || _) with false by (symmetry; apply orb_false_intro; apply Rltb_false; lra). cbv zeta. set (l := lambda_r tgamma nr rr) in *. clearbody l. split.
      - evar_last; [exact (mean_lim l 3 _ _ _ (mass_RInt erf l HE Hl) (mint_4_lim l Hl))|]. f_equal. cbn [fact Nat.mul Nat.add INR]. field. repeat split; lra.
      - evar_last; [exact (mean_lim l 0 _ _ _ (number_RInt erf l HE Hl) (nint_4_lim l Hl))|]. f_equal. cbn [fact INR pow]. field. repeat split; lra. }
    split; [exact L|]. destruct L as (L1 & L2). set (l := lambda_r tgamma nr rr) in *. clearbody l. split.
    - apply (mean_nonneg l 3); [exact Hl| |exact L1]. intros B HB. eexists. apply (mass_RInt erf l HE Hl B HB).
    - apply (mean_nonneg l 0); [exact Hl| |exact L2]. intros B HB. eexists. apply (number_RInt erf l HE Hl B HB). }
  split; [|split; [exact Z|]].
  - intros H1 H2. destruct (A H1 H2) as (l & S & L & _). exists l. split; [exact S|exact L].
  - destruct (Rlt_dec rr (num_eps / 10000)) as [L1|L1]; [destruct (Z (or_introl L1)) as (-> & ->); lra|]. destruct (Rlt_dec nr (1000000 * num_eps)) as [L2|L2]; [destruct (Z (or_intror L2)) as (-> & ->); lra|].
    destruct (A ltac:(lra) ltac:(lra)) as (l & _ & _ & P1 & P2). assert (K : 0 < rhod / rho_stp) by now apply Rdiv_lt_0_compat. split; nra.
Qed.
Print Assumptions C65_fall_speeds.

(** library functions with the assumed properties exist *)
Lemma erf_exists : exists e, erf_like e.
Proof.
  exists (fun x => RInt (fun t => 2 / sqrt PI * exp (- t ^ 2)) 0 x). intros x.
  assert (C : forall t, continuous (fun t => 2 / sqrt PI * exp (- t ^ 2)) t).
  { intros t. apply (ex_derive_continuous (K := R_AbsRing) (V := R_NormedModule)). auto_derive. exact I. }
  apply (is_derive_RInt (fun t => 2 / sqrt PI * exp (- t ^ 2)) _ 0 x); [|apply C].
  apply filter_forall. intros y. apply (RInt_correct (V := R_CompleteNormedModule)). apply (ex_RInt_continuous (V := R_CompleteNormedModule)). intros z _. apply C.
Qed.
Definition below (x : R) : nat := Z.to_nat (- up (- x)).
Fixpoint falling (x : R) (n : nat) : R := match n with O => 1 | S j => (x - 1) * falling (x - 1) j end.
Lemma below_spec x : 0 < x -> INR (below x) < x <= INR (below x) + 1.
Proof.
  intros H. unfold below. destruct (archimed (- x)) as (A & B). assert (P : (0 <= - up (- x))%Z).
  { apply le_IZR. destruct (Z_lt_le_dec (- up (- x)) 0) as [L|L]; [|now apply IZR_le]. assert (L' : (1 <= up (- x))%Z) by lia. apply IZR_le in L'. lra. }
  rewrite INR_IZR_INZ, Z2Nat.id by exact P. rewrite opp_IZR. lra.
Qed.
Lemma below_S x : 0 < x -> below (x + 1) = S (below x).
Proof.
  intros H. assert (A := below_spec x H). assert (B := below_spec (x + 1) ltac:(lra)). apply INR_eq. rewrite S_INR.
  assert (L : (below (x + 1) < S (S (below x)))%nat) by (apply INR_lt; rewrite !S_INR; lra). assert (L2 : (below x < below (x + 1))%nat) by (apply INR_lt; lra).
  assert (E : below (x + 1) = S (below x)) by lia. now rewrite E, S_INR.
Qed.
Lemma gamma_exists : exists g, gamma_like g.
Proof.
  exists (fun x => falling x (below x)). split; [|split].
  - intros x H. assert (B := below_spec x H). destruct B as (B & _). assert (G : forall n y, INR n < y -> 0 < falling y n).
    { intros n. induction n as [|n IH]; intros y Hy; cbn [falling]; [lra|]. rewrite S_INR in Hy. assert (P := pos_INR n). assert (0 < falling (y - 1) n) by (apply IH; lra). nra. }
    now apply G.
  - intros x H. rewrite (below_S x H). cbn [falling]. replace (x + 1 - 1) with x by ring. reflexivity.
  - assert (E : below 1 = O). { assert (B := below_spec 1 ltac:(lra)). destruct (below 1) as [|k]; [reflexivity|]. rewrite S_INR in B. assert (P := pos_INR k). lra. } rewrite E. reflexivity.
Qed.
