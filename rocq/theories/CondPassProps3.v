(** C20, C23: condensation with adaptive per-particle substeps, without mixing. *)
From Coq Require Import List Arith NArith ZArith Lia Reals Lra Psatz Bool.
From Verif Require Import Base BaseProofs HskpngModel ThermoModel ThermoProofs TomsModel TomsProps CondModel CondProps MomsModel MomsProofs
  CondPassModel CondPassProofs CondPassProps CondPassProps2.
Import ListNotations.
Local Open Scope R_scope.

(** ** the search for the number of substeps *)
Section Adaptive.
  Variables (o : copts) (lD lK dv : nat -> R) (P : parts) (S d : tmps) (i : nat).

  (** a state is "at fraction f": the part [f] of the tendency has been added to the initial state [a0], whose radius it has *)
  Definition at_frac (a0 : ast) (f : R) (a : ast) : Prop :=
    a_rv a = a_rv a0 + f * t_rv d i /\ a_th a = a_th a0 + f * t_th d i /\ a_rh a = a_rh a0 + f * t_rh d i /\
    (o_const_p o = true -> a_p a = a_p a0 + f * t_p d i) /\
    a_ssp a = a_ssp a0 + (if o_turb o then f * (o_dt o * p_dssp P i) else 0) /\ a_rw2 a = a_rw2 a0.

  Lemma at_frac_apply a0 f m a : at_frac a0 f a -> at_frac a0 (f + m) (ad_apply o d (p_dssp P i) i m a).
  Proof.
    intros (H1 & H2 & H3 & H4 & H5 & H6). unfold at_frac, ad_apply. cbn [a_rv a_th a_rh a_p a_ssp a_rw2].
    split; [lra|]. split; [lra|]. split; [lra|]. split; [intros C; rewrite C, H4 by exact C; lra|].
    split; [destruct (o_turb o); lra|exact H6].
  Qed.
  Lemma at_frac_calc a0 f a : at_frac a0 f a -> at_frac a0 f (ad_calc o a).
  Proof.
    intros (H1 & H2 & H3 & H4 & H5 & H6). unfold at_frac, ad_calc. cbn [a_rv a_th a_rh a_p a_ssp a_rw2].
    repeat split; try assumption. intros C. unfold p_of. rewrite C. apply H4, C.
  Qed.
  Lemma at_frac_eq a0 f f' a : f = f' -> at_frac a0 f a -> at_frac a0 f' a.
  Proof. intros ->. auto. Qed.

  (** states during the search: [t] substeps have been tried last *)
  Definition searching (a0 : ast) (t : nat) (r : adres) : Prop :=
    at_frac a0 (1 / INR t) (r_a r) /\ r_frac r = (if (t =? 1)%nat then 1 else - 1 / INR t) /\
    r_sstp r = o_sstp o /\ r_done r = (o_sstp o =? 1)%nat /\ 0 <= a_rw2 a0 + r_drw2 r.
  (** the outcome: no convergence with [t] the last number tried, or convergence when trying [t] *)
  Definition found (a0 : ast) (r : adres) : Prop :=
    (exists t, (1 <= t <= o_sstp o)%nat /\ (o_sstp o < 2 * t)%nat /\ searching a0 t r) \/
    (exists t, (1 <= t)%nat /\ (2 * t <= o_sstp o)%nat /\ at_frac a0 (1 / INR t) (r_a r) /\ r_sstp r = t /\ r_done r = true /\
               r_frac r = - 1 / INR (2 * t) /\ 0 <= a_rw2 a0 + r_drw2 r).

  Lemma search_found a0 fuel t r : (1 <= t <= o_sstp o)%nat -> (o_sstp o < t * 2 * 2 ^ fuel)%nat -> 0 <= a_rw2 a0 -> searching a0 t r ->
    found a0 (ad_search o lD lK P d i fuel (t * 2) r).
  Proof.
    revert t r. induction fuel as [|fuel IH]; intros t r Ht Hf Hw Hr; cbn [ad_search].
    { left. exists t. cbn [Nat.pow] in Hf. split; [exact Ht|]. split; [lia|exact Hr]. }
    destruct (Nat.leb_spec (t * 2) (o_sstp o)) as [Hle|Hgt]; [|left; exists t; split; [exact Ht|split; [lia|exact Hr]]].
    destruct (Nat.eqb_spec (t * 2) 1) as [E|Hn1]; [lia|].
    destruct Hr as (R1 & R2 & R3 & R4 & R5).
    set (frac := - 1 / INR (t * 2)).
    set (a1 := ad_calc o (ad_apply o d (p_dssp P i) i frac (r_a r))).
    assert (It : INR t <> 0) by (apply not_0_INR; lia).
    assert (A1 : at_frac a0 (1 / INR (t * 2)) a1).
    { apply at_frac_calc. eapply at_frac_eq; [|apply at_frac_apply, R1]. unfold frac. rewrite mult_INR.
      change (INR 2) with 2. field. exact It. }
    match goal with |- context [if ?b then _ else _] => destruct b end.
    - right. exists t. split; [lia|]. split; [lia|]. cbn [r_a r_sstp r_done r_frac r_drw2]. split; [|split; [|split; [|split]]].
      + eapply at_frac_eq; [|apply at_frac_apply, A1]. unfold frac. rewrite mult_INR. change (INR 2) with 2. field. exact It.
      + apply Nat.div_mul. lia.
      + reflexivity.
      + unfold frac. rewrite Nat.mul_comm. reflexivity.
      + exact R5.
    - apply IH; [lia|rewrite Nat.pow_succ_r' in Hf; lia|exact Hw|]. split; [exact A1|]. cbn [r_frac r_sstp r_done r_drw2].
      split; [destruct (Nat.eqb_spec (t * 2) 1); [lia|reflexivity]|]. split; [exact R3|]. split; [exact R4|].
      destruct A1 as (_ & _ & _ & _ & _ & Hrw). rewrite Hrw. apply advance_diff_nonneg, Hw.
  Qed.

  Definition ad_init : ast :=
    mk_ast (t_rv S i) (t_th S i) (t_rh S i) (if o_const_p o then t_p S i else 0) (if o_turb o then p_ssp P i else 0) (p_rw2 P i) 0.
  Definition ad_start : adres := mk_adres ad_init (o_sstp o) (o_sstp o =? 1)%nat 0 0.
  Definition ad_result : adres := ad_search o lD lK P d i (o_sstp o + 1) 1 ad_start.

  Lemma result_found : (1 <= o_sstp o)%nat -> 0 <= p_rw2 P i -> found ad_init ad_result.
  Proof.
    intros Hs Hw. unfold ad_result. rewrite Nat.add_1_r. cbn [ad_search].
    destruct (Nat.leb_spec 1 (o_sstp o)); [|lia]. cbn [Nat.eqb].
    change (1 * 2)%nat with (1 * 2)%nat. apply search_found; [lia| |exact Hw|].
    { assert (o_sstp o < 2 ^ o_sstp o)%nat by (apply Nat.pow_gt_lin_r; lia). lia. }
    assert (A1 : at_frac ad_init 1 (ad_calc o (ad_apply o d (p_dssp P i) i 1 ad_init))).
    { apply at_frac_calc. eapply at_frac_eq; [|apply at_frac_apply]. 2:{ instantiate (1 := 0). unfold at_frac.
        repeat split; try lra. destruct (o_turb o); lra. } ring. }
    cbn [r_a ad_start].
    split; [eapply at_frac_eq; [|exact A1]; change (INR 1) with 1; field|].
    cbn [r_frac r_sstp r_done r_drw2 Nat.eqb]. split; [reflexivity|]. split; [reflexivity|]. split; [reflexivity|].
    destruct A1 as (_ & _ & _ & _ & _ & Hrw). rewrite Hrw. apply advance_diff_nonneg, Hw.
  Qed.

  (** activation or deactivation is expected *)
  Definition crossing (r : adres) : bool :=
    let w := a_rw2 (r_a r) in let w' := w + INR (r_sstp r) * r_drw2 r in
    (1 <? o_act o)%nat && ((Rltb w (p_rc2 P i) && Rltb (p_rc2 P i) w') || (Rltb (p_rc2 P i) w && Rltb w' (p_rc2 P i))).
  (** convergence with fewer substeps than the largest number allowed, and activation expected *)
  Definition converged_activating : bool := r_done ad_result && crossing ad_result && negb (o_sstp o =? 1)%nat.

  Lemma fuel_enough f t r : (t * 2 ^ f > o_sstp o)%nat ->
    ad_search o lD lK P d i (Datatypes.S f) t r = ad_search o lD lK P d i f t r.
  Proof.
    revert t r. induction f as [|f IH]; intros t r H.
    - cbn [Nat.pow] in H. cbn [ad_search]. destruct (Nat.leb_spec t (o_sstp o)); [lia|reflexivity].
    - assert (IH' : forall r, ad_search o lD lK P d i (Datatypes.S f) (t * 2) r = ad_search o lD lK P d i f (t * 2) r).
      { intros r'. apply IH. rewrite Nat.pow_succ_r' in H. lia. }
      cbn [ad_search] in *. destruct (Nat.leb_spec t (o_sstp o)) as [Hle|Hgt]; [|reflexivity].
      destruct (t =? 1)%nat; [apply IH'|]. destruct (_ && _); [reflexivity|apply IH'].
  Qed.
  (** the bound on the number of doublings in the model does not cut the search *)
  Lemma fuel_sufficient f : (o_sstp o + 1 <= f)%nat -> ad_search o lD lK P d i f 1 ad_start = ad_result.
  Proof.
    intros H. unfold ad_result. induction f as [|f IH]; [lia|].
    destruct (Nat.eq_dec (Datatypes.S f) (o_sstp o + 1)) as [->|Hn]; [reflexivity|].
    rewrite fuel_enough; [apply IH; lia|]. assert (f < 2 ^ f)%nat by (apply Nat.pow_gt_lin_r; lia). lia.
  Qed.

  (** the state from which substeps start, and the fraction applied before them *)
  Lemma chosen : (1 <= o_sstp o)%nat -> 0 <= p_rw2 P i -> let r := ad_choose o P d i ad_result in
    (1 <= r_sstp r)%nat /\ (r_done r = true -> 0 <= p_rw2 P i + r_drw2 r) /\
    exists f, at_frac ad_init f (r_a r) /\
      (if r_done r then f = 1 / INR (r_sstp r)
       else if converged_activating then exists t, (1 <= t)%nat /\ (2 * t <= o_sstp o)%nat /\ f = 1 / INR (2 * t)
       else f = 0).
  Proof.
    intros Hs Hw r. pose proof (result_found Hs Hw) as F.
    assert (Hact : crossing ad_result = true -> (1 < o_act o)%nat).
    { unfold crossing. intros H. apply andb_prop in H. destruct H as [H _]. apply Nat.ltb_lt, H. }
    assert (Er : r = let r1 := if crossing ad_result then mk_adres (r_a ad_result) (o_act o) false (r_drw2 ad_result) (r_frac ad_result) else ad_result in
       if r_done r1 then r1
       else mk_adres (ad_apply o d (p_dssp P i) i (if (o_sstp o =? 1)%nat then - r_frac r1 else r_frac r1) (r_a r1))
              (r_sstp r1) false (r_drw2 r1) (r_frac r1)) by reflexivity.
    rewrite Er. clear Er r. unfold converged_activating.
    set (cr := crossing ad_result) in *. clearbody cr.
    set (R := ad_result) in *. clearbody R. change (a_rw2 ad_init) with (p_rw2 P i) in *.
    destruct F as [(t & Ht & Hmax & A1 & A2 & A3 & A4 & A5)|(t & Ht & Ht2 & A1 & A2 & A3 & A4 & A5)].
    - assert (It : INR t <> 0) by (apply not_0_INR; lia).
      destruct (Nat.eqb_spec (o_sstp o) 1) as [E1|Hn1].
      + assert (t = 1)%nat by lia. subst t. cbn [Nat.eqb] in A2. change (INR 1) with 1 in A1. rewrite A4. destruct cr.
        * cbn [r_done r_sstp r_a r_frac r_drw2 andb negb]. split; [specialize (Hact eq_refl); lia|]. split; [discriminate|].
          exists 0. split; [|reflexivity]. eapply at_frac_eq; [|apply at_frac_apply, A1]. rewrite A2. field.
        * cbv zeta. rewrite A4. rewrite A3, E1. split; [lia|]. split; [intros _; exact A5|]. exists 1. split.
          { eapply at_frac_eq; [|exact A1]. field. } rewrite A4. change (INR 1) with 1. field.
      + rewrite A4. cbn [andb]. cbv zeta.
        assert (Hd : r_done (if cr then mk_adres (r_a R) (o_act o) false (r_drw2 R) (r_frac R) else R) = false)
          by (destruct cr; [reflexivity|exact A4]).
        rewrite Hd. cbn [r_done r_sstp r_a r_frac r_drw2]. split.
        { destruct cr; cbn [r_sstp]; [specialize (Hact eq_refl)|]; lia. }
        split; [discriminate|]. exists 0. split; [|reflexivity].
        replace (r_a (if cr then _ else _)) with (r_a R) by (destruct cr; reflexivity).
        replace (r_frac (if cr then _ else _)) with (r_frac R) by (destruct cr; reflexivity).
        eapply at_frac_eq; [|apply at_frac_apply, A1]. rewrite A2. destruct (Nat.eqb_spec t 1) as [->|]; [lia|]. field. exact It.
    - assert (It : INR t <> 0) by (apply not_0_INR; lia). rewrite A3.
      destruct (Nat.eqb_spec (o_sstp o) 1) as [E1|Hn1]; [lia|]. destruct cr.
      + cbn [r_done r_sstp r_a r_frac r_drw2 andb negb]. split; [specialize (Hact eq_refl); lia|]. split; [discriminate|].
        exists (1 / INR (2 * t)). split; [|exists t; auto]. eapply at_frac_eq; [|apply at_frac_apply, A1]. rewrite A4, mult_INR.
        change (INR 2) with 2. field. exact It.
      + cbv zeta. rewrite A3. rewrite A2. split; [lia|]. split; [intros _; exact A5|]. exists (1 / INR t). split; [exact A1|rewrite A3; reflexivity].
  Qed.
End Adaptive.

(** ** substeps *)
Section Substeps.
  Variables (o : copts) (lD lK : nat -> R) (dv : R) (P : parts) (d : tmps) (i s : nat) (done : bool) (drw2 : R) (a0 : ast).
  Let X k := ad_loop o lD lK dv P d i s done drw2 k a0.
  (** fraction of the tendency applied in substep [k] *)
  Definition ad_part k : R := if done && (k =? 0)%nat then 0 else 1 / INR s.
  Definition ad_mass (a : ast) : R := N2R (p_n P i) * (4 / 3 * PI * 1000 * sqrt (a_rw2 a) ^ 3).
  Definition ad_lost k : R := (ad_mass (X (Datatypes.S k)) - ad_mass (X k)) / (if o_parcel o then 1 else a_rh (X (Datatypes.S k)) * dv).

  Hypothesis Hw : 0 <= a_rw2 a0.
  Hypothesis Hd : done = true -> 0 <= a_rw2 a0 + drw2.

  Lemma ad_rw2_nonneg k : 0 <= a_rw2 (X k).
  Proof.
    induction k as [|k IH]; [exact Hw|]. unfold X. cbn [ad_loop]. fold (X k).
    unfold ad_substep. destruct (done && (k =? 0)%nat) eqn:E; cbn [a_rw2].
    - apply andb_prop in E. destruct E as [E1 E2]. apply Nat.eqb_eq in E2. subst k. apply Hd, E1.
    - apply advance_nonneg. exact IH.
  Qed.
  Lemma ad_one k : let a := X k in let b := X (Datatypes.S k) in
    a_rh b = a_rh a + ad_part k * t_rh d i /\
    (o_const_p o = true -> a_p b = a_p a + ad_part k * t_p d i) /\
    a_ssp b = a_ssp a + (if o_turb o then ad_part k * (o_dt o * p_dssp P i) else 0) /\
    (o_parcel o = true \/ (a_rh b <> 0 /\ dv <> 0) ->
     a_rv b = a_rv a + ad_part k * t_rv d i - ad_lost k /\
     a_th b = (a_th a + ad_part k * t_th d i) * (1 + l_v (a_Tp b) / c_pd / a_Tp b * ad_lost k)).
  Proof.
    intros a b. pose proof (ad_rw2_nonneg k) as Na. pose proof (ad_rw2_nonneg (Datatypes.S k)) as Nb. fold a in Na. fold b in Nb.
    assert (Eb : b = ad_substep o lD lK dv P d i s done drw2 k a) by reflexivity.
    unfold ad_part. destruct (done && (k =? 0)%nat) eqn:E.
    - assert (R1 : a_rh b = a_rh a) by (rewrite Eb; unfold ad_substep; rewrite E; reflexivity).
      split; [rewrite R1; ring|]. split; [intros _; rewrite Eb; unfold ad_substep; rewrite E; cbn [a_p]; ring|].
      split; [rewrite Eb; unfold ad_substep; rewrite E; cbn [a_ssp]; destruct (o_turb o); ring|].
      intros Hair.
      assert (Q : rw3diff2drv o (- drop_mlt) (- rw2torw3 (a_rw2 a) + rw2torw3 (a_rw2 b)) (n_real P i) (a_rh b) dv = - ad_lost k).
      { rewrite !rw2torw3_eq by assumption. unfold rw3diff2drv, ad_lost, ad_mass, n_real. fold a b. rewrite drop_mlt_eq.
        destruct (o_parcel o); [field|]. destruct Hair as [|[H1 H2]]; [discriminate|]. field. auto. }
      assert (Ev : a_rv b = a_rv a + rw3diff2drv o (- drop_mlt) (- rw2torw3 (a_rw2 a) + rw2torw3 (a_rw2 b)) (n_real P i) (a_rh b) dv /\
        a_th b = a_th a + rw3diff2drv o (- drop_mlt) (- rw2torw3 (a_rw2 a) + rw2torw3 (a_rw2 b)) (n_real P i) (a_rh b) dv *
                 d_th_d_rv (a_Tp b) (a_th a)).
      { rewrite Eb. unfold ad_substep. rewrite E. split; reflexivity. }
      destruct Ev as [Ev1 Ev2]. rewrite Q in Ev1, Ev2. rewrite Ev1, Ev2. unfold d_th_d_rv. split; [ring|unfold Rdiv; ring].
    - set (c := ad_calc o (ad_apply o d (p_dssp P i) i (1 / INR s) a)).
      assert (R1 : a_rh b = a_rh c) by (rewrite Eb; unfold ad_substep; rewrite E; reflexivity).
      assert (R2 : a_p b = a_p c) by (rewrite Eb; unfold ad_substep; rewrite E; reflexivity).
      assert (R3 : a_ssp b = a_ssp c) by (rewrite Eb; unfold ad_substep; rewrite E; reflexivity).
      split; [rewrite R1; unfold c; cbn [ad_calc ad_apply a_rh]; ring|].
      split; [intros C; rewrite R2; unfold c, ad_calc, ad_apply, p_of; cbn [a_p]; rewrite C; cbn [a_p]; ring|].
      split; [rewrite R3; unfold c; cbn [ad_calc ad_apply a_ssp]; destruct (o_turb o); ring|].
      intros Hair.
      assert (Q : rw3diff2drv o (- drop_mlt) (- rw2torw3 (a_rw2 a) + rw2torw3 (a_rw2 b)) (n_real P i) (a_rh b) dv = - ad_lost k).
      { rewrite !rw2torw3_eq by assumption. unfold rw3diff2drv, ad_lost, ad_mass, n_real. fold a b. rewrite drop_mlt_eq.
        destruct (o_parcel o); [field|]. destruct Hair as [|[H1 H2]]; [discriminate|]. field. auto. }
      assert (Ev : a_rv b = a_rv c + rw3diff2drv o (- drop_mlt) (- rw2torw3 (a_rw2 a) + rw2torw3 (a_rw2 b)) (n_real P i) (a_rh b) dv /\
        a_th b = a_th c + rw3diff2drv o (- drop_mlt) (- rw2torw3 (a_rw2 a) + rw2torw3 (a_rw2 b)) (n_real P i) (a_rh b) dv *
                 d_th_d_rv (a_Tp b) (a_th c)).
      { rewrite Eb. unfold ad_substep. rewrite E. split; reflexivity. }
      assert (C1 : a_rv c = a_rv a + 1 / INR s * t_rv d i) by (unfold c; cbn [ad_calc ad_apply a_rv]; ring).
      assert (C2 : a_th c = a_th a + 1 / INR s * t_th d i) by (unfold c; cbn [ad_calc ad_apply a_th]; ring).
      destruct Ev as [Ev1 Ev2]. rewrite Q in Ev1, Ev2. rewrite C1 in Ev1. rewrite C2 in Ev2. rewrite Ev1, Ev2. unfold d_th_d_rv. split; [ring|unfold Rdiv; ring].
  Qed.

  Lemma ad_sum k : 
    a_rh (X k) = a_rh a0 + sumR k ad_part * t_rh d i /\
    (o_const_p o = true -> a_p (X k) = a_p a0 + sumR k ad_part * t_p d i) /\
    a_ssp (X k) = a_ssp a0 + (if o_turb o then sumR k ad_part * (o_dt o * p_dssp P i) else 0) /\
    ((forall j, (j < k)%nat -> o_parcel o = true \/ (a_rh (X (Datatypes.S j)) <> 0 /\ dv <> 0)) ->
     a_rv (X k) = a_rv a0 + sumR k ad_part * t_rv d i - sumR k ad_lost).
  Proof.
    induction k as [|k (I1 & I2 & I3 & I4)].
    - cbn [sumR]. unfold X. cbn [ad_loop]. split; [ring|]. split; [intros; ring|]. split; [destruct (o_turb o); ring|]. intros; ring.
    - destruct (ad_one k) as (O1 & O2 & O3 & O4). cbn [sumR]. split; [rewrite O1, I1; ring|].
      split; [intros C; rewrite O2, I2 by exact C; ring|]. split; [rewrite O3, I3; destruct (o_turb o); ring|].
      intros H. destruct (O4 (H k ltac:(lia))) as [O5 _]. rewrite O5, I4; [ring|]. intros j Hj. apply H. lia.
  Qed.
End Substeps.
  Lemma ad_part_sum s done : (1 <= s)%nat -> sumR s (ad_part s done) = if done then 1 - 1 / INR s else 1.
  Proof.
    intros Hs. assert (Hi : INR s <> 0) by (apply not_0_INR; lia).
    assert (G : forall k, (1 <= k)%nat -> sumR k (ad_part s done) = INR k / INR s - (if done then 1 / INR s else 0)).
    { induction k as [|k IH]; intros Hk; [lia|]. cbn [sumR]. destruct k as [|k].
      - cbn [sumR]. unfold ad_part. cbn [Nat.eqb]. change (INR 1) with 1. destruct done; cbn [andb]; field; exact Hi.
      - rewrite IH by lia. unfold ad_part at 1. cbn [Nat.eqb]. rewrite andb_false_r, (S_INR (Datatypes.S k)). field. exact Hi. }
    rewrite G by exact Hs. destruct done; field; exact Hi.
  Qed.

(** ** C23 *)
(** the chosen number of substeps, the states of the chosen substeps and the water taken in them *)
Definition ad_chosen (o : copts) lD lK (P : parts) (S d : tmps) (i : nat) : adres := ad_choose o P d i (ad_result o lD lK P S d i).
Definition ad_state (o : copts) lD lK (dv : nat -> R) (P : parts) (S d : tmps) (i k : nat) : ast :=
  let r := ad_chosen o lD lK P S d i in
  ad_loop o lD lK (dv (p_ijk P i)) P d i (r_sstp r) (r_done r) (r_drw2 r) k (r_a r).

Lemma ad_particle_state o lD lK dv P S d i :
  ad_particle o lD lK dv P S d i = (ad_state o lD lK dv P S d i (r_sstp (ad_chosen o lD lK P S d i)), r_sstp (ad_chosen o lD lK P S d i)).
Proof. reflexivity. Qed.

(** the fraction of the tendency that is applied in total; [F] is exact for every convergence history *)
Theorem C23_fraction o lD lK dv P S d i : (1 <= o_sstp o)%nat -> 0 <= p_rw2 P i ->
  let a := fst (ad_particle o lD lK dv P S d i) in
  exists F,
    a_rh a = t_rh S i + F * t_rh d i /\
    (o_const_p o = true -> a_p a = t_p S i + F * t_p d i) /\
    (o_turb o = true -> a_ssp a = p_ssp P i + F * (o_dt o * p_dssp P i)) /\
    0 <= a_rw2 a /\
    (converged_activating o lD lK P S d i = false -> F = 1) /\
    (converged_activating o lD lK P S d i = true -> exists t, (1 <= t)%nat /\ (2 * t <= o_sstp o)%nat /\ F = 1 + 1 / INR (2 * t)).
Proof.
  intros Hs Hw a. destruct (chosen o lD lK P S d i Hs Hw) as (C1 & C2 & f & Cf & Cd).
  fold (ad_chosen o lD lK P S d i) in C1, C2, Cf, Cd. set (r := ad_chosen o lD lK P S d i) in *.
  destruct Cf as (F1 & F2 & F3 & F4 & F5 & F6). cbn [ad_init a_rv a_th a_rh a_p a_ssp a_rw2] in F1, F2, F3, F4, F5, F6.
  assert (Hw0 : 0 <= a_rw2 (r_a r)) by (rewrite F6; exact Hw).
  assert (Hd0 : r_done r = true -> 0 <= a_rw2 (r_a r) + r_drw2 r) by (rewrite F6; exact C2).
  pose proof (ad_sum o lD lK (dv (p_ijk P i)) P d i (r_sstp r) (r_done r) (r_drw2 r) (r_a r) Hw0 Hd0 (r_sstp r)) as (S1 & S2 & S3 & _).
  rewrite ad_part_sum in S1, S2, S3 by exact C1.
  change (ad_loop o lD lK (dv (p_ijk P i)) P d i (r_sstp r) (r_done r) (r_drw2 r) (r_sstp r) (r_a r)) with a in S1, S2, S3.
  exists (f + (if r_done r then 1 - 1 / INR (r_sstp r) else 1)).
  split; [rewrite S1, F3; ring|]. split; [intros C; rewrite S2, F4, C by exact C; ring|].
  split; [intros C; rewrite S3, F5, C; ring|].
  split.
  { pose proof (ad_rw2_nonneg o lD lK (dv (p_ijk P i)) P d i (r_sstp r) (r_done r) (r_drw2 r) (r_a r) Hw0 Hd0 (r_sstp r)) as N. exact N. }
  split; intros E.
  - rewrite E in Cd. destruct (r_done r); rewrite Cd; ring.
  - rewrite E in Cd. destruct (r_done r) eqn:Ed.
    + exfalso. unfold converged_activating in E. apply andb_prop in E. destruct E as [E _]. apply andb_prop in E. destruct E as [_ E].
      unfold r, ad_chosen, ad_choose in Ed. fold (crossing o P i (ad_result o lD lK P S d i)) in Ed. rewrite E in Ed.
      cbn [r_done] in Ed. discriminate Ed.
    + destruct Cd as (t & T1 & T2 & ->). exists t. split; [exact T1|]. split; [exact T2|ring].
Qed.

(** C23 for a droplet for which activation is not expected, or whose number of substeps was not found by convergence, or with a single
    substep allowed - in particular whenever substeps for activation are off: the fractions sum up to one, so that the droplet ends in
    air with the density (pressure, supersaturation perturbation) given by the host model, and with its vapour minus what the droplet
    took. *)
Theorem C23_adaptive_partial o lD lK dv st i :
  let P := s_P st in let S := s_S st in let d := deltas o st in
  (1 <= o_sstp o)%nat -> (forall j, 0 <= p_rw2 P j) -> (i < p_np P)%nat -> air_ok st -> dv = e_dv (s_E st) ->
  ((o_act o <= 1)%nat \/ converged_activating o lD lK P S d i = false) ->
  let a := fst (ad_particle o lD lK dv P S d i) in let s := snd (ad_particle o lD lK dv P S d i) in
  let X k := ad_state o lD lK dv P S d i k in
  let m k := N2R (p_n P i) * (4 / 3 * PI * 1000 * sqrt (a_rw2 (X k)) ^ 3) in
  (1 <= s)%nat /\ a = X s /\ a_rw2 (X 0%nat) = p_rw2 P i /\
  a_rh a = e_rhod (s_E st) (p_ijk P i) /\
  (o_const_p o = true -> a_p a = e_p (s_E st) (p_ijk P i)) /\
  (o_turb o = true -> a_ssp a = p_ssp P i + o_dt o * p_dssp P i) /\
  ((forall k, (1 <= k <= s)%nat -> a_rh (X k) <> 0) ->
   a_rv a = e_rv (s_E st) (p_ijk P i)
          - sumR s (fun k => (m (Datatypes.S k) - m k) / (if o_parcel o then 1 else a_rh (X (Datatypes.S k)) * e_dv (s_E st) (p_ijk P i)))).
Proof.
  intros P S d Hs Hw Hi Hair Hdv Hact a s X m.
  assert (HC : converged_activating o lD lK P S d i = false).
  { destruct Hact as [H|H]; [|exact H]. unfold converged_activating, crossing.
    replace (1 <? o_act o)%nat with false by (symmetry; apply Nat.ltb_ge, H). cbn [andb]. rewrite andb_false_r. reflexivity. }
  destruct (C23_fraction o lD lK dv P S d i Hs (Hw i)) as (F & F1 & F2 & F3 & _ & F4 & _). fold a in F1, F2, F3.
  specialize (F4 HC). subst F.
  destruct (chosen o lD lK P S d i Hs (Hw i)) as (C1 & C2 & f & Cf & Cd).
  fold (ad_chosen o lD lK P S d i) in C1, C2, Cf, Cd.
  assert (Es : s = r_sstp (ad_chosen o lD lK P S d i)) by reflexivity.
  destruct Cf as (G1 & G2 & G3 & G4 & G5 & G6). cbn [ad_init a_rv a_th a_rh a_p a_ssp a_rw2] in G1, G2, G3, G4, G5, G6.
  split; [rewrite Es; exact C1|]. split; [reflexivity|]. split; [exact G6|].
  split; [rewrite F1; unfold d, S, deltas, noncond_delta; cbn [t_rh]; fold P; ring|].
  split; [intros C; rewrite (F2 C); unfold d, S, deltas, noncond_delta; cbn [t_p]; fold P; ring|].
  split; [intros C; rewrite (F3 C); ring|].
  intros Hne. set (r := ad_chosen o lD lK P S d i) in *.
  assert (Hw0 : 0 <= a_rw2 (r_a r)) by (rewrite G6; apply Hw).
  assert (Hd0 : r_done r = true -> 0 <= a_rw2 (r_a r) + r_drw2 r) by (rewrite G6; exact C2).
  pose proof (ad_sum o lD lK (dv (p_ijk P i)) P d i (r_sstp r) (r_done r) (r_drw2 r) (r_a r) Hw0 Hd0 (r_sstp r)) as (_ & _ & _ & S4).
  rewrite ad_part_sum in S4 by exact C1.
  change (ad_loop o lD lK (dv (p_ijk P i)) P d i (r_sstp r) (r_done r) (r_drw2 r) (r_sstp r) (r_a r)) with a in S4.
  rewrite S4.
  - rewrite HC in Cd.
    assert (Ef : f + (if r_done r then 1 - 1 / INR (r_sstp r) else 1) = 1) by (destruct (r_done r); rewrite Cd; ring).
    rewrite G1. replace (t_rv S i + f * t_rv d i + (if r_done r then 1 - 1 / INR (r_sstp r) else 1) * t_rv d i)
      with (t_rv S i + (f + (if r_done r then 1 - 1 / INR (r_sstp r) else 1)) * t_rv d i) by ring.
    rewrite Ef. replace (t_rv S i + 1 * t_rv d i) with (e_rv (s_E st) (p_ijk P i))
      by (unfold d, S, deltas, noncond_delta; cbn [t_rv]; fold P; ring).
    f_equal. rewrite Es. apply sumR_ext. intros k Hk. unfold ad_lost, ad_mass, m, X, ad_state. fold r. rewrite Hdv. reflexivity.
  - intros j Hj. right. split; [apply (Hne (Datatypes.S j)); rewrite Es; fold r; lia|]. rewrite Hdv. destruct (Hair i Hi) as (_ & _ & H). fold P in H. lra.
Qed.

Print Assumptions C23_fraction.
Print Assumptions C23_adaptive_partial.
