From Coq Require Import Reals Lra Psatz List ZArith Lia Bool.
From Verif Require Import Base BaseProofs ThermoModel ThermoProofs Blk1mModel.
Import ListNotations.
Local Open Scope R_scope.

Lemma for_cells_ok {A} (f : A -> outcome A) l l' :
  for_cells f l = Ok l' -> Forall2 (fun a b => f a = Ok b) l l'.
Proof.
  revert l'. induction l as [|c r IH]; intros l' H; cbn in H.
  - inversion H. constructor.
  - destruct (f c) as [c'|c'|] eqn:E; try discriminate.
    destruct (for_cells f r) as [r'|r'|] eqn:E2; try discriminate.
    inversion H. constructor; auto.
Qed.
Lemma for_cells_all_ok {A} (f : A -> outcome A) (P : A -> A -> Prop) l :
  (forall a, In a l -> exists b, f a = Ok b /\ P a b) -> exists l', for_cells f l = Ok l' /\ Forall2 P l l'.
Proof.
  induction l as [|c r IH]; intros H; cbn.
  - exists []. split; [reflexivity|constructor].
  - destruct (H c) as (b & -> & Hb); [now left|].
    destruct IH as (r' & -> & Hr); [intros; apply H; now right|].
    exists (b :: r'). split; [reflexivity|]. constructor; auto.
Qed.
Lemma Forall2_weaken {A B} (P Q : A -> B -> Prop) l l' :
  (forall a b, P a b -> Q a b) -> Forall2 P l l' -> Forall2 Q l l'.
Proof. intros H F. induction F; constructor; auto. Qed.
Lemma Forall2_map_r {A B} (P : A -> B -> Prop) (g : A -> B) l :
  (forall a, P a (g a)) -> Forall2 P l (map g l).
Proof. intros H. induction l; cbn; constructor; auto. Qed.
Lemma Forall2_trans {A} (P Q S : A -> A -> Prop) :
  (forall a b c, P a b -> Q b c -> S a c) ->
  forall l1 l2 l3, Forall2 P l1 l2 -> Forall2 Q l2 l3 -> Forall2 S l1 l3.
Proof.
  intros H l1 l2 l3 F. revert l3. induction F; intros l3 G; inversion G; subst; constructor; eauto.
Qed.
Lemma for_cells_total {A} (g : A -> A) l : for_cells (fun x => Ok (g x)) l = Ok (map g l).
Proof. induction l as [|c r IH]; cbn; [reflexivity|]. now rewrite IH. Qed.

Lemma cmin_le_l a b : cmin a b <= a. Proof. rewrite cmin_Rmin. apply Rmin_l. Qed.
Lemma cmin_le_r a b : cmin a b <= b. Proof. rewrite cmin_Rmin. apply Rmin_r. Qed.
Lemma cmin_glb a b c : c <= a -> c <= b -> c <= cmin a b.
Proof. rewrite cmin_Rmin. apply Rmin_glb. Qed.
Lemma cmin_pos a b : 0 < a -> 0 < b -> 0 < cmin a b.
Proof. intros. unfold cmin. destruct (Rltb b a); auto. Qed.
Lemma cmax_ge_l a b : a <= cmax a b. Proof. rewrite cmax_Rmax. apply Rmax_l. Qed.
Lemma cmax_ge_r a b : b <= cmax a b. Proof. rewrite cmax_Rmax. apply Rmax_r. Qed.

(** temperature and pressure of a cell *)
Lemma Tp_some o a b c d : o_const_p o <> o_th_dry o -> exists T p, Tp o a b c d = Some (T, p).
Proof. unfold Tp. destruct (o_const_p o), (o_th_dry o); intros H; cbn; eauto; congruence. Qed.
Lemma Tp_none o a b c d : o_const_p o = o_th_dry o -> Tp o a b c d = None.
Proof. unfold Tp. intros ->. destruct (o_th_dry o); reflexivity. Qed.

(** *** Newton-Raphson *)
Lemma nwt_iters_saturated k o rhod pr th rv T p L0 :
  Tp o rhod pr th rv = Some (T, p) -> rv = r_vs T p ->
  let s := {| n_drc := 0; n_rv := rv; n_th := th; n_T := T; n_p := p |} in
  nwt_iters k o rhod (exner pr) th rv L0 s = s.
Proof.
  intros HT Hs s. induction k as [|k IH]; [reflexivity|].
  cbn [nwt_iters].
  assert (E : nwt_iter o rhod (exner pr) th rv L0 s = s); [|now rewrite E].
  unfold nwt_iter, s. cbn [n_drc n_rv n_th n_T n_p].
  rewrite <- Hs. rewrite Rminus_diag_eq by reflexivity.
  assert (Z : forall x, 0 + 0 / x = 0) by (intros; unfold Rdiv; ring).
  rewrite !Z, !Rmult_0_r, !Rminus_0_r, !Rplus_0_r.
  unfold Tp in HT.
  destruct (o_const_p o), (o_th_dry o); cbn in HT |- *; inversion HT; subst; reflexivity.
Qed.

(** *** RK4 *)
Definition rk_total (s : rk) := k_rv s + k_rc s + k_rr s.

Inductive rk4_reach (o : opts) (rhod : R) (s0 : rk) : rk -> Prop :=
| reach_refl : rk4_reach o rhod s0 s0
| reach_step s b s' : rk4_reach o rhod s0 s -> rk4_cond o s = true ->
    rk4_body o rhod s = (b, s') -> rk4_reach o rhod s0 s'.

Lemma rk4_loop_reach fuel o rhod s s' :
  rk4_loop fuel o rhod s = Some s' -> rk4_reach o rhod s s'.
Proof.
  assert (G : forall s0, rk4_reach o rhod s0 s -> rk4_loop fuel o rhod s = Some s' -> rk4_reach o rhod s0 s').
  { intros s0. revert s. induction fuel as [|k IH]; intros s Hr H; cbn in H.
    - destruct (rk4_cond o s); cbn in H; [discriminate|]. now inversion H; subst.
    - destruct (rk4_cond o s) eqn:E; cbn in H; [|now inversion H; subst].
      destruct (rk4_body o rhod s) as [b s1] eqn:Eb.
      assert (Hr1 : rk4_reach o rhod s0 s1) by (econstructor; eauto).
      destruct b; [now inversion H; subst|]. eapply IH; eauto. }
  intros H. apply G; [constructor|exact H].
Qed.

Lemma half_min_pos e v : 0 < e -> 0 < v -> copysign (cmin (e / 2) (v / 2)) v = cmin (e / 2) (v / 2).
Proof.
  intros He Hv. assert (0 < cmin (e / 2) (v / 2)) by (apply cmin_pos; lra).
  unfold copysign. destruct (Rle_dec 0 v); [|lra]. apply Rabs_right. lra.
Qed.
Lemma half_min_neg e v : 0 < e -> v < 0 -> copysign (cmin (e / 2) (v / 2)) v = v / 2.
Proof.
  intros He Hv. unfold copysign. destruct (Rle_dec 0 v); [lra|].
  assert (E : cmin (e / 2) (v / 2) = v / 2).
  { unfold cmin. destruct (Rltb (v/2) (e/2)) eqn:E; [reflexivity|]. apply Rltb_false in E. lra. }
  rewrite E, Rabs_left by lra. lra.
Qed.

(** what one iteration does *)
Lemma rk4_body_spec o rhod s b s' : 0 < o_r_eps o ->
  rk4_cond o s = true -> rk4_body o rhod s = (b, s') ->
  exists h, h <> 0 /\ k_rv s' = k_rv s + h /\ f_r (k_F s') = k_rv s' /\
   ((* condensation *)
    (f_rs (k_F s) < k_rv s /\ h < 0 /\ - h <= o_r_eps o / 2 /\ - h <= (k_rv s - f_rs (k_F s)) / 2 /\
     k_rc s' = k_rc s - h /\ k_rr s' = k_rr s /\ k_drr_max s' = k_drr_max s)
    \/ (* cloud evaporation *)
    (k_rv s < f_rs (k_F s) /\ o_cevp o = true /\ 0 < k_rc s /\ 0 < h /\ h <= k_rc s /\
     k_rc s' = k_rc s - h /\ k_rr s' = k_rr s /\ k_drr_max s' = k_drr_max s)
    \/ (* rain evaporation *)
    (k_rv s < f_rs (k_F s) /\ o_cevp o = true /\ o_revp o = true /\ k_rc s <= 0 /\ 0 < h /\
     h <= k_rr s /\ h <= k_drr_max s /\
     k_rc s' = k_rc s /\ k_rr s' = k_rr s - h /\ k_drr_max s' = k_drr_max s - h)).
Proof.
  intros He Hc Hb. unfold rk4_cond in Hc. unfold rk4_body in Hb.
  set (ve := k_rv s - f_rs (k_F s)) in *.
  assert (Hfr : forall h, f_r (snd (rk4_do_step o rhod (f_p (k_F s)) (k_th s) (k_rv s) h)) = k_rv s + h).
  { intros h. unfold rk4_do_step, f_update. cbn [snd].
    destruct (negb (o_const_p o) && o_th_dry o); reflexivity. }
  destruct (Rltb (o_r_eps o) ve) eqn:E1.
  - apply Rltb_true in E1.
    assert (E0 : Rltb ve 0 = false) by (apply Rltb_false; lra).
    assert (E2 : Rltb 0 ve = true) by (apply Rltb_true; lra).
    rewrite E0, E2, half_min_pos in Hb by lra. cbn [orb] in Hb.
    inversion Hb; subst b s'; clear Hb. cbn [k_rv k_rc k_rr k_drr_max k_F].
    exists (- cmin (o_r_eps o / 2) (ve / 2)).
    pose proof (cmin_pos (o_r_eps o / 2) (ve / 2) ltac:(lra) ltac:(lra)).
    pose proof (cmin_le_l (o_r_eps o / 2) (ve / 2)). pose proof (cmin_le_r (o_r_eps o / 2) (ve / 2)).
    split; [lra|]. split; [reflexivity|]. split; [apply Hfr|]. left.
    unfold ve in *. repeat split; lra.
  - cbn [orb] in Hc. apply andb_true_iff in Hc. destruct Hc as [Hc1 Hc2].
    apply andb_true_iff in Hc1. destruct Hc1 as [Hcevp Hve]. apply Rltb_true in Hve.
    assert (E0 : Rltb ve 0 = true) by (apply Rltb_true; lra).
    assert (E2 : Rltb 0 ve = false) by (apply Rltb_false; lra).
    rewrite E0, E2, half_min_neg in Hb by lra. cbn [orb] in Hb.
    destruct (Rltb 0 (k_rc s)) eqn:E3.
    + apply Rltb_true in E3.
      inversion Hb; subst b s'; clear Hb. cbn [k_rv k_rc k_rr k_drr_max k_F].
      exists (cmin (k_rc s) (- (ve / 2))).
      pose proof (cmin_pos (k_rc s) (- (ve / 2)) E3 ltac:(lra)).
      pose proof (cmin_le_l (k_rc s) (- (ve / 2))).
      split; [lra|]. split; [reflexivity|]. split; [apply Hfr|]. right; left.
      unfold ve in *. repeat split; try lra; auto.
    + apply Rltb_false in E3. cbn [orb] in Hc2. apply andb_true_iff in Hc2. destruct Hc2 as [Hc2 Hd].
      apply andb_true_iff in Hc2. destruct Hc2 as [Hrevp Hrr]. apply Rltb_true in Hrr, Hd.
      inversion Hb; subst b s'; clear Hb. cbn [k_rv k_rc k_rr k_drr_max k_F].
      exists (cmin (k_drr_max s) (cmin (k_rr s) (- (ve / 2)))).
      pose proof (cmin_pos (k_rr s) (- (ve / 2)) Hrr ltac:(lra)) as Hp.
      pose proof (cmin_pos (k_drr_max s) _ Hd Hp).
      pose proof (cmin_le_l (k_drr_max s) (cmin (k_rr s) (- (ve / 2)))).
      pose proof (cmin_le_r (k_drr_max s) (cmin (k_rr s) (- (ve / 2)))).
      pose proof (cmin_le_l (k_rr s) (- (ve / 2))).
      split; [lra|]. split; [reflexivity|]. split; [apply Hfr|]. right; right.
      unfold ve in *. repeat split; try lra; auto.
Qed.

(** the loop invariant *)
Definition rk_inv (o : opts) (s0 s : rk) : Prop :=
  rk_total s = rk_total s0 /\
  (0 <= k_rc s0 -> 0 <= k_rc s) /\
  (0 <= k_rr s0 -> 0 <= k_rr s) /\
  k_rr s <= k_rr s0 /\
  k_rr s0 - k_rr s = k_drr_max s0 - k_drr_max s /\
  (k_drr_max s < k_drr_max s0 -> 0 <= k_drr_max s) /\
  (o_revp o = false -> k_rr s = k_rr s0) /\
  (o_cevp o = false -> k_rc s0 <= k_rc s /\ k_rr s = k_rr s0) /\
  (f_r (k_F s0) = k_rv s0 -> f_r (k_F s) = k_rv s).

Lemma rk4_reach_inv o rhod s0 s : 0 < o_r_eps o -> rk4_reach o rhod s0 s -> rk_inv o s0 s.
Proof.
  intros He H. induction H as [|s b s' Hr IH Hc Hb].
  - unfold rk_inv, rk_total. repeat split; intros; try lra; auto.
  - destruct IH as (I1 & I2 & I3 & I4 & I5 & I6 & I7 & I8 & I9).
    destruct (rk4_body_spec _ _ _ _ _ He Hc Hb) as (h & Hn & Hv & Hf & Hcase).
    unfold rk_inv, rk_total in *.
    destruct Hcase as [C | [C | C]].
    + destruct C as (C1 & C2 & C3 & C4 & C5 & C6 & C7).
      rewrite Hv, C5, C6, C7.
      repeat split; intros; try lra; auto; try congruence;
        try (destruct (I8 ltac:(assumption)); lra); try (pose proof (I2 ltac:(assumption)); lra).
    + destruct C as (C1 & C2 & C3 & C4 & C5 & C6 & C7 & C8).
      rewrite Hv, C6, C7, C8. repeat split; intros; try lra; auto; congruence.
    + destruct C as (C1 & C2 & C3 & C4 & C5 & C6 & C7 & C8 & C9 & C10).
      rewrite Hv, C8, C9, C10. repeat split; intros; try lra; auto; congruence.
Qed.

(** *** tables *)
Lemma Int_part_bounds x : IZR (Int_part x) <= x < IZR (Int_part x) + 1.
Proof. pose proof (base_Int_part x). lra. Qed.
Lemma ttcoe_range T : -31 <= ttcoe T <= 0.
Proof.
  unfold ttcoe. rewrite cmin_Rmin, cmax_Rmax.
  pose proof (Rmin_l 0 (Rmax (-31) (T - 27316/100))). split; [|lra].
  apply Rmin_glb; [lra|apply Rmax_l].
Qed.
Lemma index1_spec T : INR (index1 T) <= - ttcoe T < INR (index1 T) + 1.
Proof.
  pose proof (ttcoe_range T) as H. pose proof (Int_part_bounds (- ttcoe T)) as HI.
  unfold index1. assert (0 <= Int_part (- ttcoe T))%Z.
  { assert (-1 < Int_part (- ttcoe T))%Z; [|lia]. apply lt_IZR. lra. }
  rewrite INR_IZR_INZ, Z2Nat.id by auto. exact HI.
Qed.
Lemma index1_le T : (index1 T <= 31)%nat.
Proof.
  pose proof (index1_spec T). pose proof (ttcoe_range T).
  apply INR_le. replace (INR 31) with 31 by (cbn; lra). lra.
Qed.
Lemma index1_31 T : index1 T = 31%nat <-> T <= 24216 / 100.
Proof.
  pose proof (index1_spec T) as H. pose proof (ttcoe_range T) as Hr. split.
  - intros E. rewrite E in H. replace (INR 31) with 31 in H by (cbn; lra).
    assert (Ht : ttcoe T = -31) by lra. unfold ttcoe in Ht.
    rewrite cmin_Rmin, cmax_Rmax in Ht.
    unfold Rmin, Rmax in Ht. destruct (Rle_dec (-31) (T - 27316/100)); destruct (Rle_dec _ _) in Ht; lra.
  - intros Hle.
    assert (Ht : ttcoe T = -31).
    { unfold ttcoe. rewrite cmin_Rmin, cmax_Rmax.
      unfold Rmin, Rmax. destruct (Rle_dec (-31) (T - 27316/100)); destruct (Rle_dec _ _); lra. }
    rewrite Ht in H. apply Nat.le_antisymm; [apply index1_le|].
    assert (30 < index1 T)%nat; [|lia]. apply INR_lt. replace (INR 30) with 30 by (cbn; lra). lra.
Qed.
Lemma ttcoe_31 T : T <= 24216 / 100 -> ttcoe T = -31.
Proof.
  intros Hle. unfold ttcoe. rewrite cmin_Rmin, cmax_Rmax.
  unfold Rmin, Rmax. destruct (Rle_dec (-31) (T - 27316/100)); destruct (Rle_dec _ _); lra.
Qed.

Lemma coeff_del T : 0 <= - ttcoe T - INR (index1 T) < 1.
Proof. pose proof (index1_spec T). lra. Qed.

Lemma coeff_cold tab oob T : T <= 24216 / 100 -> coeff tab oob T = nth 31 tab oob.
Proof.
  intros H. unfold coeff. pose proof (proj2 (index1_31 T) H) as E. rewrite E, (ttcoe_31 T H).
  replace (INR 31) with 31 by (cbn; lra). lra.
Qed.

Lemma coeff_nonneg tab oob T : length tab = 32%nat -> (forall x, In x tab -> 0 <= x) ->
  0 <= coeff tab oob T.
Proof.
  intros Hl Hn. destruct (Rle_dec T (24216/100)) as [H|H].
  - rewrite coeff_cold by auto. apply Hn, nth_In. lia.
  - assert (index1 T < 31)%nat.
    { pose proof (index1_le T). destruct (Nat.eq_dec (index1 T) 31) as [E|E]; [|lia].
      apply index1_31 in E. contradiction. }
    unfold coeff, index2. pose proof (coeff_del T).
    assert (0 <= nth (index1 T) tab oob) by (apply Hn, nth_In; lia).
    assert (0 <= nth (S (index1 T)) tab oob) by (apply Hn, nth_In; lia).
    apply Rplus_le_le_0_compat; apply Rmult_le_pos; lra.
Qed.
Lemma alpha_nonneg x : In x alpha_list -> 0 <= x.
Proof. unfold alpha_list. cbn [In]. intros H. repeat (destruct H as [<-|H]; [lra|]). contradiction. Qed.

(** *** signs of the ice rates *)
Lemma mass_a_pos ria T rhod : 0 < mass_a ria T rhod.
Proof.
  unfold mass_a. cbv zeta.
  match goal with |- 0 < cmax ?a ?b => pose proof (cmax_ge_l a b) end.
  assert (0 < / 10 ^ 18) by (apply Rinv_0_lt_compat; lra). lra.
Qed.
Lemma mass_b_pos rib rhod : 0 < mass_b rib rhod.
Proof.
  unfold mass_b.
  match goal with |- 0 < cmax ?a ?b => pose proof (cmax_ge_l a b) end.
  assert (0 < / 10 ^ 18) by (apply Rinv_0_lt_compat; lra). lra.
Qed.
Lemma Rdiv_nonneg a b : 0 <= a -> 0 < b -> 0 <= a / b.
Proof. intros. apply Rmult_le_pos; [auto|left; now apply Rinv_0_lt_compat]. Qed.
Lemma Rinv_nonneg b : 0 <= b -> 0 <= / b.
Proof.
  intros [H|<-]; [left; now apply Rinv_0_lt_compat|]. rewrite Rinv_0. lra.
Qed.
Lemma Rdiv_nonneg' a b : 0 <= a -> 0 <= b -> 0 <= a / b.
Proof. intros. apply Rmult_le_pos; [auto|now apply Rinv_nonneg]. Qed.
Lemma one_minus_exp dt : 0 <= 1 - exp (- dt / dt).
Proof.
  destruct (Req_EM_T dt 0) as [->|n].
  - unfold Rdiv. rewrite Ropp_0, Rmult_0_l, exp_0. lra.
  - replace (- dt / dt) with (-1) by (field; auto).
    assert (exp (-1) < exp 0) by (apply exp_increasing; lra). rewrite exp_0 in H. lra.
Qed.

Lemma hom1_nonneg a b c T dt : 0 <= hom_A_nucleation_1 a b c T dt.
Proof.
  unfold hom_A_nucleation_1. destruct (Rltb T (23316/100)); [|lra].
  apply Rmult_le_pos; [apply one_minus_exp|]. apply cmax_ge_l.
Qed.
Lemma hom2_nonneg rc T dt : 0 <= rc -> 0 <= hom_A_nucleation_2 rc T dt.
Proof.
  intros. unfold hom_A_nucleation_2. destruct (Rltb T (23316/100)); [|lra].
  apply Rmult_le_pos; [apply one_minus_exp|auto].
Qed.
Lemma hetA_nonneg ria rc T rhod dt : 0 <= rc -> 0 <= het_A_nucleation ria rc T rhod dt.
Proof.
  intros. unfold het_A_nucleation. destruct (Reqb rc 0 || Rltb (27316/100) T); [lra|].
  apply Rmult_le_pos; [apply one_minus_exp|]. apply cmin_glb; [auto|apply cmax_ge_l].
Qed.
Lemma N_ra_nonneg rr ria T rhod : 0 <= ria -> 0 <= N_ra rr ria T rhod.
Proof.
  intros. unfold N_ra. cbv zeta. pose proof PI_RGT_0.
  assert (0 <= lambda_rain rr rhod) by apply cpow_nonneg.
  apply Rdiv_nonneg; [|apply mass_a_pos]. apply Rmult_le_pos; [|auto].
  rewrite Rmult_assoc. apply Rmult_le_pos; [|].
  - apply Rmult_le_pos; [|lra]. apply Rmult_le_pos; [|apply Rabs_pos].
    apply Rdiv_nonneg'; lra.
  - apply Rmult_le_pos; apply Rdiv_nonneg'; lra.
Qed.
Lemma hetB1_nonneg rr ria T rhod : 0 <= ria -> 0 <= het_B_nucleation_1 rr ria T rhod.
Proof.
  intros. unfold het_B_nucleation_1. destruct (_ || _); [lra|].
  apply Rmult_le_pos; [now apply N_ra_nonneg|]. pose proof PI_RGT_0.
  apply Rdiv_nonneg'; [unfold rho_w; lra|]. apply Rmult_le_pos; [lra|apply cpow_nonneg].
Qed.
Lemma hetB2_nonneg rr ria T rhod : 0 <= ria -> 0 <= het_B_nucleation_2 rr ria T rhod.
Proof.
  intros. unfold het_B_nucleation_2. destruct (_ || _); [lra|].
  apply Rmult_le_pos; [now apply N_ra_nonneg|]. left. apply mass_a_pos.
Qed.
Lemma meltA_nonneg ria T rhod dt : 0 <= ria -> 0 < dt -> 0 <= melting_A ria T rhod dt.
Proof.
  intros. unfold melting_A. destruct (_ || _); [lra|]. cbv zeta.
  apply cmin_glb; [now apply Rdiv_nonneg|].
  apply Rdiv_nonneg; [|apply mass_a_pos]. apply Rmult_le_pos; [|auto].
  apply Rmult_le_pos; [|apply cmax_ge_l]. apply Rmult_le_pos.
  - apply Rdiv_nonneg; [|lra]. apply Rmult_le_pos; [lra|apply cpow_nonneg].
  - match goal with |- 0 <= cmax ?a ?b => pose proof (cmax_ge_l a b) end. lra.
Qed.
Lemma meltB_nonneg rib T rhod dt : 0 <= rib -> 0 < dt -> 0 <= melting_B rib T rhod dt.
Proof.
  intros. unfold melting_B. destruct (_ || _); [lra|]. cbv zeta.
  apply cmin_glb; [now apply Rdiv_nonneg|].
  apply Rdiv_nonneg; [|apply mass_b_pos]. apply Rmult_le_pos; [|auto].
  apply Rmult_le_pos; [|apply cmax_ge_l]. apply Rmult_le_pos.
  - apply Rdiv_nonneg; [|lra]. apply Rmult_le_pos; [lra|]. apply Rdiv_nonneg'; [lra|apply cpow_nonneg].
  - match goal with |- 0 <= cmax ?a ?b => pose proof (cmax_ge_l a b) end. lra.
Qed.
Lemma riming_nonneg oob ri m rc rv rvs rvsi T rhod : 0 <= ri -> 0 < m ->
  0 <= riming oob ri m rc rv rvs rvsi T rhod.
Proof.
  intros. unfold riming. cbv zeta.
  apply Rplus_le_le_0_compat.
  - destruct (_ && _); [|lra]. apply Rdiv_nonneg; [|auto]. apply Rmult_le_pos; [apply cmax_ge_l|auto].
  - destruct (Rltb _ _); [|lra]. apply Rdiv_nonneg; [|auto]. apply Rmult_le_pos; [apply cmax_ge_l|auto].
Qed.
Lemma rimA_nonneg oob ria rc rv rvs rvsi T rhod : 0 <= ria ->
  0 <= riming_A oob ria rc rv rvs rvsi T rhod.
Proof. intros. unfold riming_A. destruct (_ || _); [lra|]. apply riming_nonneg; [auto|apply mass_a_pos]. Qed.
Lemma rimB_nonneg oob rib rc rv rvs rvsi T rhod : 0 <= rib ->
  0 <= riming_B oob rib rc rv rvs rvsi T rhod.
Proof. intros. unfold riming_B. destruct (_ || _); [lra|]. apply riming_nonneg; [auto|apply mass_b_pos]. Qed.
Lemma frac_range rc rr : 0 <= rc -> 0 <= rr -> 0 <= rc / (rc + rr + / 10 ^ 10) <= 1.
Proof.
  intros. assert (0 < / 10 ^ 10) by (apply Rinv_0_lt_compat; lra).
  split; [apply Rdiv_nonneg; lra|].
  apply Rmult_le_reg_r with (rc + rr + / 10 ^ 10); [lra|].
  unfold Rdiv. rewrite Rmult_assoc, Rinv_l by lra. lra.
Qed.
Lemma rimB1_nonneg oob rib rc rr rv rvs rvsi T rhod : 0 <= rib -> 0 <= rc -> 0 <= rr ->
  0 <= riming_B_1 oob rib rc rr rv rvs rvsi T rhod.
Proof.
  intros. unfold riming_B_1. apply Rmult_le_pos; [apply frac_range; auto|now apply rimB_nonneg].
Qed.
Lemma rimB2_nonneg oob rib rc rr rv rvs rvsi T rhod : 0 <= rib -> 0 <= rc -> 0 <= rr ->
  0 <= riming_B_2 oob rib rc rr rv rvs rvsi T rhod.
Proof.
  intros. unfold riming_B_2. apply Rmult_le_pos; [|now apply rimB_nonneg].
  pose proof (frac_range rc rr H0 H1). lra.
Qed.
Lemma when_nonneg b x : 0 <= x -> 0 <= when b x.
Proof. destruct b; cbn; lra. Qed.
Lemma cmin_0 a : 0 <= a -> cmin a 0 = 0.
Proof. intros. unfold cmin. destruct (Rltb 0 a) eqn:E; [reflexivity|]. apply Rltb_false in E. lra. Qed.

(** *** column *)
Definition phi (rhod r v : nat -> R) (dz : R) (k : nat) : R :=
  match k with
  | O => - (rhod 0%nat * v 0%nat) * r 0%nat / dz
  | S j => - (1 / 2) * (rhod j * v j + rhod k * v k) * r k / dz
  end.

Lemma col_loop_spec rhod r v dz m : forall s, c_above s = Some m ->
  let s' := col_loop rhod r v dz m s in
  c_above s' = Some 0%nat /\
  c_in s' = (match m with O => c_in s | _ => phi rhod r v dz 1 end) /\
  (forall k, c_dot s' k =
    if (1 <=? k)%nat && (k <=? m)%nat
    then c_dot s k - ((if (k =? m)%nat then c_in s else phi rhod r v dz (S k)) - phi rhod r v dz k) / rhod k
    else c_dot s k).
Proof.
  induction m as [|j IH]; intros s Ha s'.
  - subst s'. cbn. repeat split; auto. intros k. destruct k; reflexivity.
  - subst s'. cbn [col_loop].
    set (s1 := col_body rhod r v dz j s).
    assert (H1 : s1 = {| c_dot := upd (c_dot s) (S j) (c_dot s (S j) - (c_in s - phi rhod r v dz (S j)) / rhod (S j));
                         c_in := phi rhod r v dz (S j); c_above := Some j |}).
    { unfold s1, col_body. rewrite Ha. reflexivity. }
    destruct (IH s1) as (I1 & I2 & I3); [now rewrite H1|].
    split; [exact I1|]. split.
    + rewrite I2. rewrite H1. cbn [c_in]. destruct j; reflexivity.
    + intros k. rewrite I3. rewrite H1. cbn [c_dot c_in].
      destruct (Nat.eq_dec k (S j)) as [->|n].
      * rewrite Nat.eqb_refl, Nat.leb_refl, upd_same.
        replace (S j <=? j)%nat with false by (symmetry; apply Nat.leb_gt; lia).
        rewrite andb_false_r. cbn. reflexivity.
      * rewrite upd_other by auto.
        replace (k =? S j)%nat with false by (symmetry; apply Nat.eqb_neq; auto).
        destruct (Nat.leb_spec 1 k) as [Hk|Hk]; cbn [andb]; [|reflexivity].
        destruct (Nat.leb_spec k j) as [Hkj|Hkj].
        -- replace (k <=? S j)%nat with true by (symmetry; apply Nat.leb_le; lia).
           destruct (Nat.eqb_spec k j) as [->|n2]; reflexivity.
        -- replace (k <=? S j)%nat with false by (symmetry; apply Nat.leb_gt; lia). reflexivity.
Qed.

(** the flux through the lower edge of cell k, zero at the top *)
Definition edge_flux (n : nat) (rhod r v : nat -> R) (dz : R) (k : nat) : R :=
  if (k <? n)%nat then phi rhod r v dz k else 0.

Lemma column_spec n rhod r v dz dot : (1 <= n)%nat ->
  let res := column true n rhod r v dz dot in
  let J := edge_flux n rhod r v dz in
  fst res = J 0%nat /\
  (forall k, snd res k = if (k <? n)%nat then dot k + (J k - J (S k)) / rhod k else dot k).
Proof.
  intros Hn res J. subst res. unfold column. cbn [negb].
  destruct n as [|m]; [lia|]. cbn [col_loop].
  set (s1 := col_body rhod r v dz m _).
  assert (H1 : s1 = {| c_dot := dot; c_in := 0; c_above := Some m |}) by reflexivity.
  destruct (col_loop_spec rhod r v dz m s1) as (I1 & I2 & I3); [now rewrite H1|].
  rewrite I1. cbn [fst snd]. split; [reflexivity|].
  intros k. destruct (Nat.eq_dec k 0) as [->|n].
  - rewrite upd_same. rewrite I3, I2, H1. cbn [c_dot c_in Nat.leb andb].
    change (0 <? S m)%nat with true. cbv iota.
    unfold J, edge_flux. change (0 <? S m)%nat with true. cbv iota.
    destruct m as [|m'].
    + change (1 <? 1)%nat with false. cbv iota. cbn [phi]. lra.
    + change (1 <? S (S m'))%nat with true. cbv iota. cbn [phi]. lra.
  - rewrite upd_other by auto. rewrite I3, H1. cbn [c_dot c_in].
    replace (1 <=? k)%nat with true by (symmetry; apply Nat.leb_le; lia). cbn [andb].
    unfold J, edge_flux.
    destruct (Nat.leb_spec k m) as [Hk|Hk].
    + replace (k <? S m)%nat with true by (symmetry; apply Nat.ltb_lt; lia).
      destruct (Nat.eqb_spec k m) as [->|n2].
      * replace (S m <? S m)%nat with false by (symmetry; apply Nat.ltb_ge; lia). lra.
      * replace (S k <? S m)%nat with true by (symmetry; apply Nat.ltb_lt; lia). lra.
    + replace (k <? S m)%nat with false by (symmetry; apply Nat.ltb_ge; lia). reflexivity.
Qed.

Lemma v_term_nonneg a b c : 0 <= v_term a b c.
Proof.
  unfold v_term. apply Rmult_le_pos; [lra|]. apply Rmult_le_pos; [apply cpow_nonneg|apply sqrt_pos].
Qed.
Lemma IWCS_ge a b : / 1000000000 <= IWCS a b.
Proof. unfold IWCS. apply cmax_ge_l. Qed.
Lemma IWCL_ge a b : / 1000000000 <= IWCL a b.
Proof. unfold IWCL. apply cmax_ge_l. Qed.
Lemma ln10_pos : 0 < ln 10.
Proof. rewrite <- ln_1. apply ln_increasing; lra. Qed.
Lemma velocity_iceA_nonneg a b : 0 <= velocity_iceA a b.
Proof.
  unfold velocity_iceA. cbv zeta. apply Rmult_le_pos; [|apply cpow_nonneg].
  pose proof (IWCS_ge a b) as Hs. pose proof (IWCL_ge a b) as Hl.
  set (s := IWCS a b) in *. set (l := IWCL a b) in *.
  assert (Hd : 0 <= s / (s + l) <= 1).
  { split; [apply Rdiv_nonneg; lra|]. apply Rmult_le_reg_r with (s + l); [lra|].
    unfold Rdiv. rewrite Rmult_assoc, Rinv_l by lra. lra. }
  assert (Hv : 0 <= 9 / 10 + 1 / 10 * log10 (1000 * l)).
  { unfold log10. pose proof ln10_pos.
    assert (- 6 * ln 10 <= ln (1000 * l)).
    { replace (-6 * ln 10) with (ln (/ 10 ^ 6)).
      - assert (/ 10 ^ 6 <= 1000 * l) by lra.
        destruct H0 as [H0|H0]; [left; apply ln_increasing; [apply Rinv_0_lt_compat; lra|exact H0]|right; now rewrite H0].
      - rewrite ln_Rinv by (apply pow_lt; lra). rewrite ln_pow by lra. cbn [INR]. lra. }
    assert (-6 <= ln (1000 * l) / ln 10).
    { apply Rmult_le_reg_r with (ln 10); [auto|]. unfold Rdiv. rewrite Rmult_assoc, Rinv_l by lra. lra. }
    lra. }
  apply Rplus_le_le_0_compat; apply Rmult_le_pos; lra.
Qed.
Lemma velocity_iceB_nonneg a b : 0 <= velocity_iceB a b.
Proof.
  unfold velocity_iceB. apply Rmult_le_pos; [|apply cpow_nonneg]. apply Rmult_le_pos; [lra|apply cpow_nonneg].
Qed.

Lemma edge_flux_nonpos n rhod r v dz k : 0 < dz ->
  (forall i, (i < n)%nat -> 0 < rhod i) -> (forall i, (i < n)%nat -> 0 <= r i) ->
  (forall i, 0 <= v i) -> edge_flux n rhod r v dz k <= 0.
Proof.
  intros Hdz Hr Hq Hv. unfold edge_flux. destruct (Nat.ltb_spec k n) as [H|H]; [|lra].
  assert (forall x y, 0 <= x -> 0 <= y -> - x * y / dz <= 0).
  { intros x y Hx Hy. replace (- x * y / dz) with (- (x * y / dz)) by (unfold Rdiv; ring).
    assert (0 <= x * y / dz) by (apply Rdiv_nonneg; [now apply Rmult_le_pos|auto]). lra. }
  destruct k as [|j]; cbn [phi].
  - apply H0; [|now apply Hq]. apply Rmult_le_pos; [left; now apply Hr|apply Hv].
  - rewrite Ropp_mult_distr_l_reverse. apply H0; [|now apply Hq].
    apply Rmult_le_pos; [lra|].
    apply Rplus_le_le_0_compat; apply Rmult_le_pos; try apply Hv; left; apply Hr; lia.
Qed.
