(** * C88: water in whole runs of the kinematic model with single-moment bulk microphysics *)
From Coq Require Import List Arith ZArith Reals Bool Lia Lra.
From Verif Require Import Base BaseProofs ThermoModel ThermoProofs Blk1mModel Blk1mProofs Blk1mProps Kin1mModel.
From Verif Require KinModel KinDrive.
Import ListNotations.
Local Open Scope R_scope.

(** ** Specification *)
Section Spec.
Variable P : run_params.
Definition inside (i j : nat) : Prop := (i < p_nx P)%nat /\ (j < p_nz P)%nat.
(** mass of something in the domain; [wt] are any weights of the columns (the two edge columns are the same place) *)
Definition mass (wt : nat -> R) (q : cell -> R) (g : grid) : R :=
  sumR (p_nx P) (fun i => wt i * sumR (p_nz P) (fun j => rhod (g i j) * q (g i j))).
Definition water (c : cell) : R := rv c + rc c + rr c.
(** what is asked of advection: it leaves the density alone and only moves water *)
Definition carries (wt : nat -> R) (advect : grid -> grid) : Prop := forall g,
  (forall i j, inside i j -> rhod (advect g i j) = rhod (g i j)) /\ mass wt water (advect g) = mass wt water g.
(** saturation adjustment of a cell: water is only converted, rain only evaporates, amounts do not get negative; nothing happens if it is off *)
Definition adjusted (c c' : cell) : Prop :=
  rhod c' = rhod c /\ water c' = water c /\ (0 <= rc c -> 0 <= rc c') /\ (0 <= rr c -> 0 <= rr c') /\ rr c' <= rr c /\
  (o_revp (p_opts P) = false -> rr c' = rr c) /\ (o_cond (p_opts P) = false -> c' = c).
(** rain reaching the ground per unit time, if rain falls *)
Definition fall_speed (c : cell) : R := if Rlt_dec 0 (rhod c * rr c) then 3634 / 100 * Rpower (rhod c * rr c / 1000) (1346 / 10000) else 0.
Definition rain_at_ground (wt : nat -> R) (g : grid) : R :=
  if o_sedi (p_opts P) then sumR (p_nx P) (fun i => wt i * (rhod (g i 0%nat) * fall_speed (g i 0%nat) * rr (g i 0%nat) / p_dz P)) else 0.
(** relaxation of vapour per unit time towards [eq], weaker aloft *)
Definition relaxation (wt : nat -> R) (eq : nat -> R) (g : grid) : R :=
  mass wt (fun c => 1) (fun i j => {| rhod := rhod (g i j) * ((eq j - rv (g i j)) / (p_tau P * exp (INR j * p_dz P / p_z_rlx P)));
     pres := 0; th := 0; rv := 0; rc := 0; rr := 0; ria := 0; rib := 0 |}).
(** rain forms and vapour is relaxed in the k-th step (from 0) *)
Definition rainy (k : nat) : bool := o_conv (p_opts P) && (p_spinup P <=? Z.of_nat k)%Z.
Definition relaxes (k : nat) : bool := p_relax P && rainy k.
End Spec.

(** ** lists and grids *)
Lemma flat_length {A} nx nz (g : nat -> nat -> A) : length (flat nx nz g) = (nx * nz)%nat.
Proof. unfold flat. rewrite map_length, seq_length. reflexivity. Qed.
Lemma flat_index nx nz i j : (i < nx)%nat -> (j < nz)%nat -> (i * nz + j < nx * nz)%nat /\ ((i * nz + j) / nz = i)%nat /\ ((i * nz + j) mod nz = j)%nat.
Proof.
  intros Hi Hj. split; [nia|]. split.
  - rewrite Nat.div_add_l by lia. rewrite Nat.div_small by lia. lia.
  - rewrite Nat.add_comm, Nat.mod_add by lia. apply Nat.mod_small. lia.
Qed.
Lemma nth_flat {A} nx nz (g : nat -> nat -> A) i j d : (i < nx)%nat -> (j < nz)%nat -> nth (i * nz + j) (flat nx nz g) d = g i j.
Proof.
  intros Hi Hj. destruct (flat_index nx nz i j Hi Hj) as (H1 & H2 & H3). unfold flat.
  rewrite (nth_indep _ d (g (0 / nz)%nat (0 mod nz)%nat)) by (rewrite map_length, seq_length; exact H1).
  rewrite (map_nth (fun k => g (k / nz)%nat (k mod nz)%nat)), seq_nth by exact H1. cbn [plus]. rewrite H2, H3. reflexivity.
Qed.
Lemma Forall2_nth_ {A} (Q : A -> A -> Prop) l l' d k : Forall2 Q l l' -> (k < length l)%nat -> Q (nth k l d) (nth k l' d).
Proof.
  intros H. revert k. induction H; intros [|k] Hk; cbn in *; try lia; auto. apply IHForall2. lia.
Qed.
Lemma unflat_rel {A} nx nz (Q : A -> A -> Prop) g l : Forall2 Q (flat nx nz g) l -> forall i j, (i < nx)%nat -> (j < nz)%nat -> Q (g i j) (unflat nx nz l g i j).
Proof.
  intros H i j Hi Hj. unfold unflat. rewrite (proj2 (Nat.ltb_lt i nx) Hi), (proj2 (Nat.ltb_lt j nz) Hj). cbn [andb].
  rewrite <- (nth_flat nx nz g i j (g i j) Hi Hj) at 1. apply Forall2_nth_; [exact H|]. rewrite flat_length. apply flat_index; assumption.
Qed.

(** ** one adjustment *)
Lemma condevap_spec fuel P o g g' : 0 < o_r_eps o -> o_adj_nwtrph o = false -> o_cond o = o_cond (p_opts P) -> o_revp o = o_revp (p_opts P) -> condevap fuel P o g = Some g' ->
  forall i j, inside P i j -> adjusted P (g i j) (g' i j).
Proof.
  intros He Hn Hco Hre H i j (Hi & Hj). unfold condevap, adj_cellwise in H. rewrite Hn in H.
  destruct (adj_cellwise_rk4 fuel o (p_dt P) (flat (p_nx P) (p_nz P) g)) as [l|l|] eqn:E; try discriminate. injection H as <-.
  apply (unflat_rel (p_nx P) (p_nz P) (adjusted P)); [|exact Hi|exact Hj].
  destruct (C28_rk4 fuel o (p_dt P) (flat (p_nx P) (p_nz P) g) He) as (C1 & _ & C3).
  destruct (o_cond o) eqn:Ec.
  - eapply Forall2_weaken; [|exact (C3 l eq_refl E)]. intros c c' ((R1 & _) & W & S1 & S2 & S3 & S4 & _). unfold adjusted, water. rewrite <- Hre, <- Hco. repeat split; auto. intros X; congruence.
  - rewrite (C1 eq_refl) in E. injection E as <-. clear. induction (flat (p_nx P) (p_nz P) g); constructor; [|assumption].
    unfold adjusted. repeat split; auto; lra.
Qed.

(** ** tendencies *)
Definition speed_at (g : grid) (i k : nat) : R := v_term (rr (g i k)) (rhod (g i k)) (rhod (g i 0%nat)).
(** flux through the lower face of level k, positive downwards *)
Definition falling (P : run_params) (o : opts) (g : grid) (i k : nat) : R :=
  if o_sedi o then - edge_flux (p_nz P) (fun k => rhod (g i k)) (fun k => rr (g i k)) (speed_at g i) (p_dz P) k else 0.
Lemma update_rhs_spec P o rlx th_eq rv_eq g i j : (1 <= p_nz P)%nat -> inside P i j ->
  let d := update_rhs P o rlx th_eq rv_eq g i j in let d0 := common_rhs P rlx th_eq rv_eq g i j in
  drv d = drv d0 /\ dth d = dth d0 /\ drc d = - cloud_to_rain o (g i j) /\
  drr d = cloud_to_rain o (g i j) + (falling P o g i (S j) - falling P o g i j) / rhod (g i j).
Proof.
  intros Hz (Hi & Hj). cbv zeta. set (d0 := common_rhs P rlx th_eq rv_eq g).
  destruct (C29_warm_rain o (flat (p_nx P) (p_nz P) (fun i j => (g i j, d0 i j)))) as (l & E & F).
  assert (H1 : forall k, (k < p_nz P)%nat -> let x := unflat (p_nx P) (p_nz P) l (fun i j => (g i j, d0 i j)) i k in
     warm_rain o (g i k) (d0 i k) (snd x)).
  { intros k Hk. pose proof (unflat_rel _ _ _ _ _ F i k Hi Hk) as (_ & Hw & _). exact Hw. }
  unfold update_rhs. fold d0. rewrite E. rewrite (proj2 (Nat.ltb_lt i (p_nx P)) Hi). cbv beta iota zeta.
  set (d1 := fun i j => snd (unflat (p_nx P) (p_nz P) l (fun i j => (g i j, d0 i j)) i j)).
  assert (Hz0 : drc (d0 i j) = 0 /\ drr (d0 i j) = 0) by (unfold d0, common_rhs; destruct rlx; split; reflexivity).
  destruct Hz0 as (Z1 & Z2).
  destruct (H1 j Hj) as (W1 & W2 & W3 & W4 & _ & _). change (snd (unflat (p_nx P) (p_nz P) l (fun i0 j0 => (g i0 j0, d0 i0 j0)) i j)) with (d1 i j) in *. cbn [set_drr drv dth drc drr].
  change (fun k : nat => drr (snd (unflat (p_nx P) (p_nz P) l (fun i0 j0 => (g i0 j0, d0 i0 j0)) i k))) with (fun k => drr (d1 i k)).
  split; [exact W4|]. split; [exact W3|]. split; [rewrite W2, Z1; lra|].
  unfold rhs_columnwise, falling. destruct (o_sedi o).
  - destruct (column_spec (p_nz P) (fun k => rhod (g i k)) (fun k => rr (g i k)) (speed_at g i) (p_dz P) (fun k => drr (d1 i k)) Hz) as (_ & C).
    specialize (C j). cbv zeta in C. rewrite (proj2 (Nat.ltb_lt j (p_nz P)) Hj) in C.
    etransitivity; [exact C|]. rewrite W1, Z2. unfold Rdiv. ring.
  - unfold column. cbn [negb snd]. rewrite W1, Z2. unfold Rdiv. ring.
Qed.

(** ** mass *)
Lemma mass_ext P wt q q' g g' : (forall i j, inside P i j -> rhod (g i j) * q (g i j) = rhod (g' i j) * q' (g' i j)) -> mass P wt q g = mass P wt q' g'.
Proof.
  intros H. unfold mass. apply sumR_ext. intros i Hi. f_equal. apply sumR_ext. intros j Hj. apply H. split; assumption.
Qed.
Lemma falling_ground P o g i : (1 <= p_nz P)%nat -> 0 < rhod (g i 0%nat) -> falling P o g i 0 = if o_sedi o then rhod (g i 0%nat) * fall_speed (g i 0%nat) * rr (g i 0%nat) / p_dz P else 0.
Proof.
  intros Hz Hr. unfold falling. destruct (o_sedi o); [|reflexivity]. unfold edge_flux. rewrite (proj2 (Nat.ltb_lt 0 (p_nz P))) by lia. cbn [phi].
  assert (E : speed_at g i 0 = fall_speed (g i 0%nat)).
  { unfold speed_at, v_term, fall_speed, cpow. replace (rhod (g i 0%nat) / rhod (g i 0%nat)) with 1 by (field; lra). rewrite sqrt_1.
    destruct (Rlt_dec 0 (rhod (g i 0%nat) * rr (g i 0%nat) * (1 / 1000))), (Rlt_dec 0 (rhod (g i 0%nat) * rr (g i 0%nat))); try lra.
    - replace (rhod (g i 0%nat) * rr (g i 0%nat) * (1 / 1000)) with (rhod (g i 0%nat) * rr (g i 0%nat) / 1000) by lra. lra.
    - destruct (Req_EM_T (1346 / 10000) 0); lra. }
  rewrite E. unfold Rdiv. ring.
Qed.
Lemma falling_top P o g i : falling P o g i (p_nz P) = 0.
Proof. unfold falling, edge_flux. rewrite Nat.ltb_irrefl. destruct (o_sedi o); lra. Qed.

Lemma apply_water P o rlx th_eq rv_eq g wt : (1 <= p_nz P)%nat -> (forall i j, inside P i j -> 0 < rhod (g i j)) ->
  mass P wt water (apply_rhs (p_dt P) (update_rhs P o rlx th_eq rv_eq g) g) =
  mass P wt water g + p_dt P * ((if rlx then relaxation P wt rv_eq g else 0) -
    (if o_sedi o then sumR (p_nx P) (fun i => wt i * (rhod (g i 0%nat) * fall_speed (g i 0%nat) * rr (g i 0%nat) / p_dz P)) else 0)).
Proof.
  intros Hz Hr. set (g' := apply_rhs _ _ g).
  assert (A : forall i, (i < p_nx P)%nat ->
    sumR (p_nz P) (fun j => rhod (g' i j) * water (g' i j)) = sumR (p_nz P) (fun j => rhod (g i j) * water (g i j)) +
      p_dt P * (sumR (p_nz P) (fun j => rhod (g i j) * drv (common_rhs P rlx th_eq rv_eq g i j)) - falling P o g i 0)).
  { intros i Hi.
    rewrite (sumR_ext _ _ (fun j => rhod (g i j) * water (g i j) + p_dt P * (rhod (g i j) * drv (common_rhs P rlx th_eq rv_eq g i j) + (falling P o g i (S j) - falling P o g i j)))).
    - rewrite (sumR_plus (p_nz P) (fun j => rhod (g i j) * water (g i j))), (sumR_scal _ (p_dt P)). f_equal. f_equal.
      rewrite (sumR_plus (p_nz P) (fun j => rhod (g i j) * drv (common_rhs P rlx th_eq rv_eq g i j))), sumR_telescope, falling_top. lra.
    - intros j Hj. destruct (update_rhs_spec P o rlx th_eq rv_eq g i j Hz (conj Hi Hj)) as (U1 & _ & U3 & U4).
      unfold g', apply_rhs, water. cbn [rhod rv rc rr]. rewrite U1, U3, U4. specialize (Hr i j (conj Hi Hj)). field. lra. }
  unfold mass. rewrite (sumR_ext _ _ (fun i => wt i * sumR (p_nz P) (fun j => rhod (g i j) * water (g i j)) +
     p_dt P * (wt i * sumR (p_nz P) (fun j => rhod (g i j) * drv (common_rhs P rlx th_eq rv_eq g i j)) + (Ropp 1) * (wt i * falling P o g i 0)))).
  2:{ intros i Hi. rewrite (A i Hi). ring. }
  rewrite (sumR_plus (p_nx P) (fun i => wt i * sumR (p_nz P) (fun j => rhod (g i j) * water (g i j)))), (sumR_scal _ (p_dt P)). f_equal. f_equal.
  rewrite (sumR_plus (p_nx P) (fun i => wt i * sumR (p_nz P) (fun j => rhod (g i j) * drv (common_rhs P rlx th_eq rv_eq g i j)))), (sumR_scal _ (Ropp 1)).
  assert (B1 : sumR (p_nx P) (fun i => wt i * sumR (p_nz P) (fun j => rhod (g i j) * drv (common_rhs P rlx th_eq rv_eq g i j))) = if rlx then relaxation P wt rv_eq g else 0).
  { destruct rlx.
    - unfold relaxation, mass. apply sumR_ext. intros i Hi. f_equal. apply sumR_ext. intros j Hj. cbn [rhod]. unfold common_rhs, KinModel.relax_rhs. cbn [drv]. ring.
    - apply sumR_0. intros i Hi. rewrite (sumR_0 (p_nz P)); [lra|]. intros j Hj. unfold common_rhs, no_rhs. cbn [drv]. lra. }
  assert (B2 : sumR (p_nx P) (fun i => wt i * falling P o g i 0) =
     if o_sedi o then sumR (p_nx P) (fun i => wt i * (rhod (g i 0%nat) * fall_speed (g i 0%nat) * rr (g i 0%nat) / p_dz P)) else 0).
  { destruct (o_sedi o) eqn:Es.
    - apply sumR_ext. intros i Hi. rewrite falling_ground, Es; auto. apply Hr. split; [exact Hi|lia].
    - apply sumR_0. intros i Hi. rewrite falling_ground, Es; auto; [lra|]. apply Hr. split; [exact Hi|lia]. }
  rewrite B1, B2. lra.
Qed.

(** ** runs *)
Section Run.
Variables (fuel : nat) (P : run_params) (advect : nat -> grid -> grid).
Variables (junk : nat -> R) (rhod0 th0 rv0 : nat -> nat -> R) (rc0 rr0 : option (nat -> nat -> R)) (w0 : world).
Hypothesis Hspin : (0 <= p_spinup P)%Z.
Hypothesis Hstart : start_run fuel P junk rhod0 th0 rv0 rc0 rr0 = Some w0.
Let s0 := KinModel.hook_ante_loop (KinModel.fresh (KinModel.Blk1m (o_conv (p_opts P))) (p_spinup P) (p_relax P)).
Lemma start_solver : w_s w0 = s0.
Proof. unfold start_run in Hstart. destruct (condevap _ _ _ _); [|discriminate]. injection Hstart as <-. reflexivity. Qed.
Lemma run_solver n w : steps fuel P advect n w0 = Some w -> KinModel.hook_ante_step (Z.of_nat n) (w_s w) = KinModel.solver_at s0 n.
Proof.
  revert w. induction n as [|n IH]; intros w H; cbn [steps] in H.
  - injection H as <-. rewrite start_solver. reflexivity.
  - destruct (steps fuel P advect n w0) as [v|] eqn:E; [|discriminate]. unfold step in H. destruct (condevap _ _ _ _); [|discriminate]. injection H as <-.
    cbn [w_s KinModel.solver_at]. rewrite (IH v eq_refl). reflexivity.
Qed.
Lemma solver_rain n : get_conv (KinModel.solver_at s0 n) = rainy P n /\ KinModel.relaxing (KinModel.solver_at s0 n) = relaxes P n.
Proof.
  destruct (KinDrive.C85_spinup (KinModel.Blk1m (o_conv (p_opts P))) (p_spinup P) (p_relax P) n Hspin) as (A & B). fold s0 in A, B. cbn [KinModel.get_rain] in A, B.
  unfold get_conv, relaxes, rainy. destruct (o_conv (p_opts P)); cbn [andb].
  - destruct (B eq_refl) as (_ & B2 & B3 & _). rewrite B2, B3. auto.
  - destruct (A eq_refl) as (A1 & A2). rewrite A1, A2, andb_false_r. auto.
Qed.
Lemma solver_now n w : steps fuel P advect n w0 = Some w ->
  KinModel.relax (w_s w) = (p_relax P && o_conv (p_opts P)) /\ KinModel.spinup (w_s w) = if o_conv (p_opts P) then p_spinup P else 0%Z.
Proof.
  assert (S : KinModel.relax s0 = (p_relax P && o_conv (p_opts P)) /\ KinModel.spinup s0 = if o_conv (p_opts P) then p_spinup P else 0%Z).
  { unfold s0, KinModel.hook_ante_loop, KinModel.fresh. cbn [KinModel.opts KinModel.relax KinModel.spinup KinModel.get_rain].
    destruct (o_conv (p_opts P)); cbn [negb]; rewrite ?andb_true_r, ?andb_false_r; auto. }
  destruct n as [|n]; cbn [steps]; intros H.
  - injection H as <-. rewrite start_solver. exact S.
  - destruct (steps fuel P advect n w0) as [v|] eqn:E; [|discriminate]. unfold step in H. destruct (condevap _ _ _ _); [|discriminate]. injection H as <-.
    cbn [w_s]. rewrite (run_solver n v E). destruct (KinDrive.solver_fields s0 n) as (_ & F2 & F3). rewrite F2, F3. exact S.
Qed.
(** the targets of the relaxation: the level means when the spin-up ended *)
Lemma run_target n w : steps fuel P advect (S n) w0 = Some w -> relaxes P n = true ->
  exists v, steps fuel P advect (Z.to_nat (p_spinup P)) w0 = Some v /\ w_rv_eq w = level_mean P rv (w_g v) /\ w_th_eq w = level_mean P th (w_g v).
Proof.
  revert w. induction n as [|n IH]; intros w H HR; cbn [steps] in H.
  - unfold relaxes, rainy in HR. apply andb_true_iff in HR. destruct HR as (R1 & HR). apply andb_true_iff in HR. destruct HR as (R2 & R3). apply Z.leb_le in R3.
    assert (E0 : p_spinup P = 0%Z) by lia.
    destruct (solver_now 0 w0 eq_refl) as (N1 & N2). unfold step in H. rewrite N1, N2, R1, R2, E0 in H. cbn in H.
    destruct (condevap _ _ _ _); [|discriminate]. injection H as <-. exists w0. rewrite E0. cbn [Z.to_nat steps w_rv_eq w_th_eq]. auto.
  - change (steps fuel P advect (S n) w0) with (steps fuel P advect (S n) w0) in H.
    destruct (match steps fuel P advect n w0 with Some w' => step fuel P (advect n) n w' | None => None end) as [v|] eqn:E; [|discriminate].
    destruct (solver_now (S n) v E) as (N1 & N2). unfold relaxes, rainy in HR. apply andb_true_iff in HR. destruct HR as (R1 & HR). apply andb_true_iff in HR. destruct HR as (R2 & R3). apply Z.leb_le in R3.
    unfold step in H. rewrite N1, N2, R1, R2 in H. cbn [andb] in H. destruct (condevap _ _ _ _); [|discriminate]. injection H as <-. cbn [w_rv_eq w_th_eq].
    change (Z.pos (Pos.of_succ_nat n)) with (Z.of_nat (S n)).
    destruct (Z.eqb_spec (p_spinup P) (Z.of_nat (S n))) as [E1|E1].
    + exists v. rewrite E1, Nat2Z.id. split; [exact E|]. split; reflexivity.
    + apply (IH v E). unfold relaxes, rainy. rewrite R1, R2. cbn [andb]. apply Z.leb_le. lia.
Qed.
(** one step of a run *)
Lemma run_step n w w' : 0 < o_r_eps (p_opts P) -> steps fuel P advect n w0 = Some w -> steps fuel P advect (S n) w0 = Some w' ->
  exists g, (forall i j, inside P i j -> adjusted P (advect n (w_g w) i j) (g i j)) /\
    w_g w' = apply_rhs (p_dt P) (update_rhs P (with_conv (driver_opts (p_opts P)) (rainy P n)) (relaxes P n) (w_th_eq w') (w_rv_eq w') g) g.
Proof.
  intros He H H'. cbn [steps] in H'. rewrite H in H'. unfold step in H'. rewrite (run_solver n w H) in H'. destruct (solver_rain n) as (S1 & S2). rewrite S1, S2 in H'.
  set (o := with_conv (driver_opts (p_opts P)) (rainy P n)) in *. destruct (condevap fuel P o (advect n (w_g w))) as [g|] eqn:E; [|discriminate].
  injection H' as <-. exists g. cbn [w_g w_th_eq w_rv_eq]. split; [|reflexivity].
  apply (condevap_spec fuel P o); auto.
Qed.
End Run.

(** the fields a run starts from: cloud water and rain that are not given are zero *)
Definition given (f : option (nat -> nat -> R)) (i j : nat) : R := match f with Some f => f i j | None => 0 end.
Definition initial_water (P : run_params) (wt : nat -> R) (rhod0 rv0 : nat -> nat -> R) (rc0 rr0 : option (nat -> nat -> R)) : R :=
  sumR (p_nx P) (fun i => wt i * sumR (p_nz P) (fun j => rhod0 i j * (rv0 i j + given rc0 i j + given rr0 i j))).
Lemma start_cells fuel P junk rhod0 th0 rv0 rc0 rr0 w0 : 0 < o_r_eps (p_opts P) -> start_run fuel P junk rhod0 th0 rv0 rc0 rr0 = Some w0 ->
  forall i j, inside P i j -> exists c, rhod c = rhod0 i j /\ th c = th0 i j /\ rv c = rv0 i j /\ rc c = given rc0 i j /\ rr c = given rr0 i j /\ adjusted P c (w_g w0 i j).
Proof.
  intros He H i j Hij. unfold start_run in H. destruct (condevap _ _ _ _) as [g|] eqn:E; [|discriminate]. injection H as <-. cbn [w_g].
  eexists. refine (conj _ (conj _ (conj _ (conj _ (conj _ (condevap_spec fuel P (driver_opts (p_opts P)) _ g _ _ eq_refl eq_refl E i j Hij))))));
    cbn [rhod th rv rc rr]; try reflexivity; [destruct rc0; reflexivity|destruct rr0; reflexivity|exact He].
Qed.
Lemma adjusted_mass P wt g g' : (forall i j, inside P i j -> adjusted P (g i j) (g' i j)) -> mass P wt water g' = mass P wt water g.
Proof. intros H. apply mass_ext. intros i j Hij. destruct (H i j Hij) as (H1 & H2 & _). rewrite H1, H2. reflexivity. Qed.

(** C88.  Whatever the advection does, as long as it only moves water: after any number of steps the water in the domain is what there was,
    plus what relaxation added, minus the rain that reached the ground in each step; the states [mid k] from which these are computed are the
    advected ones after saturation adjustment.  Relaxation acts after the spin-up only, towards the level means at its end. *)
Theorem C88_water fuel P wt junk rhod0 th0 rv0 rc0 rr0 advect n w0 wn :
  (1 <= p_nz P)%nat -> 0 < o_r_eps (p_opts P) -> (0 <= p_spinup P)%Z -> (forall i j, inside P i j -> 0 < rhod0 i j) ->
  (forall k, (k < n)%nat -> carries P wt (advect k)) ->
  start_run fuel P junk rhod0 th0 rv0 rc0 rr0 = Some w0 -> steps fuel P advect n w0 = Some wn ->
  (forall i j, inside P i j -> rhod (w_g wn i j) = rhod0 i j) /\
  exists (mid : nat -> grid) (target : nat -> R),
    (forall k, (k < n)%nat -> exists wk, steps fuel P advect k w0 = Some wk /\ forall i j, inside P i j -> adjusted P (advect k (w_g wk) i j) (mid k i j)) /\
    (forall k, (k < n)%nat -> relaxes P k = true -> exists ws, steps fuel P advect (Z.to_nat (p_spinup P)) w0 = Some ws /\
       forall j, target j = sumR (p_nx P) (fun i => rv (w_g ws i j)) / INR (p_nx P)) /\
    mass P wt water (w_g wn) = initial_water P wt rhod0 rv0 rc0 rr0 +
      p_dt P * sumR n (fun k => (if relaxes P k then relaxation P wt target (mid k) else 0) - rain_at_ground P wt (mid k)).
Proof.
  intros Hz He Hs Hr Hc H0. revert wn. induction n as [|n IH]; intros wn Hn.
  - cbn [steps] in Hn. injection Hn as <-. pose proof (start_cells _ _ _ _ _ _ _ _ _ He H0) as SC. split.
    + intros i j Hij. destruct (SC i j Hij) as (c & C1 & _ & _ & _ & _ & A & _). congruence.
    + exists (fun _ => w_g w0), (fun _ => 0). split; [intros; lia|]. split; [intros; lia|]. cbn [sumR]. rewrite Rmult_0_r, Rplus_0_r.
      unfold mass, initial_water. apply sumR_ext. intros i Hi. f_equal. apply sumR_ext. intros j Hj.
      destruct (SC i j (conj Hi Hj)) as (c & C1 & _ & C3 & C4 & C5 & A1 & A2 & _). rewrite A1, A2. unfold water. rewrite C1, C3, C4, C5. reflexivity.
  - pose proof Hn as Hn'. cbn [steps] in Hn'. destruct (steps fuel P advect n w0) as [w|] eqn:E; [|discriminate]. clear Hn'.
    destruct (IH (fun k Hk => Hc k ltac:(lia)) w eq_refl) as (I1 & mid & tg & I2 & I3 & I4).
    destruct (run_step fuel P advect junk rhod0 th0 rv0 rc0 rr0 w0 Hs H0 n w wn He E Hn) as (g & G1 & G2).
    destruct (Hc n ltac:(lia) (w_g w)) as (K1 & K2).
    assert (Hg : forall i j, inside P i j -> rhod (g i j) = rhod0 i j).
    { intros i j Hij. destruct (G1 i j Hij) as (A & _). rewrite A, (K1 i j Hij). apply I1, Hij. }
    split.
    { intros i j Hij. rewrite G2. cbn [apply_rhs rhod]. apply Hg, Hij. }
    set (tg' := if relaxes P n then w_rv_eq wn else tg).
    assert (T : forall k, (k < S n)%nat -> relaxes P k = true -> exists ws, steps fuel P advect (Z.to_nat (p_spinup P)) w0 = Some ws /\
       forall j, tg' j = sumR (p_nx P) (fun i => rv (w_g ws i j)) / INR (p_nx P)).
    { intros k Hk Rk. assert (Rn : relaxes P n = true).
      { unfold relaxes, rainy in *. apply andb_true_iff in Rk. destruct Rk as (-> & Rk). apply andb_true_iff in Rk. destruct Rk as (-> & Rk). cbn [andb]. apply Z.leb_le in Rk. apply Z.leb_le. lia. }
      unfold tg'. rewrite Rn. destruct (run_target fuel P advect junk rhod0 th0 rv0 rc0 rr0 w0 Hs H0 n wn Hn Rn) as (v & V1 & V2 & _).
      exists v. split; [exact V1|]. intros j. rewrite V2. reflexivity. }
    assert (ET : forall k, (k < n)%nat -> relaxes P k = true -> forall j, tg' j = tg j).
    { intros k Hk Rk j. destruct (I3 k Hk Rk) as (v & V1 & V2). destruct (T k ltac:(lia) Rk) as (v' & V1' & V2'). rewrite V1 in V1'. injection V1' as <-. rewrite V2', V2. reflexivity. }
    exists (fun k => if (k =? n)%nat then g else mid k), tg'. split; [|split; [exact T|]].
    { intros k Hk. destruct (Nat.eqb_spec k n) as [->|N]; [exists w; auto|apply I2; lia]. }
    rewrite G2, apply_water; [|exact Hz|intros i j Hij; rewrite (Hg i j Hij); apply Hr, Hij].
    rewrite (adjusted_mass P wt (advect n (w_g w)) g G1), K2, I4. cbn [sumR]. rewrite Nat.eqb_refl.
    assert (SS : sumR n (fun k => (if relaxes P k then relaxation P wt tg (mid k) else 0) - rain_at_ground P wt (mid k)) =
      sumR n (fun k => (if relaxes P k then relaxation P wt tg' (if (k =? n)%nat then g else mid k) else 0) - rain_at_ground P wt (if (k =? n)%nat then g else mid k))).
    { apply sumR_ext. intros k Hk. rewrite (proj2 (Nat.eqb_neq k n)) by lia. f_equal. destruct (relaxes P k) eqn:Rk; [|reflexivity].
        unfold relaxation, mass. apply sumR_ext. intros i Hi. f_equal. apply sumR_ext. intros j Hj. cbn [rhod]. rewrite (ET k Hk Rk j). reflexivity. }
    match goal with |- context [if o_sedi ?o then ?x else 0] => change (if o_sedi o then x else 0) with (rain_at_ground P wt g) end.
    assert (Q : (if relaxes P n then relaxation P wt (w_rv_eq wn) g else 0) = (if relaxes P n then relaxation P wt tg' g else 0)).
    { unfold tg'. destruct (relaxes P n); reflexivity. }
    rewrite Q, SS. rewrite (Rplus_assoc (initial_water P wt rhod0 rv0 rc0 rr0)), <- Rmult_plus_distr_l. reflexivity.
Qed.

(** During the spin-up, or without autoconversion, no rain forms where there was none, and the water in the domain does not change at all. *)
Theorem C88_spinup fuel P wt junk rhod0 th0 rv0 rc0 rr0 advect n w0 wn :
  (1 <= p_nz P)%nat -> 0 < o_r_eps (p_opts P) -> (0 <= p_spinup P)%Z -> (forall i j, inside P i j -> 0 < rhod0 i j) ->
  (forall k, (k < n)%nat -> carries P wt (advect k) /\
     forall g, (forall i j, inside P i j -> rr (g i j) = 0) -> forall i j, inside P i j -> rr (advect k g i j) = 0) ->
  (forall i j, inside P i j -> given rr0 i j = 0) ->
  (Z.of_nat n <= p_spinup P)%Z \/ o_conv (p_opts P) = false ->
  start_run fuel P junk rhod0 th0 rv0 rc0 rr0 = Some w0 -> steps fuel P advect n w0 = Some wn ->
  (forall i j, inside P i j -> rr (w_g wn i j) = 0) /\ mass P wt water (w_g wn) = initial_water P wt rhod0 rv0 rc0 rr0.
Proof.
  intros Hz He Hs Hr Hc Hrr Hn H0 H1.
  assert (Hdry : forall k, (k < n)%nat -> rainy P k = false).
  { intros k Hk. unfold rainy. destruct Hn as [Hn|Hn]; [|rewrite Hn; reflexivity]. rewrite (proj2 (Z.leb_gt _ _)) by lia. apply andb_false_r. }
  assert (A : forall m w, (m <= n)%nat -> steps fuel P advect m w0 = Some w -> forall i j, inside P i j -> rr (w_g w i j) = 0).
  { induction m as [|m IH]; intros w Hm Hw.
    - cbn [steps] in Hw. injection Hw as <-. intros i j Hij. destruct (start_cells _ _ _ _ _ _ _ _ _ He H0 i j Hij) as (c & _ & _ & _ & _ & C5 & _ & _ & _ & S2 & S3 & _).
      rewrite (Hrr i j Hij) in C5. rewrite C5 in *. apply Rle_antisym; [exact S3|apply S2; lra].
    - pose proof Hw as Hw'. cbn [steps] in Hw'. destruct (steps fuel P advect m w0) as [v|] eqn:E; [|discriminate]. clear Hw'.
      destruct (run_step fuel P advect junk rhod0 th0 rv0 rc0 rr0 w0 Hs H0 m v w He E Hw) as (g & G1 & G2).
      assert (Gz : forall i j, inside P i j -> rr (g i j) = 0).
      { intros i j Hij. destruct (G1 i j Hij) as (_ & _ & _ & S2 & S3 & _). rewrite (proj2 (Hc m ltac:(lia)) (w_g v) (IH v ltac:(lia) eq_refl) i j Hij) in *.
        apply Rle_antisym; [exact S3|apply S2; lra]. }
      intros i j Hij. rewrite G2. set (o := with_conv _ _) in *.
      destruct (update_rhs_spec P o (relaxes P m) (w_th_eq w) (w_rv_eq w) g i j Hz Hij) as (_ & _ & _ & U4).
      cbn [apply_rhs rr]. rewrite U4, (Gz i j Hij).
      assert (B1 : cloud_to_rain o (g i j) = 0).
      { unfold cloud_to_rain. change (o_conv o) with (rainy P m). rewrite (Hdry m ltac:(lia)), (Gz i j Hij). destruct (Rlt_dec 0 0); [lra|]. destruct (o_accr o); lra. }
      assert (B2 : forall k, falling P o g i k = 0).
      { intros k. unfold falling. destruct (o_sedi o); [|reflexivity]. unfold edge_flux. destruct (Nat.ltb_spec k (p_nz P)) as [Hk|Hk]; [|lra].
        destruct k as [|k']; cbn [phi]; rewrite (Gz i _ (conj (proj1 Hij) Hk)); unfold Rdiv; ring. }
      rewrite B1, !B2. unfold Rdiv. ring. }
  split; [apply (A n); auto|].
  destruct (C88_water fuel P wt junk rhod0 th0 rv0 rc0 rr0 advect n w0 wn Hz He Hs Hr (fun k Hk => proj1 (Hc k Hk)) H0 H1) as (_ & mid & tg & M1 & _ & M3).
  rewrite M3, sumR_0; [lra|]. intros k Hk.
  unfold relaxes. rewrite (Hdry k Hk), andb_false_r. unfold rain_at_ground. destruct (o_sedi (p_opts P)); [|lra].
  rewrite sumR_0; [lra|]. intros i Hi. destruct (M1 k Hk) as (v & V1 & V2). assert (Hi0 : inside P i 0) by (split; [exact Hi|lia]).
  destruct (V2 i 0%nat Hi0) as (_ & _ & _ & S2 & S3 & _).
  rewrite (proj2 (Hc k Hk) (w_g v) (A k v ltac:(lia) V1) i 0%nat Hi0) in *. assert (E : rr (mid k i 0%nat) = 0) by (apply Rle_antisym; [exact S3|apply S2; lra]).
  rewrite E. unfold Rdiv. ring.
Qed.

(** fall speed of rain at a mixing ratio r, where the density of dry air is d, and d0 in the lowest level of the column *)
Definition fall (r d d0 : R) : R := if Rlt_dec 0 (d * r) then 3634 / 100 * Rpower (d * r / 1000) (1346 / 10000) * sqrt (d0 / d) else 0.
Lemma speed_fall g i k : speed_at g i k = fall (rr (g i k)) (rhod (g i k)) (rhod (g i 0%nat)).
Proof.
  unfold speed_at, v_term, fall, cpow. set (d := rhod (g i k)). set (r := rr (g i k)).
  destruct (Rlt_dec 0 (d * r * (1 / 1000))), (Rlt_dec 0 (d * r)); try lra.
  - replace (d * r * (1 / 1000)) with (d * r / 1000) by lra. ring.
  - destruct (Req_EM_T (1346 / 10000) 0); lra.
Qed.
(** Cloud water and rain stay non-negative if no step is longer than the time in which a cloud could be collected or rain could fall through a level:
    with rain up to [rmax] and fall speeds up to [V]. *)
Theorem C88_signs fuel P junk rhod0 th0 rv0 rc0 rr0 advect n w0 wn rmax V :
  (1 <= p_nz P)%nat -> 0 < o_r_eps (p_opts P) -> (0 <= p_spinup P)%Z -> 0 <= p_dt P -> 0 < p_dz P -> 0 <= o_r_c0 (p_opts P) -> 0 <= o_k_acnv (p_opts P) ->
  (forall i j, inside P i j -> 0 < rhod0 i j) ->
  (* advection leaves the density alone and makes nothing negative *)
  (forall k g, (k < n)%nat -> forall i j, inside P i j -> rhod (advect k g i j) = rhod (g i j)) ->
  (forall k g, (k < n)%nat -> (forall i j, inside P i j -> 0 <= rc (g i j) /\ 0 <= rr (g i j)) ->
     forall i j, inside P i j -> 0 <= rc (advect k g i j) /\ 0 <= rr (advect k g i j)) ->
  (forall i j, inside P i j -> 0 <= given rc0 i j /\ 0 <= given rr0 i j) ->
  start_run fuel P junk rhod0 th0 rv0 rc0 rr0 = Some w0 -> steps fuel P advect n w0 = Some wn ->
  (* rain, speeds and steps *)
  0 < rmax -> (forall k wk, (k < n)%nat -> steps fuel P advect k w0 = Some wk -> forall i j, inside P i j -> rr (advect k (w_g wk) i j) <= rmax) ->
  p_dt P * (o_k_acnv (p_opts P) + 22 / 10 * Rpower rmax (875 / 1000)) <= 1 ->
  (forall i j r, inside P i j -> 0 <= r <= rmax -> fall r (rhod0 i j) (rhod0 i 0%nat) <= V) ->
  p_dt P * V <= p_dz P ->
  (forall i j, inside P i (S j) -> p_dt P * V * (rhod0 i j + rhod0 i (S j)) <= 2 * rhod0 i (S j) * p_dz P) ->
  forall i j, inside P i j -> 0 <= rc (w_g wn i j) /\ 0 <= rr (w_g wn i j).
Proof.
  intros Hz He Hs Hdt Hdz Hr0 Hk Hrho Hadv Hpos Hini H0 H1 Hrm Hrain Hconv HV Hcfl Hcfl'.
  cut (forall m w, (m <= n)%nat -> steps fuel P advect m w0 = Some w -> forall i j, inside P i j -> rhod (w_g w i j) = rhod0 i j /\ 0 <= rc (w_g w i j) /\ 0 <= rr (w_g w i j)).
  { intros A i j Hij. destruct (A n wn (le_n n) H1 i j Hij) as (_ & B). exact B. }
  induction m as [|m IH]; intros w Hm Hw.
  - cbn [steps] in Hw. injection Hw as <-. intros i j Hij. destruct (start_cells _ _ _ _ _ _ _ _ _ He H0 i j Hij) as (c & C1 & _ & _ & C4 & C5 & A1 & _ & S1 & S2 & _).
    destruct (Hini i j Hij) as (J1 & J2). split; [congruence|]. split; [apply S1|apply S2]; lra.
  - pose proof Hw as Hw'. cbn [steps] in Hw'. destruct (steps fuel P advect m w0) as [v|] eqn:E; [|discriminate]. clear Hw'.
    destruct (run_step fuel P advect junk rhod0 th0 rv0 rc0 rr0 w0 Hs H0 m v w He E Hw) as (g & G1 & G2).
    pose proof (IH v ltac:(lia) eq_refl) as IHv. clear IH.
    assert (G : forall i j, inside P i j -> rhod (g i j) = rhod0 i j /\ 0 <= rc (g i j) /\ 0 <= rr (g i j) <= rmax).
    { intros i j Hij. destruct (G1 i j Hij) as (A1 & _ & S1 & S2 & S3 & _).
      destruct (Hpos m (w_g v) ltac:(lia) (fun i j Hij => proj2 (IHv i j Hij)) i j Hij) as (P1 & P2).
      rewrite A1, (Hadv m (w_g v) ltac:(lia) i j Hij). split; [apply IHv, Hij|]. split; [apply S1, P1|]. split; [apply S2, P2|].
      eapply Rle_trans; [exact S3|]. apply (Hrain m v ltac:(lia) E i j Hij). }
    intros i j Hij. rewrite G2. set (o := with_conv _ _) in *. destruct (G i j Hij) as (Gd & Gc & Gr).
    destruct (update_rhs_spec P o (relaxes P m) (w_th_eq w) (w_rv_eq w) g i j Hz Hij) as (_ & _ & U3 & U4).
    cbn [apply_rhs rhod rc rr]. rewrite U3, U4. split; [exact Gd|].
    set (pw := Rpower rmax (875 / 1000)) in *.
    assert (B : 0 <= cloud_to_rain o (g i j) <= rc (g i j) * (o_k_acnv (p_opts P) + 22 / 10 * pw)).
    { unfold cloud_to_rain. change (o_k_acnv o) with (o_k_acnv (p_opts P)). change (o_r_c0 o) with (o_r_c0 (p_opts P)).
      assert (B1 : 0 <= (if o_conv o then o_k_acnv (p_opts P) * Rmax 0 (rc (g i j) - o_r_c0 (p_opts P)) else 0) <= rc (g i j) * o_k_acnv (p_opts P)).
      { assert (0 <= rc (g i j) * o_k_acnv (p_opts P)) by (apply Rmult_le_pos; assumption). destruct (o_conv o); [|lra].
        assert (Q : 0 <= Rmax 0 (rc (g i j) - o_r_c0 (p_opts P)) <= rc (g i j)) by (split; [apply Rmax_l|apply Rmax_lub; lra]).
        split; [apply Rmult_le_pos; lra|]. rewrite Rmult_comm. apply Rmult_le_compat_r; lra. }
      assert (B2 : 0 <= (if o_accr o then 22 / 10 * rc (g i j) * (if Rlt_dec 0 (rr (g i j)) then Rpower (rr (g i j)) (875 / 1000) else 0) else 0) <= rc (g i j) * (22 / 10 * pw)).
      { assert (Hpw : 0 < pw) by apply exp_pos.
        assert (Q : 0 <= (if Rlt_dec 0 (rr (g i j)) then Rpower (rr (g i j)) (875 / 1000) else 0) <= pw).
        { destruct (Rlt_dec 0 (rr (g i j))); [|lra]. split; [left; apply exp_pos|]. apply Rle_Rpower_l; lra. }
        set (q := if Rlt_dec 0 (rr (g i j)) then _ else 0) in *. clearbody q pw. clear - Gc Q Hpw. destruct (o_accr o).
        - split; [apply Rmult_le_pos; [lra|apply Q]|]. replace (rc (g i j) * (22 / 10 * pw)) with (22 / 10 * rc (g i j) * pw) by lra. apply Rmult_le_compat_l; lra.
        - split; [lra|]. apply Rmult_le_pos; lra. }
      lra. }
    set (f := cloud_to_rain o (g i j)) in *. clearbody f. split.
    + assert (p_dt P * f <= rc (g i j)); [|lra].
      apply Rle_trans with (p_dt P * (rc (g i j) * (o_k_acnv (p_opts P) + 22 / 10 * pw))); [apply Rmult_le_compat_l; lra|].
      replace (p_dt P * (rc (g i j) * (o_k_acnv (p_opts P) + 22 / 10 * pw))) with (rc (g i j) * (p_dt P * (o_k_acnv (p_opts P) + 22 / 10 * pw))) by ring.
      rewrite <- (Rmult_1_r (rc (g i j))) at 2. apply Rmult_le_compat_l; assumption.
    + assert (Vi : forall k, (k < p_nz P)%nat -> 0 <= speed_at g i k <= V).
      { intros k Hkz. assert (Hik : inside P i k) by (split; [apply Hij|exact Hkz]). assert (Hi0 : inside P i 0) by (split; [apply Hij|lia]).
        destruct (G i k Hik) as (D1 & _ & D2). destruct (G i 0%nat Hi0) as (D0 & _ & _). split; [apply v_term_nonneg|]. rewrite speed_fall, D1, D0. apply HV; assumption. }
      assert (F1 : 0 <= falling P o g i (S j)).
      { unfold falling. destruct (o_sedi o); [|lra]. unfold edge_flux. destruct (Nat.ltb_spec (S j) (p_nz P)) as [Hjz|]; [|lra]. cbn [phi].
        destruct (G i j Hij) as (D1 & _ & _). destruct (G i (S j) (conj (proj1 Hij) Hjz)) as (D2 & _ & D3). rewrite D1, D2.
        pose proof (Hrho i j Hij). pose proof (Hrho i (S j) (conj (proj1 Hij) Hjz)). pose proof (Vi j (proj2 Hij)). pose proof (Vi (S j) Hjz).
        assert (0 <= (rhod0 i j * speed_at g i j + rhod0 i (S j) * speed_at g i (S j)) * rr (g i (S j)) / p_dz P).
        { apply Rmult_le_pos; [apply Rmult_le_pos; [|lra]|left; apply Rinv_0_lt_compat, Hdz]. apply Rplus_le_le_0_compat; apply Rmult_le_pos; lra. }
        replace (- (- (1 / 2) * (rhod0 i j * speed_at g i j + rhod0 i (S j) * speed_at g i (S j)) * rr (g i (S j)) / p_dz P))
          with (1 / 2 * ((rhod0 i j * speed_at g i j + rhod0 i (S j) * speed_at g i (S j)) * rr (g i (S j)) / p_dz P)) by (unfold Rdiv; ring). lra. }
      pose proof (Hrho i j Hij) as Hd.
      assert (F2 : p_dt P * falling P o g i j <= rhod0 i j * rr (g i j)).
      { assert (0 <= rhod0 i j * rr (g i j)) by (apply Rmult_le_pos; lra).
        unfold falling. destruct (o_sedi o); [|lra]. unfold edge_flux. rewrite (proj2 (Nat.ltb_lt j (p_nz P)) (proj2 Hij)).
        apply Rmult_le_reg_r with (p_dz P); [exact Hdz|].
        destruct j as [|j]; cbn [phi].
        - rewrite Gd. replace (p_dt P * - (- (rhod0 i 0%nat * speed_at g i 0) * rr (g i 0%nat) / p_dz P) * p_dz P) with (rhod0 i 0%nat * rr (g i 0%nat) * (p_dt P * speed_at g i 0)) by (field; lra).
          apply Rmult_le_compat_l; [assumption|]. apply Rle_trans with (p_dt P * V); [|exact Hcfl]. apply Rmult_le_compat_l; [assumption|]. apply Vi, Hij.
        - assert (Hj' : inside P i j) by (destruct Hij; split; lia). destruct (G i j Hj') as (D1 & _ & _). rewrite Gd, D1.
          replace (p_dt P * - (- (1 / 2) * (rhod0 i j * speed_at g i j + rhod0 i (S j) * speed_at g i (S j)) * rr (g i (S j)) / p_dz P) * p_dz P)
            with (rr (g i (S j)) * (p_dt P * (rhod0 i j * speed_at g i j + rhod0 i (S j) * speed_at g i (S j)) / 2)) by (field; lra).
          replace (rhod0 i (S j) * rr (g i (S j)) * p_dz P) with (rr (g i (S j)) * (rhod0 i (S j) * p_dz P)) by ring.
          apply Rmult_le_compat_l; [apply Gr|].
          pose proof (Vi j (proj2 Hj')) as V1. pose proof (Vi (S j) (proj2 Hij)) as V2. pose proof (Hrho i j Hj') as Hd'. specialize (Hcfl' i j Hij).
          assert (p_dt P * (rhod0 i j * speed_at g i j + rhod0 i (S j) * speed_at g i (S j)) <= p_dt P * (V * (rhod0 i j + rhod0 i (S j)))).
          { apply Rmult_le_compat_l; [assumption|]. rewrite Rmult_plus_distr_l, !(Rmult_comm V). apply Rplus_le_compat; apply Rmult_le_compat_l; lra. }
          lra. }
      rewrite Gd. apply Rmult_le_reg_l with (rhod0 i j); [exact Hd|]. rewrite Rmult_0_r.
      replace (rhod0 i j * (rr (g i j) + p_dt P * (f + (falling P o g i (S j) - falling P o g i j) / rhod0 i j)))
        with (rhod0 i j * (p_dt P * f) + p_dt P * falling P o g i (S j) + (rhod0 i j * rr (g i j) - p_dt P * falling P o g i j)) by (field; lra).
      assert (0 <= p_dt P * falling P o g i (S j)) by (apply Rmult_le_pos; assumption).
      assert (0 <= rhod0 i j * (p_dt P * f)) by (apply Rmult_le_pos; [lra|apply Rmult_le_pos; lra]). lra.
Qed.

(** ** cases *)
(** one cell at rest, without saturation adjustment (the option cond = 0 of the model), default rates *)
Definition still (sedi : bool) (dt : R) : run_params :=
  {| p_nx := 1; p_nz := 1; p_dt := dt; p_dz := 20; p_tau := 300; p_z_rlx := 200; p_spinup := 0; p_relax := false;
     p_opts := {| o_cond := false; o_cevp := true; o_revp := true; o_conv := true; o_accr := true; o_sedi := sedi;
       o_homA1 := true; o_homA2 := true; o_hetA := true; o_hetB := true; o_depA := true; o_depB := true; o_rimA := true; o_rimB := true; o_melA := true; o_melB := true;
       o_r_c0 := 5 / 10000; o_k_acnv := 1 / 1000; o_r_eps := 2 / 100000; o_adj_nwtrph := true; o_nwtrph_iters := 3; o_th_dry := true; o_const_p := false |} |}.
Lemma still_start s dt c r : exists w0, start_run 0 (still s dt) (fun _ => 0) (fun _ _ => 1) (fun _ _ => 300) (fun _ _ => 1 / 100) (Some (fun _ _ => c)) (Some (fun _ _ => r)) = Some w0.
Proof. eexists. unfold start_run, condevap. cbn [still p_opts driver_opts]. unfold adj_cellwise, adj_cellwise_rk4. cbn [o_adj_nwtrph o_cond negb]. reflexivity. Qed.
Lemma still_step s dt w0 : exists w1, steps 0 (still s dt) (fun _ g => g) 1 w0 = Some w1.
Proof. eexists. cbn [steps]. unfold step, condevap. cbn [still p_opts driver_opts with_conv]. unfold adj_cellwise, adj_cellwise_rk4. cbn [o_adj_nwtrph o_cond negb]. reflexivity. Qed.

(** Nothing limits the collection of cloud water by rain to the cloud water there is: with a long step a run makes cloud water negative. *)
Theorem C88_long_step_refuted : exists P advect w0 w1,
  carries P (fun _ => 1) advect /\ (forall g, advect g = g) /\ p_dt P = 60 /\
  start_run 0 P (fun _ => 0) (fun _ _ => 1) (fun _ _ => 300) (fun _ _ => 1 / 100) (Some (fun _ _ => 1 / 1000)) (Some (fun _ _ => 1 / 100)) = Some w0 /\
  steps 0 P (fun _ => advect) 1 w0 = Some w1 /\ rc (w_g w1 0%nat 0%nat) < 0.
Proof.
  destruct (still_start false 60 (1 / 1000) (1 / 100)) as (w0 & H0). destruct (still_step false 60 w0) as (w1 & H1).
  exists (still false 60), (fun g => g), w0, w1. split; [split; reflexivity|]. split; [reflexivity|]. split; [reflexivity|]. split; [exact H0|]. split; [exact H1|].
  set (P := still false 60) in *. assert (I : inside P 0 0) by (split; cbn; lia).
  assert (He : 0 < o_r_eps (p_opts P)) by (cbn; lra).
  destruct (run_step 0 P (fun _ g => g) (fun _ => 0) _ _ _ _ _ w0 ltac:(cbn; lia) H0 0 w0 w1 He eq_refl H1) as (g & G1 & G2).
  destruct (start_cells _ _ _ _ _ _ _ _ _ He H0 0%nat 0%nat I) as (c & C1 & _ & _ & C4 & C5 & A). destruct A as (_ & _ & _ & _ & _ & _ & A). specialize (A eq_refl).
  destruct (G1 0%nat 0%nat I) as (_ & _ & _ & _ & _ & _ & B). specialize (B eq_refl).
  assert (E1 : rc (g 0%nat 0%nat) = 1 / 1000) by (rewrite B, A, C4; reflexivity). assert (E2 : rr (g 0%nat 0%nat) = 1 / 100) by (rewrite B, A, C5; reflexivity).
  rewrite G2. cbn [apply_rhs rc]. set (o := with_conv _ _).
  destruct (update_rhs_spec P o (relaxes P 0) (w_th_eq w1) (w_rv_eq w1) g 0 0 ltac:(cbn; lia) I) as (_ & _ & U3 & _).
  rewrite U3. unfold cloud_to_rain. change (o_accr o) with true. change (o_k_acnv o) with (1 / 1000). change (o_r_c0 o) with (5 / 10000). change (p_dt P) with 60. rewrite E1, E2.
  assert (Q1 : 0 <= (if o_conv o then 1 / 1000 * Rmax 0 (1 / 1000 - 5 / 10000) else 0)).
  { destruct (o_conv o); [|lra]. pose proof (Rmax_l 0 (1 / 1000 - 5 / 10000)). lra. }
  destruct (Rlt_dec 0 (1 / 100)) as [_|N]; [|lra].
  assert (Q2 : 1 / 100 <= Rpower (1 / 100) (875 / 1000)).
  { rewrite <- (Rpower_1 (1 / 100)) at 1 by lra. unfold Rpower. match goal with |- exp ?a <= exp ?b => assert (L : a <= b); [|destruct L as [L|L]; [left; apply exp_increasing, L|right; rewrite L; reflexivity]] end.
    assert (ln (1 / 100) < 0) by (rewrite <- ln_1; apply ln_increasing; lra). nra. }
  set (q := Rpower _ _) in *. clearbody q. lra.
Qed.

Lemma rpower_1_ y : Rpower 1 y = 1.
Proof. unfold Rpower. rewrite ln_1, Rmult_0_r. apply exp_0. Qed.
(** a short step with rain at the ground: the hypotheses of C88_water and of C88_signs hold, and water leaves *)
Theorem C88_instance : exists w0 w1, let P := still true (1 / 10) in
  start_run 0 P (fun _ => 0) (fun _ _ => 1) (fun _ _ => 300) (fun _ _ => 1 / 100) (Some (fun _ _ => 1 / 1000)) (Some (fun _ _ => 1 / 100)) = Some w0 /\
  steps 0 P (fun _ g => g) 1 w0 = Some w1 /\ carries P (fun _ => 1) (fun g => g) /\
  mass P (fun _ => 1) water (w_g w1) < initial_water P (fun _ => 1) (fun _ _ => 1) (fun _ _ => 1 / 100) (Some (fun _ _ => 1 / 1000)) (Some (fun _ _ => 1 / 100)) /\
  (forall i j, inside P i j -> rr (w_g w0 i j) <= 1 / 100) /\
  p_dt P * (o_k_acnv (p_opts P) + 22 / 10 * Rpower (1 / 100) (875 / 1000)) <= 1 /\
  (forall r, 0 <= r <= 1 / 100 -> fall r 1 1 <= 40) /\ p_dt P * 40 * (1 + 1) <= 2 * 1 * p_dz P /\
  0 <= rc (w_g w1 0%nat 0%nat) /\ 0 <= rr (w_g w1 0%nat 0%nat).
Proof.
  destruct (still_start true (1 / 10) (1 / 1000) (1 / 100)) as (w0 & H0). destruct (still_step true (1 / 10) w0) as (w1 & H1).
  exists w0, w1. set (P := still true (1 / 10)) in *. cbv zeta. assert (I : inside P 0 0) by (split; cbn; lia).
  assert (He : 0 < o_r_eps (p_opts P)) by (cbn; lra). assert (Hz : (1 <= p_nz P)%nat) by (cbn; lia). assert (Hs : (0 <= p_spinup P)%Z) by (cbn; lia).
  assert (Hc : carries P (fun _ => 1) (fun g => g)) by (split; reflexivity).
  assert (Hr : forall i j, inside P i j -> rr (w_g w0 i j) <= 1 / 100).
  { intros i j Hij. destruct (start_cells _ _ _ _ _ _ _ _ _ He H0 i j Hij) as (c & _ & _ & _ & _ & C5 & _ & _ & _ & _ & A & _). cbv beta iota delta [given] in C5. lra. }
  assert (Hp : p_dt P * (o_k_acnv (p_opts P) + 22 / 10 * Rpower (1 / 100) (875 / 1000)) <= 1).
  { assert (Rpower (1 / 100) (875 / 1000) <= 1) by (apply Rle_trans with (Rpower 1 (875 / 1000)); [apply Rle_Rpower_l; lra|rewrite rpower_1_; lra]). change (p_dt P) with (1 / 10). change (o_k_acnv (p_opts P)) with (1 / 1000). lra. }
  assert (HV : forall r, 0 <= r <= 1 / 100 -> fall r 1 1 <= 40).
  { intros r Hrr. unfold fall. destruct (Rlt_dec 0 (1 * r)) as [Q|Q]; [|lra]. replace (1 / 1) with 1 by lra. rewrite sqrt_1.
    assert (Rpower (1 * r / 1000) (1346 / 10000) <= 1) by (apply Rle_trans with (Rpower 1 (1346 / 10000)); [apply Rle_Rpower_l; lra|rewrite rpower_1_; lra]). lra. }
  split; [exact H0|]. split; [exact H1|]. split; [exact Hc|]. split; [|split; [exact Hr|split; [exact Hp|split; [exact HV|split; [cbn; lra|]]]]].
  - destruct (C88_water 0 P (fun _ => 1) (fun _ => 0) _ _ _ _ _ (fun _ g => g) 1 w0 w1 Hz He Hs (fun _ _ _ => Rlt_0_1) (fun _ _ => Hc) H0 H1) as (_ & mid & tg & M1 & _ & M3).
    rewrite M3. cbn [sumR]. change (relaxes P 0) with false. cbv iota. unfold rain_at_ground. change (o_sedi (p_opts P)) with true. cbv iota.
    change (p_nx P) with 1%nat. cbn [sumR]. destruct (M1 0%nat ltac:(lia)) as (v & V1 & V2). cbn [steps] in V1. injection V1 as <-.
    destruct (V2 0%nat 0%nat I) as (_ & _ & _ & _ & _ & _ & B). specialize (B eq_refl). cbv beta in B. rewrite B.
    destruct (start_cells _ _ _ _ _ _ _ _ _ He H0 0%nat 0%nat I) as (c & C1 & _ & _ & _ & C5 & _ & _ & _ & _ & _ & _ & A). specialize (A eq_refl). rewrite A. cbv beta iota delta [given] in C5.
    unfold fall_speed. rewrite C1, C5. destruct (Rlt_dec 0 (1 * (1 / 100))) as [_|N]; [|lra].
    assert (0 < Rpower (1 * (1 / 100) / 1000) (1346 / 10000)) by apply exp_pos. set (q := Rpower _ _) in *. clearbody q. change (p_dt P) with (1 / 10). change (p_dz P) with 20. lra.
  - refine (C88_signs 0 P (fun _ => 0) _ _ _ _ _ (fun _ g => g) 1 w0 w1 (1 / 100) 40 Hz He Hs _ _ _ _ _ _ _ _ H0 H1 _ _ Hp _ _ _ 0%nat 0%nat I); try (cbn; lra); auto.
    + intros; lra.
    + intros i j _. cbn [given]. lra.
    + intros k wk Hk Hwk. assert (E : k = 0%nat) by lia. subst k. cbn [steps] in Hwk. injection Hwk as <-. exact Hr.
    + intros i j (_ & Hj). cbn in Hj. lia.
Qed.

Print Assumptions C88_water.
Print Assumptions C88_spinup.
Print Assumptions C88_signs.
Print Assumptions C88_long_step_refuted.
Print Assumptions C88_instance.
