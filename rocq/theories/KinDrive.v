(** C85: the kinematic model drives the particles one call at a time, whatever the background thread does; spin-up and relaxation. *)
From Coq Require Import Reals ZArith List Bool Lra Lia Psatz.
From Verif Require Import Base KinModel.
Import ListNotations.
Local Open Scope Z_scope.

(** * Specification *)
(** the life of the particles object if everything were done by one thread: initialised and diagnosed, then in each timestep t a synchronous step, a whole
    asynchronous step, and a diagnosis if t is a multiple of the output interval *)
Fixpoint serial_steps (outfreq t : Z) (nt : nat) : list event :=
  match nt with
  | O => []
  | S k => [ESync; EAsyncBegin; EAsyncEnd] ++ (if Z.rem t outfreq =? 0 then [EDiag] else []) ++ serial_steps outfreq (t + 1) k
  end.
Definition serial (outfreq t : Z) (nt : nat) : list event := [EInit; EDiag] ++ serial_steps outfreq t nt.
Definition prefix {A} (l m : list A) : Prop := exists r, m = l ++ r.

(** * Proof: the code, read with "a step may be running in the background" instead of the two threads *)
Fixpoint tidy (pending : bool) (c : list instr) : option bool :=
  match c with
  | [] => Some pending
  | (Reset | Init | Diag | Sync | Async | AssertInvalid) :: k => if pending then None else tidy pending k
  | Launch :: k => if pending then None else tidy true k
  | AssertValid :: k => if pending then tidy pending k else None
  | Get :: k => if pending then tidy false k else None
  end.
Definition ev (i : instr) : list event :=
  match i with
  | Init => [EInit] | Diag => [EDiag] | Sync => [ESync] | Async | Launch => [EAsyncBegin; EAsyncEnd] | _ => []
  end.
Definition evs (c : list instr) : list event := flat_map ev c.

Definition Inv (total : list event) (r : run) : Prop :=
  tidy (valid r) (code r) <> None /\ bad r = false /\ (busy r = true -> valid r = true) /\
  log r ++ (if busy r then [EAsyncEnd] else []) ++ evs (code r) = total.

Lemma Inv_step total r r' : Inv total r -> step r r' -> Inv total r'.
Proof.
  unfold Inv, call. intros (H1 & H2 & H3 & H4) ST. destruct ST; unfold call in *; cbn [valid code bad busy log] in *;
  try (rewrite H in *; cbn [tidy evs flat_map ev] in * ).
  1-6: destruct (valid r) eqn:V; [congruence|]; destruct (busy r) eqn:B; [specialize (H3 eq_refl); congruence|]; rewrite H2; cbn [app orb] in *;
    repeat split; try assumption; try congruence; rewrite <- app_assoc; cbn [app] in *; assumption.
  - destruct (valid r) eqn:V; [|congruence]. rewrite H2. cbn. repeat split; assumption.
  - destruct (valid r) eqn:V; [congruence|]. rewrite H2. cbn. repeat split; assumption.
  - destruct (valid r) eqn:V; [|congruence]. rewrite H2. cbn. rewrite H0 in H4. repeat split; try assumption; congruence.
  - repeat split; try assumption; try congruence. rewrite <- app_assoc. exact H4.
Qed.
Lemma Inv_runs total r r' : Inv total r -> runs r r' -> Inv total r'.
Proof. intros H R. induction R; auto. apply IHR. eapply Inv_step; eassumption. Qed.
Lemma Inv_progress total r : Inv total r -> code r <> [] -> exists r', step r r'.
Proof.
  intros (H1 & H2 & H3 & H4) N. destruct (busy r) eqn:B. { eexists. apply s_end. exact B. }
  destruct (code r) as [|i k] eqn:C; [congruence|]. destruct i; eexists.
  - eapply s_reset, C. - eapply s_init, C. - eapply s_diag, C. - eapply s_sync, C. - eapply s_async, C. - eapply s_launch, C. - eapply s_valid, C.
  - eapply s_invalid, C. - eapply s_get; [exact C|exact B].
Qed.

Definition pend (async : bool) (outfreq t : Z) : bool := async && negb (t =? 0) && negb (Z.rem (t - 1) outfreq =? 0).
Lemma tidy_app p a b : tidy p (a ++ b) = match tidy p a with Some q => tidy q b | None => None end.
Proof.
  revert p. induction a as [|i a IH]; intros p; [reflexivity|].
  destruct i; cbn [app tidy]; rewrite ?IH; try (destruct p; reflexivity); destruct p; rewrite ?IH; reflexivity.
Qed.
Lemma tidy_step async outfreq t : 0 <= t -> tidy (pend async outfreq t) (post_step async outfreq t) = Some (pend async outfreq (t + 1)).
Proof.
  intros Ht. unfold pend, post_step. replace (t + 1 - 1) with t by lia. replace (t + 1 =? 0) with false by (symmetry; apply Z.eqb_neq; lia).
  destruct async, (t =? 0), (Z.rem (t - 1) outfreq =? 0), (Z.rem t outfreq =? 0); reflexivity.
Qed.
Lemma tidy_steps async outfreq t nt : 0 <= t -> tidy (pend async outfreq t) (steps async outfreq t nt) = Some (pend async outfreq (t + Z.of_nat nt)).
Proof.
  revert t. induction nt as [|k IH]; intros t Ht; cbn [steps]. { cbn. do 2 f_equal. lia. }
  rewrite tidy_app, tidy_step by exact Ht. rewrite IH by lia. do 2 f_equal. lia.
Qed.
Lemma evs_app a b : evs (a ++ b) = evs a ++ evs b. Proof. apply flat_map_app. Qed.
Lemma evs_steps async outfreq t nt : evs (steps async outfreq t nt) = serial_steps outfreq t nt.
Proof.
  revert t. induction nt as [|k IH]; intros t; [reflexivity|]. cbn [steps serial_steps]. rewrite evs_app, IH. unfold post_step. rewrite !evs_app.
  destruct (async && negb (t =? 0) && negb (Z.rem (t - 1) outfreq =? 0)); destruct async; destruct (Z.rem t outfreq =? 0); reflexivity.
Qed.
Lemma Inv_start async outfreq t nt : outfreq <> 0 -> t = 0 \/ t = 1 -> Inv (serial outfreq t nt) (start (advance async outfreq t nt)).
Proof.
  intros Ho Ht. unfold Inv, start. cbn [valid code bad busy log app]. split; [|split; [|split]]; try reflexivity; try congruence.
  - unfold advance, ante_loop. cbn [app tidy]. assert (P : pend async outfreq t = false).
    { unfold pend. destruct Ht; subst t; [destruct async; reflexivity|]. replace (1 - 1) with 0 by lia. rewrite Z.rem_0_l by exact Ho. destruct async; reflexivity. }
    rewrite <- P, tidy_steps by lia. congruence.
  - unfold advance. rewrite evs_app, evs_steps. reflexivity.
Qed.

Definition work (r : run) : nat := (2 * length (code r) + (if busy r then 1 else 0))%nat.
Lemma step_work r r' : step r r' -> (work r' < work r)%nat.
Proof. intros ST. unfold work. destruct ST; unfold call; cbn [code busy]; rewrite ?H, ?H0; cbn [length]; destruct (busy r); try discriminate; lia. Qed.

(** * Theorems *)
(** With one call of advance(): at every moment of every interleaving with the background thread no assertion has failed and the particles object has not been
    used while the background thread was working on it; what has happened to it is an initial part of the life it would have with one thread; the main thread never
    waits for ever; and when the main thread is done, what remains is at most the end of an asynchronous step. *)
Theorem C85_one_at_a_time chem b async outfreq t nt r :
  outfreq <> 0 -> t = 0 \/ t = 1 -> runs (start (advance (async_used chem b async) outfreq t nt)) r ->
  bad r = false /\ prefix (log r) (serial outfreq t nt) /\
  (code r <> [] -> exists r', step r r') /\
  (code r = [] -> log r ++ (if busy r then [EAsyncEnd] else []) = serial outfreq t nt) /\
  (forall r', step r r' -> (work r' < work r)%nat).
Proof.
  intros Ho Ht R. pose proof (Inv_runs _ _ _ (Inv_start (async_used chem b async) outfreq t nt Ho Ht) R) as I.
  split; [apply I|]. split. { destruct I as (_ & _ & _ & E). eexists. symmetry. exact E. }
  split; [intros N; eapply Inv_progress; eassumption|]. split.
  - intros C. destruct I as (_ & _ & _ & E). rewrite C in E. cbn [evs flat_map] in E. rewrite app_nil_r in E. exact E.
  - apply step_work.
Qed.

(** Without a GPU nothing is left to a background thread, and with aqueous chemistry only on one GPU. *)
Theorem C85_background chem b async : async_used chem b async = true -> async = true /\ (b = CUDA \/ b = MultiCUDA /\ chem = false).
Proof. destruct b, chem, async; cbn; intros H; try discriminate; split; auto. Qed.

(** executable schedules: [true] is a move of the main thread, [false] the end of the background step *)
Definition main_move (r : run) : option run :=
  match code r with
  | [] => None
  | Reset :: k => Some (call [] k r) | Init :: k => Some (call [EInit] k r) | Diag :: k => Some (call [EDiag] k r) | Sync :: k => Some (call [ESync] k r)
  | Async :: k => Some (call [EAsyncBegin; EAsyncEnd] k r)
  | Launch :: k => Some {| code := k; valid := true; busy := true; bad := bad r || busy r; log := log r ++ [EAsyncBegin] |}
  | AssertValid :: k => Some {| code := k; valid := valid r; busy := busy r; bad := bad r || negb (valid r); log := log r |}
  | AssertInvalid :: k => Some {| code := k; valid := valid r; busy := busy r; bad := bad r || valid r; log := log r |}
  | Get :: k => if busy r then None else Some {| code := k; valid := false; busy := false; bad := bad r || negb (valid r); log := log r |}
  end.
Definition end_move (r : run) : option run :=
  if busy r then Some {| code := code r; valid := valid r; busy := false; bad := bad r; log := log r ++ [EAsyncEnd] |} else None.
Fixpoint play (acts : list bool) (r : run) : option run :=
  match acts with [] => Some r | a :: l => match (if a then main_move r else end_move r) with Some r' => play l r' | None => None end end.
Lemma play_runs acts r r' : play acts r = Some r' -> runs r r'.
Proof.
  revert r. induction acts as [|a l IH]; cbn [play]; intros r H. { injection H as <-. apply runs_refl. }
  destruct (if a then main_move r else end_move r) as [q|] eqn:E; [|discriminate]. apply runs_step with q; [|apply IH, H].
  destruct a; unfold main_move, end_move in E.
  - destruct (code r) as [|i k] eqn:C; [discriminate|]. destruct i; try (destruct (busy r) eqn:B; [discriminate|]); injection E as <-.
    + apply s_reset, C. + apply s_init, C. + apply s_diag, C. + apply s_sync, C. + apply s_async, C. + apply s_launch, C. + apply s_valid, C.
    + apply s_invalid, C. + apply s_get; assumption.
  - destruct (busy r) eqn:B; [|discriminate]. injection E as <-. apply s_end, B.
Qed.

Ltac by_play acts c :=
  let o := eval vm_compute in (play acts (start c)) in
  match o with Some ?r => exists r; split; [apply (play_runs acts); vm_compute; reflexivity|] end.

(** A second call of advance() destroys the particles while the background thread may still work on them. *)
Theorem C85_second_advance_refuted : exists r,
  runs (start (advance true 2 1 1 ++ advance true 2 2 1)) r /\ bad r = true.
Proof. by_play (repeat true 9) (advance true 2 1 1 ++ advance true 2 2 1). reflexivity. Qed.

(** a run on a GPU with output every second step, three steps: the background thread finishes the first and the third step late *)
Theorem C85_instance : exists r,
  runs (start (advance (async_used false CUDA true) 2 1 3)) r /\ code r = [] /\ busy r = true /\
  log r = [EInit; EDiag; ESync; EAsyncBegin; EAsyncEnd; ESync; EAsyncBegin; EAsyncEnd; EDiag; ESync; EAsyncBegin].
Proof.
  by_play (repeat true 9 ++ [false] ++ repeat true 4 ++ [false] ++ repeat true 9) (advance (async_used false CUDA true) 2 1 3). repeat split; reflexivity.
Qed.

(** * Spin-up *)
(** options without rain formation, with supersaturation limited to 1%; and options with it *)
Definition dry_run (m : micro) : micro :=
  match m with Lgrngn _ _ _ => Lgrngn false false (101 / 100) | Blk1m _ => Blk1m false | Blk2m _ _ => Blk2m false (101 / 100) end.
Definition rainy (m : micro) : micro :=
  match m with Lgrngn _ _ _ => Lgrngn true true 44 | Blk1m _ => Blk1m true | Blk2m _ _ => Blk2m true 44 end.

Lemma solver_fields s k : saved (solver_at s k) = saved s /\ spinup (solver_at s k) = spinup s /\ relax (solver_at s k) = relax s.
Proof. induction k as [|k (I1 & I2 & I3)]; cbn [solver_at hook_ante_step saved spinup relax]; auto. Qed.
Lemma solver_before s k : Z.of_nat k < spinup s -> opts (solver_at s k) = opts s /\ target (solver_at s k) = target s.
Proof.
  induction k as [|k IH]; intros H; cbn [solver_at hook_ante_step opts target].
  - replace (spinup s =? 0) with false by (symmetry; apply Z.eqb_neq; lia). rewrite !andb_false_r. auto.
  - destruct IH as (I1 & I2); [lia|]. destruct (solver_fields s k) as (F1 & F2 & F3). rewrite F2, F3, I1, I2.
    replace (spinup s =? Z.of_nat (S k)) with false by (symmetry; apply Z.eqb_neq; lia). rewrite !andb_false_r. auto.
Qed.
Lemma solver_after s k : 0 <= spinup s <= Z.of_nat k ->
  opts (solver_at s k) = (if spinup s =? 0 then opts s else set_rain (saved s) true (opts s)) /\
  target (solver_at s k) = (if relax s then Some (spinup s) else target s).
Proof.
  induction k as [|k IH]; intros H; cbn [solver_at hook_ante_step opts target].
  - assert (E : spinup s = 0) by lia. rewrite E. cbn. destruct (relax s); auto.
  - destruct (solver_fields s k) as (F1 & F2 & F3). rewrite F1, F2, F3. destruct (Z.eq_dec (spinup s) (Z.of_nat (S k))) as [E|E].
    + destruct (solver_before s k) as (B1 & B2); [lia|]. rewrite B1, B2, E, Z.eqb_refl.
      replace (Z.of_nat (S k) =? 0) with false by (symmetry; apply Z.eqb_neq; lia). cbn [negb andb]. destruct (relax s); auto.
    + destruct IH as (I1 & I2); [lia|]. rewrite I1, I2. replace (spinup s =? Z.of_nat (S k)) with false by (symmetry; apply Z.eqb_neq; lia). rewrite !andb_false_r. auto.
Qed.
Lemma solver_never s k : spinup s < 0 -> opts (solver_at s k) = opts s /\ target (solver_at s k) = target s.
Proof.
  intros H. induction k as [|k (I1 & I2)]; cbn [solver_at hook_ante_step opts target].
  - replace (spinup s =? 0) with false by (symmetry; apply Z.eqb_neq; lia). rewrite !andb_false_r. auto.
  - destruct (solver_fields s k) as (F1 & F2 & F3). rewrite F2, F3, I1, I2.
    replace (spinup s =? Z.of_nat (S k)) with false by (symmetry; apply Z.eqb_neq; lia). rewrite !andb_false_r. auto.
Qed.

(** The options in the k-th timestep (from 0), for a non-negative length of the spin-up: *)
Theorem C85_spinup m spin rlx k : 0 <= spin ->
  let s := solver_at (hook_ante_loop (fresh m spin rlx)) k in
  (* options that do not form rain are never changed and nothing is relaxed; *)
  (get_rain m = false -> opts s = m /\ relaxing s = false) /\
  (get_rain m = true ->
     (* rain is off during the spin-up and on after it; without a spin-up the options are the user's; *)
     opts s = (if spin =? 0 then m else if Z.of_nat k <? spin then dry_run m else rainy m) /\
     get_rain (opts s) = (spin <=? Z.of_nat k) /\
     (* relaxation acts after the spin-up only, if asked for, towards the state at the end of the spin-up *)
     relaxing s = (rlx && (spin <=? Z.of_nat k)) /\ (relaxing s = true -> target s = Some spin)).
Proof.
  intros Hs s. split; intros HR.
  - assert (E : hook_ante_loop (fresh m spin rlx) = {| opts := m; saved := match m with Lgrngn c d _ => (c, d) | _ => (false, false) end; spinup := 0; relax := false; target := None |}).
    { unfold hook_ante_loop, fresh. cbn [opts saved spinup relax target]. rewrite HR. reflexivity. }
    unfold s. rewrite E. set (s0 := {| opts := m |}). destruct (solver_after s0 k) as (A1 & A2); [cbn; lia|]. cbn [s0 spinup opts saved relax target Z.eqb] in A1, A2. split; [exact A1|].
    unfold relaxing. destruct (solver_fields s0 k) as (_ & _ & F). rewrite F. reflexivity.
  - set (s0 := hook_ante_loop (fresh m spin rlx)) in *.
    assert (S1 : spinup s0 = spin) by (unfold s0, hook_ante_loop, fresh; cbn [opts spinup]; rewrite HR; reflexivity).
    assert (S2 : relax s0 = rlx) by (unfold s0, hook_ante_loop, fresh; cbn [opts relax]; rewrite HR; reflexivity).
    assert (S3 : opts s0 = if 0 <? spin then dry_run m else m).
    { unfold s0, hook_ante_loop, fresh; cbn [opts spinup saved]; rewrite HR; cbn [negb]. destruct (0 <? spin); [|reflexivity]. destruct m; reflexivity. }
    assert (S4 : set_rain (saved s0) true (dry_run m) = rainy m).
    { unfold s0, hook_ante_loop, fresh; cbn [opts saved]. destruct m; cbn in *; try reflexivity. apply andb_true_iff in HR. destruct HR as (-> & ->). reflexivity. }
    destruct (solver_fields s0 k) as (_ & _ & F3). fold s in F3. unfold relaxing. rewrite F3, S2. destruct (Z.ltb_spec (Z.of_nat k) spin) as [L|L].
    + destruct (solver_before s0 k) as (B1 & B2); [rewrite S1; exact L|]. fold s in B1. rewrite B1, S3.
      replace (0 <? spin) with true by (symmetry; apply Z.ltb_lt; lia). replace (spin =? 0) with false by (symmetry; apply Z.eqb_neq; lia).
      replace (spin <=? Z.of_nat k) with false by (symmetry; apply Z.leb_gt; lia).
      assert (D : get_rain (dry_run m) = false) by (destruct m; reflexivity). rewrite D, andb_false_r. repeat split; congruence.
    + destruct (solver_after s0 k) as (B1 & B2); [rewrite S1; lia|]. fold s in B1, B2. rewrite B1, B2, S3, S2, S1. clear B1 B2 F3 S1 S2 S3.
      replace (spin <=? Z.of_nat k) with true by (symmetry; apply Z.leb_le; lia). destruct (Z.eqb_spec spin 0) as [E|E].
      * rewrite E. change (0 <? 0) with false. cbn match. rewrite HR, andb_true_r. split; [reflexivity|]. split; [reflexivity|]. split; [reflexivity|]. intros ->. reflexivity.
      * replace (0 <? spin) with true by (symmetry; apply Z.ltb_lt; lia). rewrite S4.
        assert (D : get_rain (rainy m) = true) by (destruct m; reflexivity). rewrite D, andb_true_r. split; [reflexivity|]. split; [reflexivity|]. split; [reflexivity|]. intros ->. reflexivity.
Qed.

(** A negative length of the spin-up is not refused: relaxation then acts from the first step on, towards values never set. *)
Theorem C85_negative_spinup_refuted m spin k : spin < 0 -> get_rain m = true ->
  let s := solver_at (hook_ante_loop (fresh m spin true)) k in relaxing s = true /\ target s = None.
Proof.
  intros Hs HR s. set (s0 := hook_ante_loop (fresh m spin true)) in *.
  assert (S1 : spinup s0 = spin) by (unfold s0, hook_ante_loop, fresh; cbn [opts spinup]; rewrite HR; reflexivity).
  assert (S2 : relax s0 = true) by (unfold s0, hook_ante_loop, fresh; cbn [opts relax]; rewrite HR; reflexivity).
  assert (S3 : opts s0 = m).
  { unfold s0, hook_ante_loop, fresh; cbn [opts spinup saved]; rewrite HR; cbn [negb]. replace (0 <? spin) with false by (symmetry; apply Z.ltb_ge; lia). reflexivity. }
  destruct (solver_never s0 k) as (B1 & B2); [rewrite S1; exact Hs|]. fold s in B1, B2. destruct (solver_fields s0 k) as (_ & _ & F3). fold s in F3.
  unfold relaxing. rewrite F3, S2, B1, B2, S3, HR. split; reflexivity.
Qed.

(** the default spin-up of 2400 steps with coalescence and sedimentation *)
Theorem C85_spinup_instance :
  let s k := solver_at (hook_ante_loop (fresh (Lgrngn true true 44) 2400 true)) k in
  opts (s 2399%nat) = Lgrngn false false (101 / 100) /\ relaxing (s 2399%nat) = false /\
  opts (s 2400%nat) = Lgrngn true true 44 /\ relaxing (s 2400%nat) = true /\ target (s 2400%nat) = Some 2400.
Proof.
  intros s. unfold s. destruct (C85_spinup (Lgrngn true true 44) 2400 true 2399 ltac:(lia)) as (_ & A). destruct (C85_spinup (Lgrngn true true 44) 2400 true 2400 ltac:(lia)) as (_ & B).
  destruct (A eq_refl) as (A1 & _ & A3 & _). destruct (B eq_refl) as (B1 & _ & B3 & B4). split; [exact A1|]. split; [exact A3|]. split; [exact B1|]. split; [exact B3|]. apply B4, B3.
Qed.

(** Relaxation always points towards its target, more weakly aloft: over a time dt up to its time scale it never overshoots. *)
Theorem C85_relaxation tau_rlx z_rlx z eq v dt : (0 < tau_rlx -> 0 < z_rlx -> 0 <= z -> 0 <= dt <= tau_rlx ->
  exists f, 0 <= f <= 1 /\ v + dt * relax_rhs tau_rlx z_rlx z eq v = (1 - f) * v + f * eq)%R.
Proof.
  intros Ht Hz H Hd. unfold relax_rhs. set (e := exp (z / z_rlx)).
  assert (He : (1 <= e)%R). { unfold e. rewrite <- exp_0. destruct H as [H|<-]; [left; apply exp_increasing; apply Rdiv_lt_0_compat; assumption|right; f_equal; unfold Rdiv; ring]. }
  clearbody e. assert (Hq : (0 < tau_rlx * e)%R) by nra. exists (dt / (tau_rlx * e))%R. split; [split|].
  - apply Rmult_le_pos; [lra|]. left. apply Rinv_0_lt_compat, Hq.
  - apply Rmult_le_reg_r with (tau_rlx * e)%R; [exact Hq|]. unfold Rdiv. rewrite Rmult_assoc, Rinv_l by lra. nra.
  - field. lra.
Qed.

Print Assumptions C85_one_at_a_time.
Print Assumptions C85_background.
Print Assumptions C85_second_advance_refuted.
Print Assumptions C85_instance.
Print Assumptions C85_spinup.
Print Assumptions C85_negative_spinup_refuted.
Print Assumptions C85_spinup_instance.
Print Assumptions C85_relaxation.
