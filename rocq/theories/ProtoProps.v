(** C13, C14, C35, C36, C46-C48: the call protocol, variable time steps, order of operations *)
From Coq Require Import List Arith NArith ZArith Lia Reals Lra Bool.
From Verif Require Import Base BaseProofs ProtoModel.
Import ListNotations.
Local Open Scope R_scope.

(** ** Specification of the protocol *)
Inductive phase := NotInit | Idle | Synced | AsyncDue.
(** which call may come next; None = out of order *)
Definition next (ph : phase) (c : call) : option phase :=
  match ph, c with
  | NotInit, Init _ => Some Idle
  | Idle, SyncIn _ => Some Synced
  | Idle, StepSync _ _ => Some AsyncDue
  | Synced, SyncIn _ => Some Synced
  | Synced, StepSync _ _ => Some AsyncDue
  | Synced, StepCond _ => Some AsyncDue
  | AsyncDue, StepAsync _ _ => Some Idle
  | _, _ => None
  end.
(** calls whose own arguments are acceptable *)
Definition dt_ok (o : oinit) (p : opts) : Prop := o_dt p <= 0 \/ variable_dt o = true.
Definition cond_ok (o : oinit) (p : opts) : Prop := (o_turb_cond p = true -> turb_cond_sw o = true) /\
  (o_chem_dsl p = true \/ o_chem_dsc p = true \/ o_chem_rct p = true -> chem_sw o = true) /\ dt_ok o p.
Definition src_used (o : oinit) (p : opts) : Prop := o_src p = true /\ ~ (src_x0 o = 0 /\ src_x1 o = 0).
Definition async_ok (o : oinit) (p : opts) : Prop :=
  async_rejects o p = false /\ dt_ok o p /\ (src_used o p -> src_type o <> src_off) /\ (o_rlx p = true -> rlx_sw o = true).
Definition well_formed (o : oinit) (c : call) : Prop :=
  match c with
  | Init a => init_rejects o a = false
  | SyncIn a => sync_rejects o a = false
  | StepCond p => cond_ok o p
  | StepSync a p => sync_rejects o a = false /\ cond_ok o p
  | StepAsync p _ => async_ok o p
  end.
(** phase after a history; calls out of order do nothing *)
Definition phase_after (h : list call) : phase :=
  fold_left (fun ph c => match next ph c with Some ph' => ph' | None => ph end) h NotInit.
Definition accepted (o : oinit) (h : list call) (c : call) : Prop := snd (exec o c (run o h (fresh o))) = true.

(** ** proofs *)
Local Arguments init_rejects : simpl never.
Local Arguments sync_rejects : simpl never.
Local Arguments async_rejects : simpl never.
Local Arguments adjust_timesteps : simpl never.
Local Arguments cond_ops : simpl never.
Local Arguments ops_before_chem : simpl never.
Local Arguments chem_throws : simpl never.
Local Arguments async_ops1 : simpl never.
Local Arguments async_ops2 : simpl never.

Definition phase_of (s : obj) : phase :=
  if now_async s then AsyncDue else if now_cond s then Synced else if init_called s then Idle else NotInit.
Definition inv (s : obj) : Prop :=
  (now_cond s = true -> now_async s = false) /\ (now_cond s || now_async s = true -> init_called s = true).

Lemma adjust_some o p s : dt_ok o p -> adjust_timesteps o (o_dt p) s <> None.
Proof.
  unfold adjust_timesteps, dt_ok. intros H. destruct (Rltb 0 (o_dt p)) eqn:E; cbn [andb]; [|discriminate].
  apply Rltb_true in E. destruct H as [H|H]; [lra|]. rewrite H. discriminate.
Qed.
Lemma adjust_flags o d s s' : adjust_timesteps o d s = Some s' ->
  init_called s' = init_called s /\ now_cond s' = now_cond s /\ now_async s' = now_async s /\ done s' = done s /\
  scheme_pc s' = scheme_pc s /\ cx_large s' = cx_large s.
Proof.
  unfold adjust_timesteps. destruct (Rltb 0 d && negb (variable_dt o)); [discriminate|]. intros [= <-].
  cbn. repeat split; reflexivity.
Qed.
Lemma chem_fine o p s : (o_chem_dsl p = true \/ o_chem_dsc p = true \/ o_chem_rct p = true -> chem_sw o = true) -> chem_throws o p s = false.
Proof.
  unfold chem_throws, chem_on. intros H. destruct (chem_sw o); [reflexivity|].
  destruct (o_chem_dsl p), (o_chem_dsc p), (o_chem_rct p); cbn [orb andb negb]; try reflexivity; exfalso; (assert (false = true) by (apply H; auto)); discriminate.
Qed.
Lemma sync_flags o a s : let '(s', ok) := sync_in o a s in
  (ok = false -> s' = s) /\
  (ok = true -> init_called s = true /\ now_async s = false /\ sync_rejects o a = false /\
     init_called s' = true /\ now_cond s' = true /\ now_async s' = false).
Proof.
  unfold sync_in. destruct (init_called s) eqn:E1; cbn [negb]; [|split; [auto|discriminate]].
  destruct (now_async s) eqn:E2; [split; [auto|discriminate]|].
  destruct (sync_rejects o a); [split; [auto|discriminate]|].
  split; [discriminate|]. intros _. repeat split; auto.
Qed.
Lemma cond_flags o p s : let '(s', ok) := step_cond o p s in
  (now_cond s = false -> s' = s) /\
  (ok = false -> init_called s' = init_called s /\ now_async s' = now_async s /\ (now_cond s' = true -> now_cond s = true)) /\
  (ok = true -> now_cond s = true /\ init_called s' = init_called s /\ now_cond s' = false /\ now_async s' = true).
Proof.
  unfold step_cond. destruct (now_cond s) eqn:E1; cbn [negb].
  2:{ split; [auto|]. split; [intros _; split; [auto|split; [auto|congruence]]|discriminate]. }
  destruct (o_turb_cond p && negb (turb_cond_sw o)).
  { split; [intros [=]|]. split; [intros _; split; [auto|split; [auto|congruence]]|discriminate]. }
  set (s1 := set_flags s (init_called s) false (now_async s)).
  destruct (adjust_timesteps o (o_dt p) s1) as [s2|] eqn:E.
  - apply adjust_flags in E. destruct E as (A & B & C & D & _). cbn in A, B, C, D.
    destruct (chem_throws o p s2).
    + split; [intros [=]|]. split; [|discriminate]. intros _. cbn. rewrite A, B, C. auto.
    + split; [intros [=]|]. split; [discriminate|]. intros _. cbn. rewrite A, B. auto.
  - split; [intros [=]|]. split; [|discriminate]. intros _. cbn. auto.
Qed.
Lemma async_flags o p r s : let '(s', ok) := step_async o p r s in
  (now_async s = false -> s' = s) /\
  (ok = true -> now_async s = true) /\
  (now_async s = true -> init_called s' = init_called s /\ now_async s' = false /\ now_cond s' = now_cond s).
Proof.
  unfold step_async. destruct (now_async s) eqn:E1; cbn [negb].
  2:{ split; [auto|]. split; discriminate. }
  set (s0 := set_flags s (init_called s) (now_cond s) false).
  destruct (async_rejects o p).
  { split; [intros [=]|]. split; [discriminate|]. intros _. cbn. auto. }
  destruct (adjust_timesteps o (o_dt p) s0) as [s1|] eqn:E.
  2:{ split; [intros [=]|]. split; [discriminate|]. intros _. cbn. auto. }
  apply adjust_flags in E. destruct E as (A & B & C & _). cbn in A, B, C. cbv zeta.
  set (inc := _ || _). set (s3 := if o_coal p && inc then _ else _).
  assert (H3 : init_called s3 = init_called s /\ now_async s3 = false /\ now_cond s3 = now_cond s).
  { unfold s3. destruct (o_coal p && inc); cbn; auto. }
  clearbody s3. destruct H3 as (H31 & H32 & H33).
  set (sh := o_src p && _). destruct (sh && negb (src_on o)).
  { split; [intros [=]|]. split; [auto|]. intros _. cbn. auto. }
  set (s5 := if sh then log _ _ else _).
  assert (H5 : init_called s5 = init_called s /\ now_async s5 = false /\ now_cond s5 = now_cond s).
  { unfold s5. destruct sh; cbn; auto. }
  clearbody s5.
  destruct (o_rlx p && negb (rlx_sw o)).
  { split; [intros [=]|]. split; [auto|]. intros _. cbn. auto. }
  split; [intros [=]|]. split; [auto|]. intros _.
  destruct (o_rlx p && _); cbn; auto.
Qed.
Lemma init_flags o a s : let '(s', ok) := init o a s in
  (init_called s = true -> s' = s /\ ok = false) /\
  (init_called s = false -> init_called s' = true /\ now_cond s' = now_cond s /\ now_async s' = now_async s /\
      ok = negb (init_rejects o a)).
Proof.
  unfold init. destruct (init_called s) eqn:E1; [split; [auto|discriminate]|].
  destruct (init_rejects o a); (split; [discriminate|]; intros _); [cbn; auto|].
  destruct (a_cx a); cbn; auto.
Qed.

Lemma step_sync_eq o a p s : step_sync o a p s =
  if snd (sync_in o a s) then step_cond o p (fst (sync_in o a s)) else (fst (sync_in o a s), false).
Proof. unfold step_sync. destruct (sync_in o a s) as [s1 ok]. reflexivity. Qed.

Lemma exec_inv o c s : inv s -> inv (fst (exec o c s)).
Proof.
  intros [I1 I2].
  assert (HC : forall p s, inv s -> inv (fst (step_cond o p s))).
  { intros p t [J1 J2]. pose proof (cond_flags o p t) as HF. destruct (step_cond o p t) as [t' ok]. cbn [fst].
    destruct HF as (F1 & F2 & F3). destruct ok.
    - destruct (F3 eq_refl) as (A & B & C & D). split; [rewrite C; discriminate|]. intros _. rewrite B. apply J2. rewrite A. reflexivity.
    - destruct (F2 eq_refl) as (A & B & C). split.
      + intros H. rewrite B. apply J1. auto.
      + intros H. rewrite A. apply J2. rewrite B in H. apply orb_true_iff in H. apply orb_true_iff. destruct H; auto. }
  assert (HS : forall a s, inv s -> inv (fst (sync_in o a s))).
  { intros a t [J1 J2]. pose proof (sync_flags o a t) as HF. destruct (sync_in o a t) as [t' ok]. cbn [fst].
    destruct HF as (F1 & F2). destruct ok.
    - destruct (F2 eq_refl) as (A & B & C & D & E & F). split; auto.
    - rewrite (F1 eq_refl). split; auto. }
  destruct c as [a|a|p|a p|p r]; cbn [exec].
  - pose proof (init_flags o a s) as HF. destruct (init o a s) as [s' ok]. cbn [fst].
    destruct (init_called s) eqn:E; destruct HF as [F1 F2].
    + destruct (F1 eq_refl) as [-> _]. split; auto.
    + destruct (F2 eq_refl) as (A & B & C & _). split; [rewrite B, C; auto|rewrite A; auto].
  - apply HS. split; auto.
  - apply HC. split; auto.
  - rewrite step_sync_eq. destruct (snd (sync_in o a s)); cbn [fst]; [apply HC|]; apply HS; split; auto.
  - pose proof (async_flags o p r s) as HF. destruct (step_async o p r s) as [s' ok]. cbn [fst].
    destruct HF as (F1 & F2 & F3). destruct (now_async s) eqn:E.
    + destruct (F3 eq_refl) as (A & B & C). split; [auto|]. intros _. rewrite A. apply I2. apply orb_true_r.
    + rewrite (F1 eq_refl). split; [auto|]. rewrite E. exact I2.
Qed.
Lemma run_inv o h s : inv s -> inv (run o h s).
Proof. revert s. induction h as [|c h IH]; intros s H; [exact H|]. cbn. apply IH. now apply exec_inv. Qed.
Lemma inv_fresh o : inv (fresh o).
Proof. split; cbn; auto. Qed.

(** effect of a call on the phase, for well-formed calls *)
Lemma exec_phase o c s : inv s -> well_formed o c ->
  let '(s', ok) := exec o c s in
  match next (phase_of s) c with
  | Some ph => ok = true /\ phase_of s' = ph
  | None => ok = false /\ s' = s
  end.
Proof.
  intros [I1 I2] Hwf.
  destruct c as [a|a|p|a p|p r]; cbn [exec well_formed] in *.
  - unfold phase_of, init. rewrite Hwf.
    destruct (now_async s) eqn:EA, (now_cond s) eqn:EC, (init_called s) eqn:EI; cbn [next]; auto;
      try (specialize (I2 eq_refl); discriminate).
    split; [reflexivity|]. destruct (a_cx a); cbn; rewrite ?EA, ?EC; reflexivity.
  - unfold phase_of, sync_in. rewrite Hwf.
    destruct (now_async s) eqn:EA, (now_cond s) eqn:EC, (init_called s) eqn:EI; cbn [next negb]; auto;
      try (specialize (I2 eq_refl); discriminate).
  - pose proof (adjust_some o p (set_flags s (init_called s) false (now_async s)) (proj2 (proj2 Hwf))) as HA.
    unfold phase_of at 1, step_cond.
    assert (ET : o_turb_cond p && negb (turb_cond_sw o) = false).
    { destruct Hwf as [H _]. destruct (o_turb_cond p); [rewrite H by auto|]; reflexivity. }
    rewrite ET.
    destruct (now_async s) eqn:EA, (now_cond s) eqn:EC, (init_called s) eqn:EI; cbn [next negb]; auto;
      try (specialize (I2 eq_refl); discriminate); try (specialize (I1 eq_refl); discriminate).
    destruct (adjust_timesteps o (o_dt p) _) as [s2|]; [|contradiction]. rewrite (chem_fine o p s2 (proj1 (proj2 Hwf))).
    split; [reflexivity|]. reflexivity.
  - destruct Hwf as [Hw1 Hw2].
    unfold step_sync, sync_in. rewrite Hw1.
    unfold phase_of at 1.
    destruct (now_async s) eqn:EA, (now_cond s) eqn:EC, (init_called s) eqn:EI; cbn [next negb]; auto;
      try (specialize (I2 eq_refl); discriminate);
      unfold step_cond; cbn [now_cond set_flags negb];
      (assert (ET : o_turb_cond p && negb (turb_cond_sw o) = false);
       [destruct Hw2 as [H _]; destruct (o_turb_cond p); [rewrite H by auto|]; reflexivity|]);
      rewrite ET;
      match goal with |- context [adjust_timesteps o (o_dt p) ?t] =>
        pose proof (adjust_some o p t (proj2 (proj2 Hw2))) as HA; destruct (adjust_timesteps o (o_dt p) t) as [s2|]; [|contradiction] end;
      rewrite (chem_fine o p s2 (proj1 (proj2 Hw2))); split; reflexivity.
  - destruct Hwf as (Hw1 & Hw2 & Hw3 & Hw4).
    pose proof (async_flags o p r s) as HF.
    destruct (now_async s) eqn:EA.
    2:{ assert (En : next (phase_of s) (StepAsync p r) = None).
        { unfold phase_of. rewrite EA. destruct (now_cond s), (init_called s); reflexivity. }
        rewrite En. destruct (step_async o p r s) as [s' ok]. destruct HF as (F1 & F2 & _).
        split; [|auto]. destruct ok; [specialize (F2 eq_refl); discriminate|reflexivity]. }
    assert (EC : now_cond s = false) by (destruct (now_cond s); [specialize (I1 eq_refl); discriminate|reflexivity]).
    assert (EI : init_called s = true) by (apply I2; apply orb_true_r).
    unfold phase_of at 1. rewrite EA. cbn [next].
    assert (Hok : snd (step_async o p r s) = true).
    { unfold step_async. rewrite EA, Hw1. cbn [negb].
      pose proof (adjust_some o p (set_flags s (init_called s) (now_cond s) false) Hw2) as HA.
      destruct (adjust_timesteps o (o_dt p) _) as [s1|]; [|contradiction].
      assert (Esrc : (o_src p && negb (Reqb (src_x0 o) 0 && Reqb (src_x1 o) 0)) && negb (src_on o) = false).
      { destruct (o_src p && negb (Reqb (src_x0 o) 0 && Reqb (src_x1 o) 0)) eqn:E; [|reflexivity].
        cbn [andb]. assert (src_type o <> src_off).
        { apply Hw3. apply andb_true_iff in E as [E1 E2]. split; [exact E1|]. intros [H1 H2].
          apply Reqb_true in H1. apply Reqb_true in H2. rewrite H1, H2 in E2. discriminate. }
        unfold src_on. destruct (src_type o); [contradiction|reflexivity|reflexivity]. }
      rewrite Esrc.
      assert (Erlx : o_rlx p && negb (rlx_sw o) = false).
      { destruct (o_rlx p); [rewrite Hw4 by auto|]; reflexivity. }
      rewrite Erlx. reflexivity. }
    destruct (step_async o p r s) as [s' ok]. cbn [snd] in Hok. destruct HF as (_ & _ & F3).
    destruct (F3 eq_refl) as (A & B & C). split; [exact Hok|].
    unfold phase_of. rewrite A, B, C, EC, EI. reflexivity.
Qed.

Lemma phase_run o h : Forall (well_formed o) h -> phase_of (run o h (fresh o)) = phase_after h.
Proof.
  intros H. unfold phase_after.
  assert (G : forall s ph, inv s -> phase_of s = ph ->
     phase_of (run o h s) = fold_left (fun ph c => match next ph c with Some ph' => ph' | None => ph end) h ph).
  { induction H as [|c h Hc Hh IH]; intros s ph Hi E; [exact E|]. cbn [run fold_left].
    pose proof (exec_phase o c s Hi Hc) as He. pose proof (exec_inv o c s Hi) as Hi'.
    unfold run in IH. apply IH; [exact Hi'|].
    destruct (exec o c s) as [s' ok]. cbn [fst] in *. rewrite E in He.
    destruct (next ph c); destruct He as [_ He]; [exact He|now subst]. }
  apply G; [apply inv_fresh|reflexivity].
Qed.

(** C13. With acceptable arguments a call is accepted exactly when it is next in the protocol;
    otherwise it throws and changes nothing. *)
Theorem C13_accepted_iff_in_order :
  forall o h c, Forall (well_formed o) h -> well_formed o c ->
    (accepted o h c <-> next (phase_after h) c <> None) /\
    (next (phase_after h) c = None -> run o (h ++ [c]) (fresh o) = run o h (fresh o)).
Proof.
  intros o h c Hh Hc. unfold accepted.
  pose proof (exec_phase o c (run o h (fresh o)) (run_inv o h _ (inv_fresh o)) Hc) as He.
  rewrite phase_run in He by auto.
  assert (Er : run o (h ++ [c]) (fresh o) = fst (exec o c (run o h (fresh o)))) by (unfold run; rewrite fold_left_app; reflexivity).
  rewrite Er. destruct (exec o c (run o h (fresh o))) as [s' ok]. cbn [fst snd].
  destruct (next (phase_after h) c); destruct He as [-> He].
  - split; [split; [discriminate|auto]|discriminate].
  - split; [split; [discriminate|contradiction]|auto].
Qed.
Print Assumptions C13_accepted_iff_in_order.

(** C13, any arguments whatsoever: never are condensation and the asynchronous step both pending, *)
Theorem C13_never_both_pending :
  forall o h, let s := run o h (fresh o) in now_cond s = true -> now_async s = false.
Proof. intros o h. exact (proj1 (run_inv o h _ (inv_fresh o))). Qed.
Print Assumptions C13_never_both_pending.

(** an accepted step_cond is directly preceded (rejected calls aside) by an accepted sync_in, an accepted
    step_async by an accepted step_cond or step_sync. *)
Definition none_accepted (o : oinit) (h1 h2 : list call) : Prop :=
  forall h2a c h2b, h2 = h2a ++ c :: h2b -> ~ accepted o (h1 ++ h2a) c.

Lemma run_snoc o h c s : run o (h ++ [c]) s = fst (exec o c (run o h s)).
Proof. unfold run. rewrite fold_left_app. reflexivity. Qed.
Lemma none_accepted_nil o h : none_accepted o h [].
Proof. intros a c b H. destruct a; discriminate. Qed.
Lemma none_accepted_snoc o h1 h2 c : none_accepted o h1 h2 -> ~ accepted o (h1 ++ h2) c -> none_accepted o h1 (h2 ++ [c]).
Proof.
  intros H Hc a c' b E. destruct b as [|x b _] using rev_ind.
  - apply app_inj_tail in E as [-> ->]. exact Hc.
  - rewrite app_comm_cons, app_assoc in E. apply app_inj_tail in E as [E _]. now apply (H a c' b).
Qed.

Definition enables_cond (c : call) : Prop := match c with SyncIn _ => True | StepSync _ _ => True | _ => False end.
Definition enables_async (c : call) : Prop := match c with StepCond _ | StepSync _ _ => True | _ => False end.

(** a step_sync whose second half is rejected counts as the sync_in it performed *)
Definition synced_in (o : oinit) (h : list call) (c : call) : Prop :=
  match c with
  | SyncIn _ => accepted o h c
  | StepSync a _ => accepted o h (SyncIn a) /\ ~ accepted o h c
  | _ => False
  end.

Lemma pending_history o h :
  (now_cond (run o h (fresh o)) = true ->
     exists h1 c h2, h = h1 ++ c :: h2 /\ synced_in o h1 c /\ none_accepted o (h1 ++ [c]) h2) /\
  (now_async (run o h (fresh o)) = true ->
     exists h1 c h2, h = h1 ++ c :: h2 /\ enables_async c /\ accepted o h1 c /\ none_accepted o (h1 ++ [c]) h2).
Proof.
  induction h as [|c h IH] using rev_ind; [split; discriminate|].
  rewrite run_snoc. set (s := run o h (fresh o)) in *. pose proof (run_inv o h _ (inv_fresh o)) as Hi. fold s in Hi.
  destruct IH as [IHc IHa]. destruct Hi as [I1 I2].
  assert (KEEPc : now_cond s = true -> ~ accepted o h c ->
     exists h1 c0 h2, h ++ [c] = h1 ++ c0 :: h2 /\ synced_in o h1 c0 /\ none_accepted o (h1 ++ [c0]) h2).
  { intros H Hn. destruct (IHc H) as (h1 & c0 & h2 & E & A & N). exists h1, c0, (h2 ++ [c]).
    split; [rewrite E, <- app_assoc; reflexivity|]. split; [exact A|]. apply none_accepted_snoc; [exact N|].
    rewrite <- app_assoc. cbn [app]. now rewrite <- E. }
  assert (KEEPa : now_async s = true -> ~ accepted o h c ->
     exists h1 c0 h2, h ++ [c] = h1 ++ c0 :: h2 /\ enables_async c0 /\ accepted o h1 c0 /\ none_accepted o (h1 ++ [c0]) h2).
  { intros H Hn. destruct (IHa H) as (h1 & c0 & h2 & E & A & B & N). exists h1, c0, (h2 ++ [c]).
    split; [rewrite E, <- app_assoc; reflexivity|]. split; [exact A|]. split; [exact B|]. apply none_accepted_snoc; [exact N|].
    rewrite <- app_assoc. cbn [app]. now rewrite <- E. }
  assert (ACC : accepted o h c <-> snd (exec o c s) = true) by reflexivity.
  destruct c as [a|a|p|a p|p r]; cbn [exec] in *.
  - pose proof (init_flags o a s) as HF. destruct (init o a s) as [s' ok]. cbn [fst snd] in *. destruct HF as [F1 F2].
    destruct (init_called s) eqn:EI.
    + destruct (F1 eq_refl) as [-> ->]. split; intros H; [apply KEEPc|apply KEEPa]; auto; rewrite ACC; discriminate.
    + destruct (F2 eq_refl) as (_ & B & C & _). rewrite B, C.
      split; intros H; rewrite H in I2; [|rewrite orb_true_r in I2]; specialize (I2 eq_refl); discriminate.
  - pose proof (sync_flags o a s) as HF. destruct (sync_in o a s) as [s' ok]. cbn [fst snd] in *. destruct HF as [F1 F2].
    destruct ok.
    + destruct (F2 eq_refl) as (_ & _ & _ & _ & B & C). rewrite B, C. split; [intros _|discriminate].
      exists h, (SyncIn a), []. split; [reflexivity|]. split; [apply ACC; reflexivity|apply none_accepted_nil].
    + rewrite (F1 eq_refl). split; intros H; [apply KEEPc|apply KEEPa]; auto; rewrite ACC; discriminate.
  - pose proof (cond_flags o p s) as HF. destruct (step_cond o p s) as [s' ok]. cbn [fst snd] in *. destruct HF as (F1 & F2 & F3).
    destruct ok.
    + destruct (F3 eq_refl) as (_ & _ & B & C). rewrite B, C. split; [discriminate|intros _].
      exists h, (StepCond p), []. split; [reflexivity|]. split; [exact I|]. split; [apply ACC; reflexivity|apply none_accepted_nil].
    + destruct (F2 eq_refl) as (_ & B & C). rewrite B. split; intros H; [apply KEEPc|apply KEEPa]; auto; rewrite ACC; discriminate.
  - assert (ACC1 : accepted o h (SyncIn a) <-> snd (sync_in o a s) = true) by reflexivity.
    rewrite step_sync_eq in *.
    pose proof (sync_flags o a s) as HF. destruct (sync_in o a s) as [s1 ok1]. cbn [fst snd] in *. destruct HF as [F1 F2].
    destruct ok1.
    2:{ cbn [fst snd] in *. rewrite (F1 eq_refl). split; intros H; [apply KEEPc|apply KEEPa]; auto; rewrite ACC; discriminate. }
    destruct (F2 eq_refl) as (_ & _ & _ & G1 & G2 & G3).
    pose proof (cond_flags o p s1) as HF. destruct (step_cond o p s1) as [s' ok]. cbn [fst snd] in *. destruct HF as (E1 & E2 & E3).
    destruct ok.
    + destruct (E3 eq_refl) as (_ & _ & B & C). rewrite B, C. split; [discriminate|intros _].
      exists h, (StepSync a p), []. split; [reflexivity|]. split; [exact I|]. split; [apply ACC; reflexivity|apply none_accepted_nil].
    + destruct (E2 eq_refl) as (_ & B & C). rewrite B, G3. split; [intros H|discriminate].
      exists h, (StepSync a p), []. split; [reflexivity|]. split; [|apply none_accepted_nil].
      split; [apply ACC1; reflexivity|rewrite ACC; discriminate].
  - pose proof (async_flags o p r s) as HF. destruct (step_async o p r s) as [s' ok]. cbn [fst snd] in *. destruct HF as (F1 & F2 & F3).
    destruct (now_async s) eqn:EA.
    + destruct (F3 eq_refl) as (_ & B & C). rewrite B, C. split; [|discriminate].
      intros H. specialize (I1 H). discriminate.
    + rewrite (F1 eq_refl). split; intros H; [|rewrite H in EA; discriminate]. apply KEEPc; [auto|].
      rewrite ACC. intros ->. specialize (F2 eq_refl). discriminate.
Qed.

Theorem C13_accepted_calls_chain :
  forall o h,
    (forall p, accepted o h (StepCond p) ->
       exists h1 c h2, h = h1 ++ c :: h2 /\ synced_in o h1 c /\ none_accepted o (h1 ++ [c]) h2) /\
    (forall p r, accepted o h (StepAsync p r) ->
       exists h1 c h2, h = h1 ++ c :: h2 /\ enables_async c /\ accepted o h1 c /\ none_accepted o (h1 ++ [c]) h2).
Proof.
  intros o h. destruct (pending_history o h) as [Hc Ha]. split.
  - intros p H. apply Hc. unfold accepted in H. cbn [exec] in H.
    pose proof (cond_flags o p (run o h (fresh o))) as HF. destruct (step_cond o p _) as [s' ok]. cbn [snd] in H. subst ok.
    now apply HF.
  - intros p r H. apply Ha. unfold accepted in H. cbn [exec] in H.
    pose proof (async_flags o p r (run o h (fresh o))) as HF. destruct (step_async o p r _) as [s' ok]. cbn [snd] in H. subst ok.
    now apply HF.
Qed.
Print Assumptions C13_accepted_calls_chain.

(** before init nothing else is accepted, whatever the arguments *)
Theorem C13_nothing_before_init :
  forall o h c, (forall a, ~ In (Init a) h) -> accepted o h c -> exists a, c = Init a.
Proof.
  intros o h c Hh.
  assert (HI : init_called (run o h (fresh o)) = false).
  { revert Hh. induction h as [|c' h IH] using rev_ind; intros Hh; [reflexivity|].
    rewrite run_snoc. assert (IHs : init_called (run o h (fresh o)) = false).
    { apply IH. intros a Hin. apply (Hh a). apply in_or_app. now left. }
    pose proof (run_inv o h _ (inv_fresh o)) as [I1 I2]. set (s := run o h (fresh o)) in *.
    assert (now_cond s = false /\ now_async s = false) as [EC EA].
    { destruct (now_cond s), (now_async s); cbn in *; try (specialize (I2 eq_refl); congruence); auto. }
    destruct c' as [a|a|p|a p|p r]; cbn [exec].
    - exfalso. apply (Hh a). apply in_or_app. right. now left.
    - unfold sync_in. rewrite IHs. cbn. exact IHs.
    - unfold step_cond. rewrite EC. exact IHs.
    - unfold step_sync, sync_in. rewrite IHs. cbn. exact IHs.
    - unfold step_async. rewrite EA. exact IHs. }
  pose proof (run_inv o h _ (inv_fresh o)) as [I1 I2]. unfold accepted. set (s := run o h (fresh o)) in *.
  assert (now_cond s = false /\ now_async s = false) as [EC EA].
  { destruct (now_cond s), (now_async s); cbn in *; try (specialize (I2 eq_refl); congruence); auto. }
  destruct c as [a|a|p|a p|p r]; cbn [exec].
  - eauto.
  - unfold sync_in. rewrite HI. discriminate.
  - unfold step_cond. rewrite EC. discriminate.
  - unfold step_sync, sync_in. rewrite HI. discriminate.
  - unfold step_async. rewrite EA. discriminate.
Qed.
Print Assumptions C13_nothing_before_init.

(** a default-like configuration, for instances *)
Definition ex_o : oinit :=
  mk_oinit 4 0 4 1 1 1 0 4 0 1 0 4 1 1 2 1 1 true 64 0 false 1 0 false false false true true false false
           false false false false false true false 0 [] 0 false false false src_off 0 0 0 0 1 1 true false false.
Definition ex_a : args := mk_args true true true false true false true false 0 false.
Definition ex_p : opts := mk_opts true true false true true false false true false false false false false false false (-1).
Ltac Rbool := unfold Rleb, Rltb, Reqb, m1r; cbn;
  repeat match goal with
  | |- context [Rle_dec ?a ?b] => destruct (Rle_dec a b); [|exfalso; lra] || (destruct (Rle_dec a b); [exfalso; lra|])
  | |- context [Rlt_dec ?a ?b] => destruct (Rlt_dec a b); [|exfalso; lra] || (destruct (Rlt_dec a b); [exfalso; lra|])
  | |- context [Req_EM_T ?a ?b] => destruct (Req_EM_T a b); [|exfalso; lra] || (destruct (Req_EM_T a b); [exfalso; lra|])
  end; cbn.
Theorem C13_instance :
  init_rejects ex_o ex_a = false /\ sync_rejects ex_o ex_a = false /\ cond_ok ex_o ex_p /\ async_ok ex_o ex_p /\
  phase_after [Init ex_a; StepSync ex_a ex_p; StepAsync ex_p false; SyncIn ex_a; StepCond ex_p] = AsyncDue.
Proof.
  split. { unfold init_rejects. cbn. unfold mul64, wrap64, W64. Rbool. reflexivity. }
  split. { reflexivity. }
  split. { split; [discriminate|]. split; [intros [H|[H|H]]; discriminate|left; cbn; lra]. }
  split. { split; [reflexivity|]. split; [left; cbn; lra|]. split; [|discriminate]. intros [H _]. discriminate. }
  reflexivity.
Qed.

(** ** C14: what the code does after a rejected init. The claim (stepping refused, init can be repeated) is
    false: the object counts as initialised although none of its arrays has been set up. *)
Theorem C14_failed_init_refuted :
  forall o a, init_rejects o a = true ->
    (forall a', sync_rejects o a' = false -> accepted o [Init a] (SyncIn a')) /\
    (forall h a', ~ accepted o (Init a :: h) (Init a')) /\
    done (run o [Init a] (fresh o)) = [].
Proof.
  intros o a Ha.
  assert (E : run o [Init a] (fresh o) = set_flags (fresh o) true false false).
  { cbn. unfold init. cbn [init_called fresh]. rewrite Ha. reflexivity. }
  split; [|split].
  - intros a' Ha'. unfold accepted. rewrite E. cbn. unfold sync_in. rewrite Ha'. reflexivity.
  - intros h a' H. unfold accepted in H. change (Init a :: h) with ([Init a] ++ h) in H. unfold run in H.
    rewrite fold_left_app in H. fold (run o [Init a] (fresh o)) in H. rewrite E in H.
    assert (HI : init_called (run o h (set_flags (fresh o) true false false)) = true).
    { clear H. assert (G : forall s, init_called s = true -> init_called (run o h s) = true).
      { induction h as [|c h IH]; intros s Hs; [exact Hs|]. cbn. apply IH. clear IH.
        destruct c as [b|b|p|b p|p r]; cbn [exec].
        - unfold init. rewrite Hs. exact Hs.
        - pose proof (sync_flags o b s) as HF. destruct (sync_in o b s) as [s' ok]. cbn. destruct ok; destruct HF as [F1 F2]; [now apply F2|now rewrite F1].
        - pose proof (cond_flags o p s) as HF. destruct (step_cond o p s) as [s' ok]. cbn. destruct HF as (_ & F2 & F3). destruct ok; [destruct (F3 eq_refl) as (_ & -> & _)|destruct (F2 eq_refl) as (-> & _)]; exact Hs.
        - rewrite step_sync_eq. pose proof (sync_flags o b s) as HF. destruct (sync_in o b s) as [s1 ok1]. cbn [fst snd]. destruct HF as [F1 F2].
          destruct ok1; [|cbn; now rewrite F1]. assert (init_called s1 = true) by now apply F2.
          pose proof (cond_flags o p s1) as HF. destruct (step_cond o p s1) as [s' ok]. cbn. destruct HF as (_ & E2 & E3). destruct ok; [destruct (E3 eq_refl) as (_ & -> & _)|destruct (E2 eq_refl) as (-> & _)]; auto.
        - pose proof (async_flags o p r s) as HF. destruct (step_async o p r s) as [s' ok]. cbn. destruct HF as (F1 & _ & F3).
          destruct (now_async s); [destruct (F3 eq_refl) as (-> & _); exact Hs|now rewrite F1]. }
      now apply G. }
    unfold run in HI. cbn [exec] in H. unfold init in H. rewrite HI in H. discriminate.
  - rewrite E. reflexivity.
Qed.
Print Assumptions C14_failed_init_refuted.
Theorem C14_instance : init_rejects ex_o (mk_args false true true false true false true false 0 false) = true /\ sync_rejects ex_o ex_a = false.
Proof. split; reflexivity. Qed.

Print Assumptions C13_instance.
Print Assumptions C14_instance.
