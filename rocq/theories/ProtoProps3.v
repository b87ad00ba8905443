(** C47 (continued): the order of all operations of a time step; C42 (continued): the arguments sync_in accepts;
    C50: sources and relaxation act every so many steps. *)
From Coq Require Import List Arith NArith ZArith Lia Reals Lra Bool Sorted.
From Verif Require Import Base BaseProofs ProtoModel ProtoProps ProtoProps2 SanityProps.
Import ListNotations.
Local Open Scope R_scope.

(** what step_async does between the displacements and the boundary conditions, exactly *)
Definition src_op (o : oinit) (p : opts) (k : Z) : list op :=
  if o_src p && negb (Reqb (src_x0 o) 0 && Reqb (src_x1 o) 0) then [OpSrc k] else [].
Definition rlx_op (o : oinit) (p : opts) (k : Z) (d : R) : list op :=
  if o_rlx p && (Z.rem k (supstp_rlx o) =? 0)%Z then [OpRlx (IZR (supstp_rlx o) * d)] else [].
Lemma async_exact o p r s : snd (step_async o p r s) = true ->
  exists s1, adjust_timesteps o (o_dt p) (set_flags s (init_called s) (now_cond s) false) = Some s1 /\
    done (fst (step_async o p r s)) =
      done s ++ async_ops1 p s1 ++ src_op o p (src_ctr s) ++ rlx_op o p (rlx_ctr s) (dt s1) ++ async_ops2 o p /\
    src_ctr (fst (step_async o p r s)) = (if o_src p then src_ctr s + 1 else 0)%Z /\
    rlx_ctr (fst (step_async o p r s)) = (if o_rlx p then rlx_ctr s + 1 else 0)%Z.
Proof.
  unfold step_async. destruct (now_async s); cbn [negb]; [|discriminate].
  destruct (async_rejects o p); [discriminate|].
  destruct (adjust_timesteps o (o_dt p) _) as [s1|] eqn:E; [|discriminate].
  assert (E0 : done s1 = done s /\ src_ctr s1 = src_ctr s /\ rlx_ctr s1 = rlx_ctr s).
  { unfold adjust_timesteps in E. destruct (Rltb 0 (o_dt p) && negb (variable_dt o)); inversion E; cbn; auto. }
  destruct E0 as (E0 & E1 & E2).
  cbv zeta. set (inc := _ || _). set (s3 := if o_coal p && inc then _ else _).
  assert (H3 : done s3 = done s ++ async_ops1 p s1 /\ src_ctr s3 = src_ctr s /\ rlx_ctr s3 = rlx_ctr s /\ dt s3 = dt s1).
  { unfold s3. destruct (o_coal p && inc); cbn; rewrite E0, E1, E2; auto. }
  clearbody s3. destruct H3 as (H31 & H32 & H33 & H34).
  unfold src_op, rlx_op. set (sh := o_src p && _).
  destruct (sh && negb (src_on o)); [discriminate|].
  destruct (o_rlx p && negb (rlx_sw o)); [discriminate|]. intros _. exists s1. split; auto.
  destruct sh; cbn; rewrite ?H33, ?H34;
    destruct (o_rlx p && (Z.rem (rlx_ctr s) (supstp_rlx o) =? 0)%Z); cbn; rewrite ?H31, ?H32, ?H33, ?H34, <- ?app_assoc; cbn; auto.
Qed.
Lemma ops_exact o h p r : accepted o h (StepAsync p r) ->
  exists s1, dt s1 = dt_eff o p /\ ops_of o h (StepAsync p r) =
    async_ops1 p s1 ++ src_op o p (src_ctr (run o h (fresh o))) ++ rlx_op o p (rlx_ctr (run o h (fresh o))) (dt s1) ++ async_ops2 o p.
Proof.
  unfold accepted, ops_of. rewrite run_snoc. cbn [exec]. intros H. apply async_exact in H.
  destruct H as (s1 & A & B & _). apply adjust_spec in A. exists s1. split; [tauto|]. now rewrite B, skipn_app_len.
Qed.

(** ** C47: the order of the operations of step_async *)
(** the stage of an operation; operations of step_sync and init have none *)
Definition stage (x : op) : option nat :=
  match x with
  | OpSaveChem => Some 0 | OpTpr => Some 1 | OpVtermAll => Some 2          (* temperature, then fall speeds *)
  | OpCoal _ _ | OpVtermInvalid => Some 3 | OpRc2Invalid => Some 4          (* collisions *)
  | OpTke => Some 5 | OpTurbVel _ => Some 6 | OpTurbDotSs => Some 7         (* turbulence *)
  | OpAdve _ => Some 8 | OpTurbAdve _ => Some 9 | OpSedi _ => Some 10 | OpSubs _ => Some 11  (* displacements *)
  | OpSrc _ => Some 12 | OpRlx _ => Some 13                                 (* new super-droplets *)
  | OpBcnd => Some 14 | OpExchange => Some 15 | OpRcyc | OpRemoveN0 => Some 16 | OpIjk => Some 17 | OpCount => Some 18
  | _ => None
  end%nat.
Definition before_eq (x y : op) : Prop :=
  match stage x, stage y with Some a, Some b => (a <= b)%nat | _, _ => False end.

Definition stg (a b : nat) (l : list op) : Prop :=
  StronglySorted before_eq l /\ Forall (fun x => exists k, stage x = Some k /\ (a <= k <= b)%nat) l.
Lemma stg_nil a b : stg a b []. Proof. split; constructor. Qed.
Lemma stg_one a b x k : stage x = Some k -> (a <= k <= b)%nat -> stg a b [x].
Proof. intros H1 H2. split; repeat constructor. eauto. Qed.
Lemma stg_app a b c d l m : stg a b l -> stg c d m -> (b <= c)%nat -> (a <= c)%nat -> (b <= d)%nat -> stg a d (l ++ m).
Proof.
  intros [S1 F1] [S2 F2] Hbc Hac Hbd. split.
  - induction l as [|x l IH]; cbn; auto. inversion S1; subst. inversion F1; subst. constructor; auto.
    apply Forall_app. split; auto. destruct H3 as [k [Hk Hr]]. eapply Forall_impl; [|exact F2]. cbn. intros y [k' [Hk' Hr']].
    unfold before_eq. rewrite Hk, Hk'. lia.
  - apply Forall_app. split; (eapply Forall_impl; [|eassumption]); cbn; intros y [k' [? ?]]; exists k'; split; auto; lia.
Qed.
Lemma stg_same k l : Forall (fun x => stage x = Some k) l -> stg k k l.
Proof.
  intros F. split.
  - induction F; constructor; auto. eapply Forall_impl; [|exact F]. cbn. intros y Hy. unfold before_eq. rewrite H, Hy. lia.
  - eapply Forall_impl; [|exact F]. cbn. intros y Hy. exists k. split; auto.
Qed.
Ltac stage1 k := apply stg_app with (b := k) (c := S k); [| |lia|lia|lia];
  [repeat match goal with |- context[if ?b then _ else _] => destruct b end; apply stg_same; repeat constructor|].

(** The operations of an accepted step_async come in this order. In particular temperature and fall speeds are
    updated before collisions and sedimentation, and every displacement is followed by the boundary conditions, the
    exchange between processes and the re-indexing. *)
Theorem C47_order_in_full : forall o h p r, accepted o h (StepAsync p r) ->
  StronglySorted before_eq (ops_of o h (StepAsync p r)).
Proof.
  intros o h p r HA. destruct (ops_exact o h p r HA) as (s1 & _ & ->).
  apply (fun H : stg 0 18 _ => proj1 H). unfold async_ops1, async_ops2, src_op, rlx_op. rewrite <- !app_assoc.
  stage1 0%nat. stage1 1%nat. stage1 2%nat.
  apply stg_app with (b := 4%nat) (c := 5%nat); [| |lia|lia|lia].
  { destruct (o_coal p); [|apply stg_nil]. apply stg_app with (b := 3%nat) (c := 4%nat); [| |lia|lia|lia].
    - apply stg_same. unfold coal_ops. apply Forall_forall. intros x Hx. apply in_flat_map in Hx. destruct Hx as [k [_ Hx]].
      destruct Hx as [<-|Hx]; [reflexivity|]. destruct (_ =? _)%Z; [destruct Hx|]. destruct Hx as [<-|[]]. reflexivity.
    - apply stg_same. repeat constructor. }
  stage1 5%nat. stage1 6%nat. stage1 7%nat. stage1 8%nat. stage1 9%nat. stage1 10%nat. stage1 11%nat.
  stage1 12%nat. stage1 13%nat. stage1 14%nat. stage1 15%nat.
  destruct (multi_spawn o); [apply stg_nil|].
  apply (stg_app 16 16 17 18 [_] [OpIjk; OpCount]); try lia.
  - destruct (o_rcyc p); apply stg_same; repeat constructor.
  - apply (stg_app 17 17 18 18 [_] [_]); try lia; apply stg_same; repeat constructor.
Qed.

Lemma in_if {A} (b : bool) (x y : A) : In x (if b then [y] else []) <-> b = true /\ x = y.
Proof. destruct b; cbn; split; intros H; repeat destruct H as [H|H]; try contradiction; auto; destruct H; try discriminate; auto. Qed.
Lemma in_one {A} (x y : A) : In x [y] <-> x = y.
Proof. cbn. split; intros H; auto. destruct H as [H|[]]; auto. Qed.

(** Each operation is performed when, and only when, it was asked for. *)
Theorem C47_what_is_performed : forall o h p r, accepted o h (StepAsync p r) ->
  let l := ops_of o h (StepAsync p r) in
  In OpTpr l /\ In OpBcnd l /\
  (In OpVtermAll l <-> o_sedi p = true \/ o_coal p = true \/ o_cond p = true) /\
  (In OpSaveChem l <-> o_chem_dsl p = true) /\
  (In OpRc2Invalid l <-> o_coal p = true) /\
  (In OpTke l <-> o_turb_adve p = true \/ o_turb_cond p = true) /\
  (In (OpTurbVel false) l <-> o_turb_adve p = true) /\
  (In (OpTurbVel true) l <-> o_turb_adve p = false /\ o_turb_cond p = true) /\
  (In OpTurbDotSs l <-> o_turb_cond p = true) /\
  ((exists b, In (OpAdve b) l) <-> o_adve p = true) /\
  (forall d, In (OpTurbAdve d) l <-> o_turb_adve p = true /\ d = dt_eff o p) /\
  (forall d, In (OpSedi d) l <-> o_sedi p = true /\ d = dt_eff o p) /\
  (forall d, In (OpSubs d) l <-> o_subs p = true /\ d = dt_eff o p).
Proof.
  intros o h p r HA. destruct (ops_exact o h p r HA) as (s1 & Hdt & E). cbv zeta. rewrite E. clear E HA. rewrite <- Hdt.
  assert (C : forall x, In x (coal_ops p s1) -> stage x = Some 3%nat).
  { intros x Hx. apply in_flat_map in Hx. destruct Hx as [k [_ Hx]].
    destruct Hx as [<-|Hx]; [reflexivity|]. destruct (_ =? _)%Z; [destruct Hx|]. destruct Hx as [<-|[]]. reflexivity. }
  assert (I : forall x, stage x <> None -> stage x <> Some 3%nat -> stage x <> Some 16%nat -> stage x <> Some 17%nat -> stage x <> Some 18%nat ->
    (In x (async_ops1 p s1 ++ src_op o p (src_ctr (run o h (fresh o))) ++ rlx_op o p (rlx_ctr (run o h (fresh o))) (dt s1) ++ async_ops2 o p) <->
     (o_chem_dsl p = true /\ x = OpSaveChem) \/ x = OpTpr \/ (o_sedi p || o_coal p || o_cond p = true /\ x = OpVtermAll) \/
     (o_coal p = true /\ x = OpRc2Invalid) \/ (o_turb_adve p || o_turb_cond p = true /\ x = OpTke) \/
     (o_turb_adve p = true /\ x = OpTurbVel false) \/ (o_turb_adve p = false /\ o_turb_cond p = true /\ x = OpTurbVel true) \/
     (o_turb_cond p = true /\ x = OpTurbDotSs) \/ (o_adve p = true /\ x = OpAdve (scheme_pc s1)) \/
     (o_turb_adve p = true /\ x = OpTurbAdve (dt s1)) \/ (o_sedi p = true /\ x = OpSedi (dt s1)) \/
     (o_subs p = true /\ x = OpSubs (dt s1)) \/ In x (src_op o p (src_ctr (run o h (fresh o)))) \/
     In x (rlx_op o p (rlx_ctr (run o h (fresh o))) (dt s1)) \/ x = OpBcnd \/
     (o_adve p || o_turb_adve p = true /\ x = OpExchange))).
  { intros x H0 H3 H16 H17 H18. unfold async_ops1, async_ops2.
    assert (J1 : In x (if o_coal p then coal_ops p s1 ++ [OpRc2Invalid] else []) <-> o_coal p = true /\ x = OpRc2Invalid).
    { destruct (o_coal p); cbn [In]; [|split; [tauto|intros [? ?]; discriminate]]. rewrite in_app_iff, in_one. split; [|tauto].
      intros [H|H]; auto. exfalso. apply H3, C, H. }
    assert (J2 : In x (if o_turb_adve p then [OpTurbVel false] else if o_turb_cond p then [OpTurbVel true] else []) <->
       (o_turb_adve p = true /\ x = OpTurbVel false) \/ (o_turb_adve p = false /\ o_turb_cond p = true /\ x = OpTurbVel true)).
    { destruct (o_turb_adve p); [rewrite in_one; intuition discriminate|]. rewrite in_if. intuition discriminate. }
    assert (J3 : ~ In x (if multi_spawn o then [] else [if o_rcyc p then OpRcyc else OpRemoveN0; OpIjk; OpCount])).
    { destruct (multi_spawn o); cbn [In]; [tauto|]. intros [H|[H|[H|[]]]]; subst x; try (apply H17; reflexivity); try (apply H18; reflexivity).
      apply H16. destruct (o_rcyc p); reflexivity. }
    rewrite !in_app_iff, J1, J2, !in_if, !in_one. clear - J3. tauto. }
  clear C.
  assert (S1 : forall x, In x (src_op o p (src_ctr (run o h (fresh o)))) -> stage x = Some 12%nat).
  { intros x. unfold src_op. rewrite in_if. intros [_ ->]. reflexivity. }
  assert (S2 : forall x, In x (rlx_op o p (rlx_ctr (run o h (fresh o))) (dt s1)) -> stage x = Some 13%nat).
  { intros x. unfold rlx_op. rewrite in_if. intros [_ ->]. reflexivity. }
  setoid_rewrite orb_true_iff in I. setoid_rewrite orb_true_iff in I.
  Ltac pick I S1 S2 := rewrite I by discriminate; split;
    [intros H; repeat (destruct H as [H|H]; [try (apply S1 in H; discriminate H); try (apply S2 in H; discriminate H)|]);
      try (apply S1 in H; discriminate H); try (apply S2 in H; discriminate H);
      repeat match goal with H : _ /\ _ |- _ => destruct H end; try discriminate;
      auto; try congruence; try tauto
    |intros H; tauto].
  split; [rewrite I by discriminate; tauto|]. split; [rewrite I by discriminate; tauto|].
  split; [pick I S1 S2|]. split; [pick I S1 S2|]. split; [pick I S1 S2|]. split; [pick I S1 S2|]. split; [pick I S1 S2|].
  split; [pick I S1 S2|]. split; [pick I S1 S2|].
  split.
  { split.
    - intros [b H]. revert H. rewrite I by discriminate. intros H.
      repeat (destruct H as [H|H]; [try (apply S1 in H; discriminate H); try (apply S2 in H; discriminate H)|]);
      repeat match goal with H : _ /\ _ |- _ => destruct H end; try discriminate; auto.
    - intros H. exists (scheme_pc s1). rewrite I by discriminate. tauto. }
  split; [|split]; intros d; (rewrite I by discriminate; split;
    [intros H; repeat (destruct H as [H|H]; [try (apply S1 in H; discriminate H); try (apply S2 in H; discriminate H)|]);
      repeat match goal with H : _ /\ _ |- _ => destruct H end; try discriminate; split; auto; congruence
    |intros [H ->]; tauto]).
Qed.

(** ** C42: the arguments sync_in accepts *)
Record sync_consistent (o : oinit) (a : args) : Prop := {
  sc_fields : on (a_th a) /\ on (a_rv a);
  sc_courants : (~ on (a_cx a) /\ ~ on (a_cy a) /\ ~ on (a_cz a)) \/
     ((1 <= dims o)%nat /\ on (a_cx a) /\ (on (a_cy a) <-> dims o = 3%nat) /\ (on (a_cz a) <-> (2 <= dims o)%nat));
  sc_chem : a_chem a = if chem_sw o then chem_gas_n else 0%nat;
  (* the dissipation rate exactly when some turbulence process is configured *)
  sc_diss : on (a_diss a) <-> on (turb_adve_sw o) \/ on (turb_cond_sw o) \/ on (turb_coal_sw o)
}.
Lemma sync_rejects_spec o a : sync_rejects o a = false <-> sync_consistent o a.
Proof.
  pose proof (dims_le o) as HD. unfold sync_rejects. rewrite !orb_false_iff.
  assert (C : bad_courants o a = false <-> (~ on (a_cx a) /\ ~ on (a_cy a) /\ ~ on (a_cz a)) \/
     ((1 <= dims o)%nat /\ on (a_cx a) /\ (on (a_cy a) <-> dims o = 3%nat) /\ (on (a_cz a) <-> (2 <= dims o)%nat))).
  { unfold bad_courants. rewrite dims_eq. remember (n_dims o) as n eqn:En. clear En.
    destruct n as [|[|[|[|n]]]]; [| | | |lia]; cbn [Nat.eqb]; unfold on; destruct (a_cx a), (a_cy a), (a_cz a); cbn;
      (split; [intros Hf; try discriminate; first [left; repeat split; discriminate | right; repeat split; auto; try lia; try discriminate; intros; exfalso; lia]
              |intros [[H1 [H2 H3]]|[H0 [H1 [H2 H3]]]]; auto; try (exfalso; lia); try (exfalso; congruence);
               try (exfalso; destruct H2 as [H2 H2'], H3 as [H3 H3']; try (specialize (H2 eq_refl); lia); try (specialize (H3 eq_refl); lia);
                    try (specialize (H2' ltac:(lia)); discriminate); try (specialize (H3' ltac:(lia)); discriminate))]). }
  assert (D : bad_chem o a = false <-> a_chem a = if chem_sw o then chem_gas_n else 0%nat).
  { unfold bad_chem. destruct (chem_sw o); cbn [andb negb orb]; rewrite ?orb_false_r, ?negb_false_iff, ?Nat.eqb_eq; tauto. }
  rewrite C, D. unfold on. split.
  - intros [[[[[H1 H2] H3] H4] H5] H6]. constructor; unfold on; auto.
    + destruct (a_th a), (a_rv a); cbn in *; try discriminate; auto.
    + clear - H5 H6; destruct (turb_adve_sw o), (turb_cond_sw o), (turb_coal_sw o), (a_diss a); cbn in *; try discriminate; intuition congruence.
  - intros [[H1 H1'] H2 H3 H4]. unfold on in *. rewrite H1, H1'. repeat split; auto;
    clear - H4; destruct (turb_adve_sw o), (turb_cond_sw o), (turb_coal_sw o), (a_diss a); cbn in *; auto; exfalso; intuition congruence.
Qed.
Theorem C42_sync_in_accepts : forall o h a,
  accepted o h (SyncIn a) <->
  init_called (run o h (fresh o)) = true /\ now_async (run o h (fresh o)) = false /\ sync_consistent o a.
Proof.
  intros o h a. unfold accepted. cbn [exec]. rewrite <- sync_rejects_spec. unfold sync_in.
  destruct (init_called _), (now_async _), (sync_rejects o a); cbn; intuition congruence.
Qed.
Theorem C42_sync_instance : sync_consistent ex_o ex_a /\ accepted ex_o [Init ex_a] (SyncIn ex_a).
Proof.
  assert (S : sync_consistent ex_o ex_a) by (apply sync_rejects_spec; reflexivity).
  split; auto. apply C42_sync_in_accepts. destruct (init_ok_eq ex_o ex_a ex_init_ok) as (s0 & E0 & A1 & A2 & A3 & _).
  rewrite E0. auto.
Qed.

(** ** C50: sources and relaxation *)
(** the options of the accepted calls of step_async, in order *)
Fixpoint steps_taken (o : oinit) (s : obj) (h : list call) : list opts :=
  match h with
  | [] => []
  | c :: h' =>
      let rest := steps_taken o (fst (ProtoModel.exec o c s)) h' in
      match c with StepAsync p _ => if snd (ProtoModel.exec o c s) then p :: rest else rest | _ => rest end
  end.
(** for how many of the latest steps in a row something has been on *)
Fixpoint on_for (f : opts -> bool) (l : list opts) (k : Z) : Z :=
  match l with [] => k | p :: l' => on_for f l' (if f p then k + 1 else 0)%Z end.
Definition in_a_row (o : oinit) (f : opts -> bool) (h : list call) : Z := on_for f (steps_taken o (fresh o) h) 0.

Lemma ctr_kept o c s : (forall p r, c = StepAsync p r -> snd (ProtoModel.exec o c s) = false) ->
  src_ctr (fst (ProtoModel.exec o c s)) = src_ctr s /\ rlx_ctr (fst (ProtoModel.exec o c s)) = rlx_ctr s.
Proof.
  assert (ADJ : forall d x y, adjust_timesteps o d x = Some y -> src_ctr y = src_ctr x /\ rlx_ctr y = rlx_ctr x).
  { intros d x y. unfold adjust_timesteps. destruct (Rltb 0 d && negb (variable_dt o)); intros H; inversion H; cbn; auto. }
  assert (SI : forall a x, src_ctr (fst (sync_in o a x)) = src_ctr x /\ rlx_ctr (fst (sync_in o a x)) = rlx_ctr x).
  { intros a x. unfold sync_in. destruct (init_called x), (now_async x), (sync_rejects o a); cbn; auto.
    destruct (a_cx a); cbn; destruct (pred_corr o && _ && _); cbn; auto. }
  assert (SC : forall p x, src_ctr (fst (step_cond o p x)) = src_ctr x /\ rlx_ctr (fst (step_cond o p x)) = rlx_ctr x).
  { intros p x. unfold step_cond. destruct (now_cond x); cbn [negb]; [|auto]. destruct (o_turb_cond p && _); [auto|].
    destruct (adjust_timesteps o (o_dt p) _) as [y|] eqn:E; [|cbn; auto]. apply ADJ in E. destruct (chem_throws o p y); cbn in *; auto. }
  intros H. destruct c; cbn [ProtoModel.exec] in *.
  - unfold init. destruct (init_called s); [auto|]. destruct (init_rejects o a); [cbn; auto|]. destruct (a_cx a); cbn; auto.
  - apply SI.
  - apply SC.
  - unfold step_sync. specialize (SI a s). destruct (sync_in o a s) as [s1 ok]. cbn [fst] in SI. destruct ok; [|exact SI].
    destruct (SC p s1) as [-> ->]. exact SI.
  - specialize (H p raised eq_refl). unfold step_async in *. destruct (now_async s); cbn [negb] in *; [|auto].
    destruct (async_rejects o p); [cbn; auto|].
    destruct (adjust_timesteps o (o_dt p) _) as [s1|] eqn:E; [|cbn; auto]. apply ADJ in E. cbn in E. destruct E as [E1 E2].
    cbv zeta in *. set (inc := _ || _) in *. set (s3 := if o_coal p && inc then _ else _) in *.
    assert (H3 : src_ctr s3 = src_ctr s /\ rlx_ctr s3 = rlx_ctr s) by (unfold s3; destruct (o_coal p && inc); cbn; auto).
    clearbody s3. set (sh := o_src p && _) in *. destruct (sh && negb (src_on o)); [cbn; auto|].
    destruct (o_rlx p && negb (rlx_sw o)); [destruct sh; cbn; auto|discriminate].
Qed.
Lemma ctr_run o h : forall s a b, src_ctr s = a -> rlx_ctr s = b ->
  src_ctr (run o h s) = on_for o_src (steps_taken o s h) a /\ rlx_ctr (run o h s) = on_for o_rlx (steps_taken o s h) b.
Proof.
  unfold run. induction h as [|c h IH]; intros s a b Ha Hb; [cbn; auto|]. cbn [fold_left steps_taken].
  assert (K : (forall p r, c = StepAsync p r -> snd (ProtoModel.exec o c s) = false) \/ exists p r, c = StepAsync p r /\ snd (ProtoModel.exec o c s) = true).
  { destruct c; try (left; intros; discriminate). destruct (snd (ProtoModel.exec o (StepAsync p raised) s)) eqn:E; [right; eauto|left; auto]. }
  destruct K as [K|[p [r [-> K]]]].
  - pose proof (ctr_kept o c s K) as [K1 K2].
    assert (ES : steps_taken o s (c :: h) = steps_taken o (fst (ProtoModel.exec o c s)) h).
    { cbn [steps_taken]. destruct c; auto. rewrite (K _ _ eq_refl). reflexivity. }
    cbn [steps_taken] in ES. rewrite ES. apply IH; congruence.
  - rewrite K. cbn [on_for]. cbn [ProtoModel.exec] in *. apply async_exact in K. destruct K as (s1 & _ & _ & K1 & K2).
    apply IH; [rewrite K1, Ha|rewrite K2, Hb]; reflexivity.
Qed.

(** While the source is asked for, step after step, its k-th step (counting from 0) carries the number k, so that a
    source of super-step n acts in the steps 0, n, 2n, ...; asking for no source resets the count. Relaxation is
    carried out in every supstp_rlx-th of the steps in which it is asked for, over supstp_rlx time steps. *)
Theorem C50_super_steps : forall o h p r, accepted o h (StepAsync p r) -> (1 <= supstp_rlx o)%Z ->
  let l := ops_of o h (StepAsync p r) in
  (forall k, In (OpSrc k) l <-> src_used o p /\ k = in_a_row o o_src h) /\
  (forall d, In (OpRlx d) l <-> o_rlx p = true /\ (supstp_rlx o | in_a_row o o_rlx h)%Z /\ d = IZR (supstp_rlx o) * dt_eff o p).
Proof.
  intros o h p r HA Hs. cbv zeta. destruct (ops_exact o h p r HA) as (s1 & Hdt & E). rewrite E, <- Hdt. clear HA E.
  destruct (ctr_run o h (fresh o) 0%Z 0%Z eq_refl eq_refl) as [E1 E2]. fold (in_a_row o o_src h) in E1. fold (in_a_row o o_rlx h) in E2.
  rewrite E1, E2.
  assert (N1 : forall x, In x (async_ops1 p s1) -> stage x <> Some 12%nat /\ stage x <> Some 13%nat).
  { intros x. unfold async_ops1, coal_ops. rewrite !in_app_iff. intros H.
    repeat (destruct H as [H|H]); try (destruct (o_coal p); [|destruct H]; apply in_app_or in H; destruct H as [H|H];
      [apply in_flat_map in H; destruct H as [q [_ [<-|H]]]; [split; discriminate|destruct (_ =? _)%Z; [destruct H|destruct H as [<-|[]]; split; discriminate]]
      |destruct H as [<-|[]]; split; discriminate]);
    repeat match goal with H : context[if ?b then _ else _] |- _ => destruct b end; cbn in H; repeat destruct H as [H|H]; try contradiction; subst; split; discriminate. }
  assert (N2 : forall x, In x (async_ops2 o p) -> stage x <> Some 12%nat /\ stage x <> Some 13%nat).
  { intros x. unfold async_ops2. intros H. destruct (o_adve p || o_turb_adve p), (multi_spawn o), (o_rcyc p); cbn in H;
      repeat destruct H as [<-|H]; try contradiction; split; discriminate. }
  split.
  - intros k. rewrite !in_app_iff. unfold src_op, rlx_op. rewrite !in_if. unfold src_used. split.
    + intros [H|[H|[H|H]]]; try (apply N1 in H; cbn in H; exfalso; tauto); try (apply N2 in H; cbn in H; exfalso; tauto).
      * destruct H as [H Hk]. injection Hk as ->. split; auto. apply andb_prop in H. destruct H as [H1 H2]. split; auto.
        apply negb_true_iff, andb_false_iff in H2. intros [? ?]. destruct H2 as [H2|H2]; apply Reqb_false in H2; auto.
      * destruct H as [_ H]. discriminate.
    + intros [[H1 H2] ->]. right; left. split; auto. rewrite H1. cbn [andb]. apply negb_true_iff, andb_false_iff.
      unfold Reqb. destruct (Req_EM_T (src_x0 o) 0), (Req_EM_T (src_x1 o) 0); auto; tauto.
  - intros d. rewrite !in_app_iff. unfold src_op, rlx_op. rewrite !in_if.
    assert (DV : (Z.rem (in_a_row o o_rlx h) (supstp_rlx o) =? 0)%Z = true <-> (supstp_rlx o | in_a_row o o_rlx h)%Z).
    { rewrite Z.eqb_eq. apply Z.rem_divide. lia. }
    rewrite (andb_true_iff (o_rlx p)), DV. split.
    + intros [H|[H|[H|H]]]; try (apply N1 in H; cbn in H; exfalso; tauto); try (apply N2 in H; cbn in H; exfalso; tauto).
      * destruct H as [_ H]. discriminate.
      * destruct H as [[H1 H2] H]. injection H as ->. auto.
    + intros (H1 & H2 & ->). right; right; left. auto.
Qed.

(** n steps in a row with the source on, starting with the counter at 0: a source of super-step m acts in
    ceil(n/m) of them, the first included. *)
Theorem C50_source_count : forall m, (1 <= m)%Z -> forall n : nat,
  Z.of_nat (length (filter (fun k => src_due (Z.of_nat k) m) (seq 0 n))) = ((Z.of_nat n + m - 1) / m)%Z.
Proof.
  intros m Hm n. induction n as [|n IH].
  - cbn [seq filter length]. rewrite Z.div_small; lia.
  - rewrite seq_S, filter_app, app_length, Nat2Z.inj_add, IH. cbn [Nat.add filter]. unfold src_due.
    destruct (Z.eqb_spec (Z.rem (Z.of_nat n) m) 0) as [E|E]; cbn [length].
    + apply Z.rem_divide in E; [|lia]. destruct E as [q E].
      replace (Z.of_nat n + m - 1)%Z with (q * m + (m - 1))%Z by lia.
      replace (Z.of_nat (S n) + m - 1)%Z with ((q + 1) * m + 0)%Z by lia.
      rewrite !Z.div_add_l by lia. rewrite (Z.div_small (m - 1)), (Z.div_small 0) by lia. lia.
    + rewrite Z.rem_mod_nonneg in E by lia.
      pose proof (Z.div_mod (Z.of_nat n) m ltac:(lia)). pose proof (Z.mod_pos_bound (Z.of_nat n) m ltac:(lia)).
      set (q := (Z.of_nat n / m)%Z) in *. set (w := (Z.of_nat n mod m)%Z) in *. clearbody q w.
      replace (Z.of_nat n + m - 1)%Z with ((q + 1) * m + (w - 1))%Z by lia.
      replace (Z.of_nat (S n) + m - 1)%Z with ((q + 1) * m + w)%Z by lia.
      rewrite !Z.div_add_l by lia. rewrite (Z.div_small w), (Z.div_small (w - 1)) by lia. lia.
Qed.

(** Instance: with the source asked for in three steps out of four, the fourth step starts a new count. *)
Theorem C50_instance :
  let on_ := mk_opts true true false true true true false true false false false false false false false (-1) in
  let off_ := mk_opts true true false true true false false true false false false false false false false (-1) in
  on_for o_src [on_; on_; off_; on_] 0 = 1%Z.
Proof. reflexivity. Qed.

Print Assumptions C47_order_in_full.
Print Assumptions C47_what_is_performed.
Print Assumptions C42_sync_in_accepts.
Print Assumptions C42_sync_instance.
Print Assumptions C50_super_steps.
Print Assumptions C50_source_count.
Print Assumptions C50_instance.
