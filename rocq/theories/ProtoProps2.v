(** C35, C36, C46-C48: variable time steps, substep counts, advection scheme fallback, order of operations,
    disabled processes *)
From Coq Require Import List Arith NArith ZArith Lia Reals Lra Bool.
From Verif Require Import Base BaseProofs ProtoModel ProtoProps.
Import ListNotations.
Local Open Scope R_scope.

(** the operations performed by call [c] made after history [h] *)
Definition ops_of (o : oinit) (h : list call) (c : call) : list op :=
  skipn (length (done (run o h (fresh o)))) (done (run o (h ++ [c]) (fresh o))).

(** lengths of the collision, condensation, deposition and chemistry substeps among operations *)
Definition coal_lens (l : list op) : list R := flat_map (fun x => match x with OpCoal d _ => [d] | _ => [] end) l.
Definition cond_lens (l : list op) : list R :=
  flat_map (fun x => match x with OpCondCell d _ => [d] | OpCondPart d _ => [d] | _ => [] end) l.
Definition chem_lens (l : list op) : list R := flat_map (fun x => match x with OpChem d _ => [d] | _ => [] end) l.

(** the time step a call asks for *)
Definition dt_eff (o : oinit) (p : opts) : R := if Rlt_dec 0 (o_dt p) then o_dt p else dt0 o.

(** substeps [l] of a step of length [d], when the configuration asks for [s0] substeps per step of length [d0]:
    they are equal and add up to the step; when s0 > 1 none is longer than the configured one and there are no
    more than needed; otherwise there are s0 of them *)
Definition substeps_ok (d0 : R) (s0 : Z) (d : R) (l : list R) : Prop :=
  lsumR l = d /\ (forall x y, In x l -> In y l -> x = y) /\
  ((1 < s0)%Z -> (forall x, In x l -> x <= d0 / IZR s0) /\ (INR (length l) - 1) * (d0 / IZR s0) < d) /\
  ((1 < s0)%Z -> d = d0 -> length l = Z.to_nat s0) /\
  (s0 = 1%Z -> length l = 1%nat).

Local Arguments init_rejects : simpl never.
Local Arguments sync_rejects : simpl never.
Local Arguments async_rejects : simpl never.
Local Arguments cond_ops : simpl never.
Local Arguments cond_ops1 : simpl never.
Local Arguments ops_before_chem : simpl never.
Local Arguments chem_throws : simpl never.
Local Arguments async_ops1 : simpl never.
Local Arguments async_ops2 : simpl never.
Local Arguments adj : simpl never.

Lemma Zceil_spec x : x <= IZR (Zceil x) < x + 1.
Proof.
  unfold Zceil. rewrite opp_IZR. pose proof (base_Int_part (- x)) as [H1 H2]. lra.
Qed.

Lemma adj_spec s0 o p : 0 < dt0 o -> (1 <= s0)%Z ->
  let s := adj s0 o (o_dt p) in let d := dt_eff o p in
  (1 <= s)%Z /\ ((1 < s0)%Z -> d / IZR s <= dt0 o / IZR s0 /\ (IZR s - 1) * (dt0 o / IZR s0) < d) /\
  ((1 < s0)%Z -> d = dt0 o -> s = s0) /\ (s0 = 1%Z -> s = 1%Z).
Proof.
  intros Hd Hs0. cbv zeta. unfold adj, dt_eff, Rltb. destruct (Rlt_dec 0 (o_dt p)) as [Hp|Hp]; cbn [andb].
  - destruct (Z.ltb_spec 1 s0) as [H1|H1].
    2:{ split; [lia|]. split; [lia|]. split; [lia|auto]. }
    set (x := IZR s0 * o_dt p / dt0 o).
    assert (Hx : x * dt0 o = IZR s0 * o_dt p) by (unfold x; field; lra).
    assert (HS : 0 < IZR s0) by (apply IZR_lt; lia).
    assert (Hxp : 0 < x). { unfold x. apply Rmult_lt_0_compat; [apply Rmult_lt_0_compat; lra|apply Rinv_0_lt_compat; lra]. }
    pose proof (Zceil_spec x) as [C1 C2]. set (s := Zceil x) in *.
    assert (Hs : (1 <= s)%Z). { assert (0 < s)%Z; [|lia]. apply lt_IZR. lra. }
    split; [exact Hs|]. assert (Hsr : 1 <= IZR s) by (apply IZR_le in Hs; exact Hs).
    split; [|split; [|lia]].
    + intros _. split.
      * apply (Rmult_le_reg_r (IZR s * IZR s0)); [apply Rmult_lt_0_compat; lra|].
        replace (o_dt p / IZR s * (IZR s * IZR s0)) with (IZR s0 * o_dt p) by (field; lra).
        replace (dt0 o / IZR s0 * (IZR s * IZR s0)) with (IZR s * dt0 o) by (field; lra).
        rewrite <- Hx. apply Rmult_le_compat_r; lra.
      * apply (Rmult_lt_reg_r (IZR s0)); [lra|].
        replace ((IZR s - 1) * (dt0 o / IZR s0) * IZR s0) with ((IZR s - 1) * dt0 o) by (field; lra).
        rewrite (Rmult_comm (o_dt p)), <- Hx. apply Rmult_lt_compat_r; lra.
    + intros _ E. assert (Hxs : x = IZR s0) by (unfold x; rewrite E; field; lra).
      rewrite Hxs in C1, C2. apply le_IZR in C1. rewrite <- plus_IZR in C2. apply lt_IZR in C2. lia.
  - split; [lia|]. split; [|auto]. intros H1. split; [lra|].
    assert (HS : 0 < IZR s0) by (apply IZR_lt; lia).
    replace ((IZR s0 - 1) * (dt0 o / IZR s0)) with (dt0 o - dt0 o / IZR s0) by (field; lra).
    assert (0 < dt0 o / IZR s0) by (apply Rmult_lt_0_compat; [lra|apply Rinv_0_lt_compat; lra]). lra.
Qed.

Lemma adjust_spec o p s s' : adjust_timesteps o (o_dt p) s = Some s' ->
  (o_dt p <= 0 \/ variable_dt o = true) /\ dt s' = dt_eff o p /\ sstp_cond s' = adj (sstp_cond0 o) o (o_dt p) /\
  sstp_coal s' = adj (sstp_coal0 o) o (o_dt p) /\ sstp_chem s' = adj (sstp_chem0 o) o (o_dt p) /\
  sstp_cond_act s' = adj (sstp_cond_act0 o) o (o_dt p) /\
  done s' = done s /\ scheme_pc s' = scheme_pc s /\ cx_large s' = cx_large s /\ increase_sstp_coal s' = increase_sstp_coal s.
Proof.
  unfold adjust_timesteps, dt_eff, Rltb. destruct (Rlt_dec 0 (o_dt p)) as [H|H]; cbn [andb].
  - destruct (variable_dt o); [|discriminate]. cbn [negb]. intros [= <-]. cbn. auto 20.
  - intros [= <-]. cbn. split; [left; lra|]. auto 20.
Qed.

Lemma skipn_app_len {A} (a b : list A) : skipn (length a) (a ++ b) = b.
Proof. induction a; cbn; auto. Qed.

Lemma ops_cond o h p : accepted o h (StepCond p) ->
  exists s2, adjust_timesteps o (o_dt p) (set_flags (run o h (fresh o)) (init_called (run o h (fresh o))) false (now_async (run o h (fresh o)))) = Some s2 /\
    ops_of o h (StepCond p) = cond_ops o p s2 /\ (o_turb_cond p = true -> turb_cond_sw o = true).
Proof.
  unfold accepted, ops_of. rewrite run_snoc. cbn [exec]. set (s := run o h (fresh o)). unfold step_cond.
  destruct (now_cond s); cbn [negb]; [|discriminate].
  destruct (o_turb_cond p && negb (turb_cond_sw o)) eqn:ET; [discriminate|].
  destruct (adjust_timesteps o (o_dt p) _) as [s2|] eqn:E; [|discriminate]. destruct (chem_throws o p s2); [discriminate|].
  intros _. exists s2. split; [reflexivity|]. cbn [fst snd set_flags log done].
  apply adjust_spec in E. destruct E as (_ & _ & _ & _ & _ & _ & E & _). cbn [set_flags done] in E.
  rewrite E, skipn_app_len. split; [reflexivity|]. intros H. rewrite H in ET. cbn in ET. now destruct (turb_cond_sw o).
Qed.

Lemma ops_sync o h a p : accepted o h (StepSync a p) ->
  accepted o h (SyncIn a) /\ accepted o (h ++ [SyncIn a]) (StepCond p) /\
  run o (h ++ [StepSync a p]) (fresh o) = run o (h ++ [SyncIn a; StepCond p]) (fresh o) /\
  ops_of o h (StepSync a p) = OpSyncIn :: ops_of o (h ++ [SyncIn a]) (StepCond p).
Proof.
  unfold accepted, ops_of. intros HA.
  assert (E2 : run o (h ++ [SyncIn a; StepCond p]) (fresh o) = fst (exec o (StepCond p) (run o (h ++ [SyncIn a]) (fresh o)))).
  { change [SyncIn a; StepCond p] with ([SyncIn a] ++ [StepCond p]). rewrite app_assoc. apply run_snoc. }
  assert (E3 : run o (h ++ [StepSync a p]) (fresh o) = run o (h ++ [SyncIn a; StepCond p]) (fresh o) /\ snd (exec o (SyncIn a) (run o h (fresh o))) = true /\
       snd (exec o (StepCond p) (run o (h ++ [SyncIn a]) (fresh o))) = true).
  { rewrite E2, !run_snoc. cbn [exec] in *. rewrite step_sync_eq in *.
    destruct (snd (sync_in o a (run o h (fresh o)))); [|discriminate]. auto. }
  destruct E3 as (E3 & A1 & A2). split; [exact A1|]. split; [exact A2|]. split; [exact E3|].
  rewrite E3. change [SyncIn a; StepCond p] with ([SyncIn a] ++ [StepCond p]). rewrite (app_assoc h).
  assert (D1 : done (run o (h ++ [SyncIn a]) (fresh o)) = done (run o h (fresh o)) ++ [OpSyncIn]).
  { rewrite run_snoc. cbn [exec] in *. unfold sync_in in *. set (s := run o h (fresh o)) in *.
    destruct (negb (init_called s)); [discriminate|]. destruct (now_async s); [discriminate|].
    destruct (sync_rejects o a); [discriminate|]. cbn [fst set_flags done log].
    destruct (a_cx a); cbn [cx_large set_cx]; destruct (pred_corr o); cbn [andb]; try reflexivity;
      destruct (_ && _) || idtac; try reflexivity; destruct (a_cx_large a); reflexivity. }
  destruct (ops_cond o (h ++ [SyncIn a]) p A2) as (s2 & _ & E & _).
  assert (D2 : exists l, done (run o ((h ++ [SyncIn a]) ++ [StepCond p]) (fresh o)) = done (run o (h ++ [SyncIn a]) (fresh o)) ++ l).
  { rewrite run_snoc. cbn [exec] in *. unfold step_cond in *. set (s := run o (h ++ [SyncIn a]) (fresh o)) in *.
    destruct (negb (now_cond s)); [discriminate|]. destruct (_ && _); [discriminate|].
    destruct (adjust_timesteps o (o_dt p) _) as [s3|] eqn:E4; [|discriminate]. destruct (chem_throws o p s3); [discriminate|].
    apply adjust_spec in E4. destruct E4 as (_ & _ & _ & _ & _ & _ & E4 & _). cbn [set_flags done] in E4.
    cbn [fst set_flags log done]. rewrite E4. eauto. }
  destruct D2 as [l D2]. rewrite D2, D1. rewrite skipn_app_len. rewrite <- app_assoc. rewrite skipn_app_len. reflexivity.
Qed.

Lemma async_result o p r s : snd (step_async o p r s) = true ->
  now_async s = true /\ async_rejects o p = false /\
  exists s1, adjust_timesteps o (o_dt p) (set_flags s (init_called s) (now_cond s) false) = Some s1 /\
    (src_used o p -> src_on o = true) /\ (o_rlx p = true -> rlx_sw o = true) /\
    scheme_pc (fst (step_async o p r s)) = pred_corr o /\ cx_large (fst (step_async o p r s)) = cx_large s /\
    exists mid, done (fst (step_async o p r s)) = done s ++ async_ops1 p s1 ++ mid ++ async_ops2 o p /\
      Forall (fun x => ((exists k, x = OpSrc k) /\ src_used o p) \/ (x = OpRlx (IZR (supstp_rlx o) * dt s1) /\ o_rlx p = true)) mid.
Proof.
  unfold step_async. destruct (now_async s); cbn [negb]; [|discriminate].
  destruct (async_rejects o p); [discriminate|].
  destruct (adjust_timesteps o (o_dt p) _) as [s1|] eqn:E; [|discriminate].
  cbv zeta. set (inc := _ || _). set (s3 := if o_coal p && inc then _ else _).
  apply adjust_spec in E. destruct E as (_ & ED & _ & _ & _ & _ & EDn & ES & EX & _). cbn [set_flags done cx_large] in EDn, EX.
  assert (H3 : done s3 = done s ++ async_ops1 p s1 /\ cx_large s3 = cx_large s /\ dt s3 = dt s1).
  { unfold s3. destruct (o_coal p && inc); cbn; rewrite EDn; auto. }
  clearbody s3. destruct H3 as (H31 & H32 & H33).
  set (sh := o_src p && _).
  assert (Hsh : sh = true <-> src_used o p).
  { unfold sh, src_used. rewrite andb_true_iff, negb_true_iff.
    unfold Reqb. destruct (Req_EM_T (src_x0 o) 0), (Req_EM_T (src_x1 o) 0); cbn; split; intros [H1 H2]; split; auto; try tauto; discriminate. }
  destruct (sh && negb (src_on o)) eqn:E1; [discriminate|].
  set (s5 := if sh then log _ _ else _).
  assert (H5 : exists m, done s5 = done s ++ async_ops1 p s1 ++ m /\ Forall (fun x => (exists k, x = OpSrc k) /\ src_used o p) m /\ cx_large s5 = cx_large s /\ dt s5 = dt s1 /\
     scheme_pc s5 = pred_corr o).
  { unfold s5. destruct sh eqn:Esh; cbn; rewrite H31.
    - eexists [OpSrc _]. rewrite <- app_assoc. repeat split; auto. constructor; [|constructor]. split; [eexists; reflexivity|]. now apply Hsh.
    - exists []. rewrite app_nil_r. repeat split; auto. }
  clearbody s5. destruct H5 as (m & H5 & H6 & H7 & H8 & H9).
  destruct (o_rlx p && negb (rlx_sw o)) eqn:E2; [discriminate|].
  intros _. split; [auto|]. split; [auto|]. exists s1. split; [reflexivity|].
  split. { intros H. apply Hsh in H. rewrite H in E1. cbn in E1. now destruct (src_on o). }
  split. { intros H. rewrite H in E2. cbn in E2. now destruct (rlx_sw o). }
  cbn [fst].
  destruct (o_rlx p && (Z.rem (rlx_ctr s5) (supstp_rlx o) =? 0)%Z) eqn:E3.
  - split; [exact H9|]. split; [exact H7|]. exists (m ++ [OpRlx (IZR (supstp_rlx o) * dt s1)]). cbn [set_ctrs log done]. rewrite H5, H8, <- !app_assoc. split; [reflexivity|].
    apply Forall_app. split; [eapply Forall_impl; [|exact H6]; cbn; tauto|]. constructor; [|constructor]. right. split; [reflexivity|].
    now destruct (o_rlx p).
  - split; [exact H9|]. split; [exact H7|]. exists m. cbn [set_ctrs log done]. rewrite H5, <- !app_assoc. split; [reflexivity|].
    eapply Forall_impl; [|exact H6]; cbn; tauto.
Qed.

Lemma ops_async o h p r : accepted o h (StepAsync p r) ->
  exists s1 mid, dt s1 = dt_eff o p /\ sstp_coal s1 = adj (sstp_coal0 o) o (o_dt p) /\ (o_dt p <= 0 \/ variable_dt o = true) /\
    scheme_pc s1 = scheme_pc (run o h (fresh o)) /\ async_rejects o p = false /\
    ops_of o h (StepAsync p r) = async_ops1 p s1 ++ mid ++ async_ops2 o p /\
    Forall (fun x => ((exists k, x = OpSrc k) /\ src_used o p) \/ (x = OpRlx (IZR (supstp_rlx o) * dt s1) /\ o_rlx p = true)) mid.
Proof.
  unfold accepted, ops_of. rewrite run_snoc. cbn [exec]. intros H. apply async_result in H.
  destruct H as (_ & HR & s1 & HA & _ & _ & _ & _ & mid & HD & HF).
  apply adjust_spec in HA. destruct HA as (A0 & A1 & _ & A2 & _ & _ & _ & A3 & _).
  exists s1, mid. cbn [set_flags scheme_pc] in A3. repeat split; auto. now rewrite HD, skipn_app_len.
Qed.

(** counting lengths *)
Lemma lens_app (f : op -> list R) a b : flat_map f (a ++ b) = flat_map f a ++ flat_map f b.
Proof. apply flat_map_app. Qed.
Lemma repeat_snoc {A} (x : A) n : repeat x (S n) = repeat x n ++ [x].
Proof. induction n; cbn in *; [reflexivity|]. now f_equal. Qed.
Lemma coal_lens_coal_ops p s : coal_lens (coal_ops p s) = repeat (dt s / IZR (sstp_coal s)) (Z.to_nat (sstp_coal s)).
Proof.
  unfold coal_lens, coal_ops. generalize (Z.to_nat (sstp_coal s)) as n. induction n as [|n IH]; [reflexivity|].
  rewrite seq_snoc, flat_map_app, flat_map_app, IH, repeat_snoc. f_equal. cbn.
  destruct (_ =? _)%Z; reflexivity.
Qed.
Lemma coal_lens_ops1 p s : coal_lens (async_ops1 p s) =
  if o_coal p then repeat (dt s / IZR (sstp_coal s)) (Z.to_nat (sstp_coal s)) else [].
Proof.
  unfold async_ops1, coal_lens. rewrite !lens_app.
  assert (E : forall (b : bool) (l : list op) (f : op -> list R), flat_map f (if b then l else []) = if b then flat_map f l else []) by (intros [] ? ?; reflexivity).
  rewrite !E. cbn [flat_map app]. rewrite lens_app. fold (coal_lens (coal_ops p s)). rewrite coal_lens_coal_ops. cbn [flat_map app].
  rewrite !app_nil_r.
  destruct (o_chem_dsl p), (o_sedi p), (o_coal p), (o_cond p), (o_turb_adve p), (o_turb_cond p), (o_adve p), (o_subs p); cbn; rewrite ?app_nil_r; reflexivity.
Qed.
Lemma coal_lens_rest (o : oinit) (p : opts) mid d q : Forall (fun x => ((exists k, x = OpSrc k) /\ src_used o p) \/ (x = OpRlx d /\ q)) mid ->
  coal_lens (mid ++ async_ops2 o p) = [].
Proof.
  intros H. unfold coal_lens. rewrite lens_app.
  assert (E : flat_map (fun x => match x with OpCoal d _ => [d] | _ => [] end) mid = []).
  { induction H as [|x l Hx H IH]; [reflexivity|]. cbn. rewrite IH. destruct Hx as [[[? ->] _]|[-> _]]; reflexivity. }
  rewrite E. unfold async_ops2. destruct (o_adve p), (o_turb_adve p), (multi_spawn o), (o_rcyc p); reflexivity.
Qed.

Lemma lsumR_repeat x n : lsumR (repeat x n) = INR n * x.
Proof. induction n as [|n IH]; [cbn; lra|]. cbn [repeat lsumR fold_right]. fold (lsumR (repeat x n)). rewrite IH, S_INR. lra. Qed.
Lemma substeps_repeat o s0 p : 0 < dt0 o -> (1 <= s0)%Z ->
  let s := adj s0 o (o_dt p) in
  substeps_ok (dt0 o) s0 (dt_eff o p) (repeat (dt_eff o p / IZR s) (Z.to_nat s)).
Proof.
  intros Hd Hs. cbv zeta. pose proof (adj_spec s0 o p Hd Hs) as HA. cbv zeta in HA. destruct HA as (A1 & A2 & A3 & A4).
  set (s := adj s0 o (o_dt p)) in *. set (d := dt_eff o p) in *.
  assert (HI : INR (Z.to_nat s) = IZR s) by (rewrite INR_IZR_INZ, Z2Nat.id by lia; reflexivity).
  assert (Hsr : 1 <= IZR s) by (apply IZR_le in A1; exact A1).
  unfold substeps_ok. rewrite lsumR_repeat, repeat_length, HI.
  split; [field; lra|]. split.
  { intros x y Hx Hy. apply repeat_spec in Hx, Hy. congruence. }
  split.
  { intros H. destruct (A2 H) as [B1 B2]. split; [|exact B2]. intros x Hx. apply repeat_spec in Hx. now rewrite Hx. }
  split. { intros H1 H2. now rewrite (A3 H1 H2). }
  intros H. rewrite (A4 H). reflexivity.
Qed.

Lemma cond_lens_ops o p s : (0 <= sstp_cond s)%Z -> adaptive_sstp o = false \/ exact_sstp o = false ->
  cond_lens (cond_ops o p s) = if o_cond p then repeat (dt s / IZR (sstp_cond s)) (Z.to_nat (sstp_cond s)) else [].
Proof.
  intros _ HA. unfold cond_ops, cond_ops1, chem_on, cond_lens. set (X := if exact_sstp o && _ then _ else _). rewrite !lens_app.
  assert (E : forall (b : bool) (l : list op) (f : op -> list R), flat_map f (if b then l else []) = if b then flat_map f l else []) by (intros [] ? ?; reflexivity).
  rewrite !E. cbn [flat_map app].
  set (f := fun x => match x with OpCondCell d _ => [d] | OpCondPart d _ => [d] | _ => [] end).
  assert (EC : forall d l, flat_map f (map (OpChem d) l) = []).
  { intros d l. induction l; cbn; auto. }
  rewrite EC. destruct (o_cond p).
  2:{ destruct (diag_incloud o), (ice_sw o && o_ice_nucl p), (o_chem_dsl p || o_chem_dsc p || o_chem_rct p), (o_chem_dsl p); reflexivity. }
  rewrite !lens_app.
  assert (EP : forall n, flat_map f (map (OpCondPart (dt s / IZR (sstp_cond s))) (seq 0 n)) = repeat (dt s / IZR (sstp_cond s)) n).
  { induction n as [|n IH]; [reflexivity|]. rewrite seq_snoc, map_app, flat_map_app, IH, repeat_snoc. reflexivity. }
  assert (EL : forall n, flat_map f (flat_map (fun k => [OpTpr; OpCondCell (dt s / IZR (sstp_cond s)) k] ++ (if ice_sw o then [OpIceDep (dt s / IZR (sstp_cond s)) k] else []) ++ [OpUpdateThRv]) (seq 0 n)) = repeat (dt s / IZR (sstp_cond s)) n).
  { induction n as [|n IH]; [reflexivity|]. rewrite seq_snoc, flat_map_app, flat_map_app, IH, repeat_snoc. f_equal. destruct (ice_sw o); reflexivity. }
  assert (EX : flat_map f X = repeat (dt s / IZR (sstp_cond s)) (Z.to_nat (sstp_cond s))).
  { unfold X. destruct (exact_sstp o && _) eqn:EE.
    - destruct HA as [HA|HA]; rewrite HA in *; [|discriminate]. rewrite lens_app, EP. cbn. apply app_nil_r.
    - apply EL. }
  rewrite EX. destruct (diag_incloud o), (ice_sw o && o_ice_nucl p), (o_chem_dsl p || o_chem_dsc p || o_chem_rct p), (o_chem_dsl p); cbn; rewrite ?app_nil_r; reflexivity.
Qed.
Lemma chem_lens_ops o p s :
  chem_lens (cond_ops o p s) = if o_chem_dsl p || o_chem_dsc p || o_chem_rct p then repeat (dt s / IZR (sstp_chem s)) (Z.to_nat (sstp_chem s)) else [].
Proof.
  unfold cond_ops, cond_ops1, chem_on, chem_lens. set (X := if exact_sstp o && _ then _ else _). rewrite !lens_app.
  assert (E : forall (b : bool) (l : list op) (f : op -> list R), flat_map f (if b then l else []) = if b then flat_map f l else []) by (intros [] ? ?; reflexivity).
  rewrite !E. cbn [flat_map app].
  set (f := fun x => match x with OpChem d _ => [d] | _ => [] end).
  assert (EC : forall d n, flat_map f (map (OpChem d) (seq 0 n)) = repeat d n).
  { intros d. induction n as [|n IH]; [reflexivity|]. rewrite seq_snoc, map_app, flat_map_app, IH, repeat_snoc. reflexivity. }
  rewrite EC.
  rewrite !lens_app.
  assert (EX : flat_map f X = []).
  { unfold X. destruct (exact_sstp o && _).
    - rewrite lens_app. destruct (adaptive_sstp o); [reflexivity|].
      generalize (seq 0 (Z.to_nat (sstp_cond s))) as l. induction l; cbn; auto.
    - generalize (seq 0 (Z.to_nat (sstp_cond s))) as l. induction l as [|k l IH]; [reflexivity|]. cbn [flat_map]. rewrite lens_app, IH. destruct (ice_sw o); reflexivity. }
  rewrite EX. destruct (diag_incloud o), (ice_sw o && o_ice_nucl p), (o_cond p), (o_chem_dsl p); cbn; rewrite ?app_nil_r; reflexivity.
Qed.

(** *** C35. A call is accepted with a time step of its own only when variable_dt_switch is on; the collision,
    condensation and chemistry substeps it performs are equal, add up to the requested step (the configured one
    when none is requested, whatever steps were used before), and are never longer than configured. *)
Theorem C35_variable_time_step :
  forall o h, 0 < dt0 o -> (1 <= sstp_coal0 o)%Z -> (1 <= sstp_cond0 o)%Z -> (1 <= sstp_chem0 o)%Z ->
  (forall p r, accepted o h (StepAsync p r) ->
     (0 < o_dt p -> variable_dt o = true) /\
     let ops := ops_of o h (StepAsync p r) in
     (if o_coal p then substeps_ok (dt0 o) (sstp_coal0 o) (dt_eff o p) (coal_lens ops) else coal_lens ops = []) /\
     (forall d, In (OpSedi d) ops \/ In (OpSubs d) ops \/ In (OpTurbAdve d) ops -> d = dt_eff o p)) /\
  (forall p, accepted o h (StepCond p) ->
     (0 < o_dt p -> variable_dt o = true) /\
     let ops := ops_of o h (StepCond p) in
     (adaptive_sstp o = false \/ exact_sstp o = false ->
        if o_cond p then substeps_ok (dt0 o) (sstp_cond0 o) (dt_eff o p) (cond_lens ops) else cond_lens ops = []) /\
     (if o_chem_dsl p || o_chem_dsc p || o_chem_rct p
      then substeps_ok (dt0 o) (sstp_chem0 o) (dt_eff o p) (chem_lens ops) else chem_lens ops = []) /\
     (forall d, In (OpIncloud d) ops \/ In (OpIceNucl d) ops \/ In (OpCondAdaptive d) ops -> d = dt_eff o p)).
Proof.
  intros o h Hd Hcl Hcd Hch. split.
  - intros p r HA. destruct (ops_async o h p r HA) as (s1 & mid & D1 & D2 & D3 & _ & _ & D5 & D6).
    split. { intros H. destruct D3; [lra|auto]. }
    cbv zeta. rewrite D5. split.
    + unfold coal_lens at 1 2. rewrite lens_app. fold (coal_lens (async_ops1 p s1)). fold (coal_lens (mid ++ async_ops2 o p)).
      rewrite (coal_lens_rest _ _ _ _ _ D6), coal_lens_ops1, app_nil_r. destruct (o_coal p); [|reflexivity].
      rewrite D1, D2. now apply substeps_repeat.
    + intros d Hin. rewrite <- D1.
      assert (Hnot : forall x, In x (mid ++ async_ops2 o p) -> x <> OpSedi d /\ x <> OpSubs d /\ x <> OpTurbAdve d).
      { intros x Hx. apply in_app_or in Hx. destruct Hx as [Hx|Hx].
        - rewrite Forall_forall in D6. destruct (D6 x Hx) as [[[? ->] _]|[-> _]]; repeat split; discriminate.
        - unfold async_ops2 in Hx. destruct (o_adve p || o_turb_adve p), (multi_spawn o), (o_rcyc p); cbn in Hx;
            repeat (destruct Hx as [<-|Hx]; [repeat split; discriminate|]); contradiction. }
      assert (Hin1 : In (OpSedi d) (async_ops1 p s1) \/ In (OpSubs d) (async_ops1 p s1) \/ In (OpTurbAdve d) (async_ops1 p s1)).
      { destruct Hin as [H|[H|H]]; apply in_app_or in H; destruct H as [H|H]; auto; apply Hnot in H; tauto. }
      clear Hin Hnot. unfold async_ops1 in Hin1.
      assert (HC : forall x, In x (coal_ops p s1) -> x <> OpSedi d /\ x <> OpSubs d /\ x <> OpTurbAdve d).
      { intros x. unfold coal_ops. rewrite in_flat_map. intros (k & _ & Hk). cbn in Hk.
        destruct (_ =? _)%Z in Hk; cbn in Hk; repeat (destruct Hk as [<-|Hk]; [repeat split; discriminate|]); contradiction. }
      destruct Hin1 as [H|[H|H]]; repeat (apply in_app_or in H; destruct H as [H|H]);
        repeat match type of H with In _ (if ?b then _ else _) => destruct b; cbn in H end;
        try contradiction;
        repeat match type of H with
        | In _ (_ ++ _) => apply in_app_or in H; destruct H as [H|H]
        | In _ (coal_ops _ _) => apply HC in H; tauto
        | In _ _ => cbn in H
        | _ \/ _ => destruct H as [H|H]
        end; try discriminate; try contradiction; try (injection H; auto).
  - intros p HA. destruct (ops_cond o h p HA) as (s2 & E & D & _). pose proof (adjust_spec _ _ _ _ E) as (B0 & B1 & B2 & _ & B3 & _).
    split. { intros H. destruct B0; [lra|auto]. }
    cbv zeta. rewrite D. split; [|split].
    + intros HX. pose proof (adj_spec (sstp_cond0 o) o p Hd Hcd) as (HA1 & _). rewrite cond_lens_ops; [|rewrite B2; lia|exact HX].
      destruct (o_cond p); [|reflexivity]. rewrite B1, B2. now apply substeps_repeat.
    + rewrite chem_lens_ops. destruct (o_chem_dsl p || o_chem_dsc p || o_chem_rct p); [|reflexivity]. rewrite B1, B3. now apply substeps_repeat.
    + intros d Hin. rewrite <- B1. unfold cond_ops, cond_ops1 in Hin.
      destruct Hin as [H|[H|H]]; repeat (apply in_app_or in H; destruct H as [H|H]);
        repeat match type of H with
        | In _ (if ?b then _ else _) => destruct b
        | In _ (_ ++ _) => apply in_app_or in H; destruct H as [H|H]
        | In _ (map _ _) => apply in_map_iff in H; destruct H as (? & H & _)
        | In _ (flat_map _ _) => apply in_flat_map in H; destruct H as (? & _ & H)
        | In _ _ => cbn in H
        | _ \/ _ => destruct H as [H|H]
        end; try discriminate; try contradiction; try (injection H; auto).
Qed.
Print Assumptions C35_variable_time_step.

(** the hypotheses are met: ex_o has variable_dt on and two collision substeps per 1 s; a step of 2.5 s is
    accepted and takes five collision passes *)
Definition ex_p25 : opts := mk_opts true true false true true false false true false false false false false false false (5/2).
Lemma ex_init_ok : init_rejects ex_o ex_a = false. Proof. exact (proj1 C13_instance). Qed.
Lemma ex_sync_ok : sync_rejects ex_o ex_a = false. Proof. reflexivity. Qed.
Lemma Rltb_t a b : a < b -> Rltb a b = true. Proof. apply Rltb_true. Qed.
Theorem C35_instance :
  accepted ex_o [Init ex_a; StepSync ex_a ex_p25] (StepAsync ex_p25 false) /\
  length (coal_lens (ops_of ex_o [Init ex_a; StepSync ex_a ex_p25] (StepAsync ex_p25 false))) = 5%nat.
Proof.
  assert (HW : Forall (well_formed ex_o) [Init ex_a; StepSync ex_a ex_p25]).
  { constructor; [exact ex_init_ok|]. constructor; [|constructor]. split; [exact ex_sync_ok|]. split; [discriminate|]. split; [intros [H|[H|H]]; discriminate|right; reflexivity]. }
  assert (HWa : well_formed ex_o (StepAsync ex_p25 false)).
  { split; [reflexivity|]. split; [right; reflexivity|]. split; [intros [H _]; discriminate|discriminate]. }
  assert (HA : accepted ex_o [Init ex_a; StepSync ex_a ex_p25] (StepAsync ex_p25 false)).
  { apply (C13_accepted_iff_in_order ex_o _ _ HW HWa). discriminate. }
  split; [exact HA|].
  destruct (ops_async _ _ _ _ HA) as (s1 & mid & D1 & D2 & _ & _ & _ & D5 & D6).
  rewrite D5. unfold coal_lens. rewrite lens_app. fold (coal_lens (async_ops1 ex_p25 s1)). fold (coal_lens (mid ++ async_ops2 ex_o ex_p25)).
  rewrite (coal_lens_rest _ _ _ _ _ D6), coal_lens_ops1, app_nil_r. cbn [o_coal ex_p25]. rewrite repeat_length, D2.
  assert (E : adj (sstp_coal0 ex_o) ex_o (o_dt ex_p25) = 5%Z); [|rewrite E; reflexivity].
  unfold adj. cbn [o_dt ex_p25 sstp_coal0 ex_o dt0]. rewrite Rltb_t by lra. cbn [andb Z.ltb Z.compare Pos.compare Pos.compare_cont].
  pose proof (Zceil_spec (2 * (5/2) / 1)) as [C1 C2].
  assert (4 < Zceil (2 * (5 / 2) / 1))%Z by (apply lt_IZR; lra).
  assert (Zceil (2 * (5 / 2) / 1) < 6)%Z by (apply lt_IZR; lra). lia.
Qed.

(** *** C36. The claim: when a collision pass asks for more collision substeps, later steps take more. It is
    false: whatever happened before and whatever passes asked for, an accepted step_async takes exactly the
    number of collision passes its time step and the configuration imply. *)
Theorem C36_increase_is_lost_refuted :
  forall o h p r, accepted o h (StepAsync p r) -> o_coal p = true ->
    length (coal_lens (ops_of o h (StepAsync p r))) =
      Z.to_nat (if Rlt_dec 0 (o_dt p) then (if Z_lt_dec 1 (sstp_coal0 o) then Zceil (IZR (sstp_coal0 o) * o_dt p / dt0 o) else sstp_coal0 o)
                else sstp_coal0 o).
Proof.
  intros o h p r HA Hc. destruct (ops_async _ _ _ _ HA) as (s1 & mid & D1 & D2 & _ & _ & _ & D5 & D6).
  rewrite D5. unfold coal_lens. rewrite lens_app. fold (coal_lens (async_ops1 p s1)). fold (coal_lens (mid ++ async_ops2 o p)).
  rewrite (coal_lens_rest _ _ _ _ _ D6), coal_lens_ops1, app_nil_r, Hc, repeat_length, D2.
  unfold adj, Rltb. destruct (Rlt_dec 0 (o_dt p)); cbn [andb]; [|reflexivity].
  destruct (Z.ltb_spec 1 (sstp_coal0 o)), (Z_lt_dec 1 (sstp_coal0 o)); try lia; reflexivity.
Qed.
Print Assumptions C36_increase_is_lost_refuted.
(** in particular two steps in a row with raised requests take the same number of passes *)
Theorem C36_instance :
  let h := [Init ex_a; StepSync ex_a ex_p; StepAsync ex_p true; StepSync ex_a ex_p; StepAsync ex_p true; StepSync ex_a ex_p] in
  accepted ex_o h (StepAsync ex_p true) /\ length (coal_lens (ops_of ex_o h (StepAsync ex_p true))) = 2%nat.
Proof.
  cbv zeta. set (h := [_;_;_;_;_;_]).
  assert (W1 : well_formed ex_o (Init ex_a)) by exact ex_init_ok.
  assert (W2 : well_formed ex_o (StepSync ex_a ex_p)) by (split; [reflexivity|split; [discriminate|split; [intros [H|[H|H]]; discriminate|left; cbn; lra]]]).
  assert (W3 : well_formed ex_o (StepAsync ex_p true)).
  { split; [reflexivity|]. split; [left; cbn; lra|]. split; [intros [H _]; discriminate|discriminate]. }
  assert (HA : accepted ex_o h (StepAsync ex_p true)).
  { apply C13_accepted_iff_in_order; [unfold h; repeat (constructor; [assumption|]); constructor|assumption|discriminate]. }
  split; [exact HA|]. rewrite (C36_increase_is_lost_refuted _ _ _ _ HA eq_refl). cbn [o_dt ex_p sstp_coal0 ex_o].
  destruct (Rlt_dec 0 (-1)) as [H|H]; [exfalso; lra|reflexivity].
Qed.

(** *** C46. Predictor-corrector advection needs |C_x| <= 2. *)
Definition idle_inv (o : oinit) (s : obj) : Prop := now_cond s = false /\ now_async s = false -> scheme_pc s = pred_corr o.
Ltac hi HI := cbn [fst set_cx log set_flags scheme_pc now_cond now_async]; let A := fresh in let B := fresh in intros [A B]; apply HI; split; cbn in A, B; congruence.
Lemma scheme_step o c s : inv s -> well_formed o c -> idle_inv o s -> idle_inv o (fst (exec o c s)).
Proof.
  intros Hi Hwf HI. pose proof (exec_phase o c s Hi Hwf) as HP. unfold idle_inv in *.
  destruct c as [a|a|p|a p|p r]; cbn [exec well_formed] in *.
  - unfold init in *. destruct (init_called s); [hi HI|]. destruct (init_rejects o a); [hi HI|].
    cbn [fst] in *. destruct (a_cx a); hi HI.
  - unfold sync_in in *. destruct (negb (init_called s)); [hi HI|]. destruct (now_async s) eqn:EA; [hi HI|].
    rewrite Hwf in *. cbn [fst set_flags now_cond]. intros [H _]. discriminate.
  - unfold step_cond in *. destruct (now_cond s) eqn:EC; cbn [negb] in *; [|hi HI].
    destruct (_ && _) eqn:ET; [cbn [fst]; intros [H _]; congruence|].
    pose proof (adjust_some o p (set_flags s (init_called s) false (now_async s)) (proj2 (proj2 Hwf))) as HA.
    destruct (adjust_timesteps o (o_dt p) _) as [s2|]; [|contradiction]. rewrite (chem_fine o p s2 (proj1 (proj2 Hwf))).
    cbn [fst set_flags now_async]. intros [_ H]. discriminate.
  - rewrite step_sync_eq in *. destruct Hwf as [Hw1 Hw2].
    pose proof (sync_flags o a s) as HF. destruct (sync_in o a s) as [s1 ok]. cbn [fst snd] in *. destruct HF as [F1 F2].
    destruct ok; [|cbn; rewrite F1 by auto; hi HI].
    destruct (F2 eq_refl) as (_ & _ & _ & _ & B & C).
    unfold step_cond in *. rewrite B in *. cbn [negb] in *.
    destruct (_ && _) eqn:ET; [cbn [fst]; intros [H _]; congruence|].
    pose proof (adjust_some o p (set_flags s1 (init_called s1) false (now_async s1)) (proj2 (proj2 Hw2))) as HA.
    destruct (adjust_timesteps o (o_dt p) _) as [s2|]; [|contradiction]. rewrite (chem_fine o p s2 (proj1 (proj2 Hw2))).
    cbn [fst set_flags now_async]. intros [_ H]. discriminate.
  - destruct (now_async s) eqn:EA.
    + assert (HS : snd (step_async o p r s) = true).
      { destruct (step_async o p r s) as [s' ok]. unfold phase_of in HP. rewrite EA in HP. cbn in HP. apply HP. }
      apply async_result in HS. destruct HS as (_ & _ & s1 & _ & _ & _ & E & _). intros _. exact E.
    + unfold step_async in *. rewrite EA in *. cbn [negb] in *. cbn [fst]. rewrite EA. hi HI.
Qed.
Lemma scheme_run o h : Forall (well_formed o) h -> idle_inv o (run o h (fresh o)).
Proof.
  induction h as [|c h IH] using rev_ind; intros H.
  - intros _. reflexivity.
  - apply Forall_app in H as [H1 H2]. rewrite run_snoc. apply scheme_step; [apply run_inv, inv_fresh|now inversion H2|auto].
Qed.

(** When every call so far had acceptable arguments and the Courant numbers are passed to the sync_in that opens
    the step, the step uses the configured scheme if all |C_x| <= 2 and the Euler scheme otherwise, and the
    fallback does not outlive the step. *)
Theorem C46_scheme_fallback_is_per_step_partial :
  forall o h a p p' r b, Forall (well_formed o) h -> phase_after h = Idle -> a_cx a = true ->
    accepted o h (StepSync a p') -> accepted o (h ++ [StepSync a p']) (StepAsync p r) ->
    In (OpAdve b) (ops_of o (h ++ [StepSync a p']) (StepAsync p r)) ->
    b = (pred_corr o && negb (a_cx_large a))%bool.
Proof.
  intros o h a p p' r b Hh Hp Hcx HA1 HA2 Hin.
  pose proof (phase_run o h Hh) as HP. rewrite Hp in HP. pose proof (scheme_run o h Hh) as HS.
  destruct (ops_sync o h a p' HA1) as (B1 & B2 & ER & _).
  destruct (ops_async _ _ _ _ HA2) as (s1 & mid & _ & _ & _ & D4 & _ & D5 & D6).
  rewrite D5 in Hin.
  assert (Eb : b = scheme_pc s1).
  { clear -Hin D6. apply in_app_or in Hin. destruct Hin as [H|H].
    - unfold async_ops1, coal_ops in H.
      repeat (apply in_app_or in H; destruct H as [H|H]);
        repeat match type of H with
        | In _ (if ?b then _ else _) => destruct b
        | In _ (_ ++ _) => apply in_app_or in H; destruct H as [H|H]
        | In _ (flat_map _ _) => apply in_flat_map in H; destruct H as (? & _ & H)
        | In _ _ => cbn in H
        | _ \/ _ => destruct H as [H|H]
        end; try discriminate; try contradiction; try (injection H; auto).
      all: destruct (_ =? _)%Z in H; cbn in H; intuition discriminate.
    - exfalso. apply in_app_or in H. destruct H as [H|H].
      + rewrite Forall_forall in D6. apply D6 in H. destruct H as [[[? H] _]|[H _]]; discriminate.
      + unfold async_ops2 in H. destruct (o_adve p || o_turb_adve p), (multi_spawn o), (o_rcyc p); cbn in H; intuition discriminate. }
  rewrite Eb, D4, ER. change [SyncIn a; StepCond p'] with ([SyncIn a] ++ [StepCond p']). rewrite (app_assoc h), (run_snoc _ (h ++ _)).
  assert (E1 : scheme_pc (run o (h ++ [SyncIn a]) (fresh o)) = (pred_corr o && negb (a_cx_large a))%bool).
  { rewrite run_snoc. unfold accepted in B1. cbn [exec] in *. set (s := run o h (fresh o)) in *. unfold sync_in in *.
    destruct (negb (init_called s)); [discriminate|]. destruct (now_async s) eqn:EA; [discriminate|].
    destruct (sync_rejects o a); [discriminate|]. rewrite Hcx. cbn [fst set_flags scheme_pc log cx_large set_cx].
    assert (ES : scheme_pc s = pred_corr o). { apply HS. split; [|exact EA]. unfold phase_of in HP. rewrite EA in HP. destruct (now_cond s); [discriminate|reflexivity]. }
    destruct (pred_corr o) eqn:EP, (a_cx_large a); cbn; auto. }
  rewrite <- E1. clear E1. set (s := run o (h ++ [SyncIn a]) (fresh o)). cbn [exec]. unfold step_cond.
  destruct (negb (now_cond s)); [reflexivity|]. destruct (_ && negb (turb_cond_sw o)); [reflexivity|].
  destruct (adjust_timesteps o (o_dt p') _) as [s2|] eqn:E; [|reflexivity].
  apply adjust_spec in E. destruct E as (_ & _ & _ & _ & _ & _ & _ & E & _). destruct (chem_throws o p' s2); exact E.
Qed.
Print Assumptions C46_scheme_fallback_is_per_step_partial.

(** the two ways in which the general claim fails *)
Definition ex_large : args := mk_args true true true false true false true false 0 true.
Definition ex_null : args := mk_args true true true false false false false false 0 false.
(** options asking for a process that is switched off (subsidence): step_async throws *)
Definition ex_bad : opts := mk_opts true false true true false false false true false false false false false false false (-1).
Lemma ex_large_ok : init_rejects ex_o ex_large = false /\ sync_rejects ex_o ex_large = false /\ sync_rejects ex_o ex_null = false.
Proof. split; [|split; reflexivity]. change (init_rejects ex_o ex_large) with (init_rejects ex_o ex_a). exact ex_init_ok. Qed.

Lemma exec_init_ok o a : init_rejects o a = false ->
  run o [Init a] (fresh o) = log (if a_cx a then set_cx (set_flags (fresh o) true false false) (a_cx_large a) else set_flags (fresh o) true false false) [OpInit].
Proof. intros H. unfold run. cbn [fold_left exec]. unfold init. cbn [init_called fresh]. rewrite H. reflexivity. Qed.

(** effects of accepted calls, for computing with concrete histories *)
Lemma sync_ok_eq o a s : init_called s = true -> now_async s = false -> sync_rejects o a = false ->
  exists s', sync_in o a s = (s', true) /\ init_called s' = true /\ now_cond s' = true /\ now_async s' = false /\
    done s' = done s ++ [OpSyncIn] /\
    cx_large s' = (if a_cx a then a_cx_large a else cx_large s) /\
    scheme_pc s' = (if pred_corr o && a_cx a && a_cx_large a then false else scheme_pc s).
Proof.
  intros H1 H2 H3. unfold sync_in. rewrite H1, H2, H3. cbn [negb]. eexists. split; [reflexivity|].
  destruct (a_cx a), (pred_corr o), (a_cx_large a); cbn [andb set_flags log set_scheme set_cx init_called now_cond now_async done cx_large scheme_pc];
    try (destruct (cx_large s)); cbn; auto 10.
Qed.
Lemma cond_ok_eq o p s : now_cond s = true -> cond_ok o p ->
  exists s' s2, step_cond o p s = (s', true) /\ init_called s' = init_called s /\ now_cond s' = false /\ now_async s' = true /\
    done s' = done s ++ cond_ops o p s2 /\ cx_large s' = cx_large s /\ scheme_pc s' = scheme_pc s /\
    dt s2 = dt_eff o p /\ sstp_chem s2 = adj (sstp_chem0 o) o (o_dt p).
Proof.
  intros H1 (H2 & H2' & H3). unfold step_cond. rewrite H1. cbn [negb].
  assert (ET : o_turb_cond p && negb (turb_cond_sw o) = false).
  { destruct (o_turb_cond p); [rewrite H2 by auto|]; reflexivity. }
  rewrite ET. set (s1 := set_flags s _ _ _). pose proof (adjust_some o p s1 H3) as HA.
  destruct (adjust_timesteps o (o_dt p) s1) as [s2|] eqn:E; [|contradiction]. rewrite (chem_fine o p s2 H2').
  pose proof (adjust_flags _ _ _ _ E) as (F1 & F2 & F3 & F4 & F5 & F6). apply adjust_spec in E. destruct E as (_ & G1 & _ & _ & G2 & _).
  eexists. exists s2. split; [reflexivity|]. cbn [set_flags log init_called now_cond now_async done cx_large scheme_pc].
  cbn [s1 set_flags] in *. rewrite F1, F2, F4, F5, F6. auto 10.
Qed.
Lemma step_sync_ok_eq o a p s : init_called s = true -> now_async s = false -> sync_rejects o a = false -> cond_ok o p ->
  exists s', step_sync o a p s = (s', true) /\ init_called s' = true /\ now_cond s' = false /\ now_async s' = true /\
    cx_large s' = (if a_cx a then a_cx_large a else cx_large s) /\
    scheme_pc s' = (if pred_corr o && a_cx a && a_cx_large a then false else scheme_pc s).
Proof.
  intros H1 H2 H3 H4. destruct (sync_ok_eq o a s H1 H2 H3) as (s1 & E1 & A1 & A2 & A3 & A4 & A5 & A6).
  destruct (cond_ok_eq o p s1 A2 H4) as (s' & s2 & E2 & B1 & B2 & B3 & B4 & B5 & B6 & _).
  exists s'. unfold step_sync. rewrite E1, E2. rewrite B1, B5, B6. auto 10.
Qed.
Lemma init_ok_eq o a : init_rejects o a = false ->
  exists s', run o [Init a] (fresh o) = s' /\ init_called s' = true /\ now_cond s' = false /\ now_async s' = false /\
    cx_large s' = (if a_cx a then a_cx_large a else false) /\ scheme_pc s' = pred_corr o.
Proof. intros H. rewrite exec_init_ok by exact H. eexists. split; [reflexivity|]. destruct (a_cx a); cbn; auto 10. Qed.
Lemma async_bad_eq o p r s : now_async s = true -> async_rejects o p = true ->
  step_async o p r s = (set_flags s (init_called s) (now_cond s) false, false).
Proof. intros H1 H2. unfold step_async. rewrite H1, H2. reflexivity. Qed.
Lemma async_ok_accepted o p r s : now_async s = true -> async_ok o p -> snd (step_async o p r s) = true.
Proof.
  intros H (A & B & C & D). unfold step_async. rewrite H, A. cbn [negb].
  pose proof (adjust_some o p (set_flags s (init_called s) (now_cond s) false) B) as HA.
  destruct (adjust_timesteps o (o_dt p) _) as [s1|]; [|contradiction]. cbv zeta.
  assert (E1 : o_src p && negb (Reqb (src_x0 o) 0 && Reqb (src_x1 o) 0) && negb (src_on o) = false).
  { destruct (o_src p) eqn:Es; [|reflexivity]. cbn [andb]. unfold Reqb.
    destruct (Req_EM_T (src_x0 o) 0), (Req_EM_T (src_x1 o) 0); cbn; try reflexivity;
      (unfold src_on; destruct (src_type o) eqn:Et; [exfalso; apply C; [split; [exact Es|tauto]|reflexivity]|reflexivity|reflexivity]). }
  rewrite E1. assert (E2 : o_rlx p && negb (rlx_sw o) = false) by (destruct (o_rlx p); [rewrite D by auto|]; reflexivity).
  rewrite E2. reflexivity.
Qed.
Lemma ops_async_has o h p r : accepted o h (StepAsync p r) ->
  (o_adve p = true -> In (OpAdve (scheme_pc (run o h (fresh o)))) (ops_of o h (StepAsync p r))) /\
  (o_turb_cond p = true -> In OpTurbDotSs (ops_of o h (StepAsync p r))) /\
  (o_coal p = true -> forall d, In d (coal_lens (ops_of o h (StepAsync p r))) -> In (OpCoal d (o_turb_coal p)) (ops_of o h (StepAsync p r))).
Proof.
  intros HA. destruct (ops_async _ _ _ _ HA) as (s1 & mid & _ & _ & _ & D4 & _ & D5 & D6). rewrite D5. split; [|split].
  - intros H. rewrite <- D4. apply in_or_app. left. unfold async_ops1. rewrite H. do 7 (apply in_or_app; right). apply in_or_app; left. now left.
  - intros H. apply in_or_app. left. unfold async_ops1. rewrite H. do 6 (apply in_or_app; right). apply in_or_app; left. now left.
  - intros H d Hd. unfold coal_lens in Hd. rewrite lens_app in Hd. fold (coal_lens (async_ops1 p s1)) (coal_lens (mid ++ async_ops2 o p)) in Hd.
    rewrite (coal_lens_rest _ _ _ _ _ D6), coal_lens_ops1, app_nil_r, H in Hd. pose proof (repeat_spec _ _ _ Hd) as ->.
    apply in_or_app. left. unfold async_ops1. rewrite H. do 3 (apply in_or_app; right). apply in_or_app; left. apply in_or_app; left.
    unfold coal_ops. apply in_flat_map. exists 0%nat. split; [|now left].
    apply in_seq. destruct (Z.to_nat (sstp_coal s1)); [contradiction|lia].
Qed.
Lemma ex_cond_ok o p : o_dt p = -1 -> o_turb_cond p = false -> chem_on p = false -> cond_ok o p.
Proof.
  intros H1 H2 H3. split; [rewrite H2; discriminate|]. split; [|left; rewrite H1; lra].
  unfold chem_on in H3. apply orb_false_iff in H3. destruct H3 as (H3 & ->). apply orb_false_iff in H3. destruct H3 as (-> & ->). intros [H|[H|H]]; discriminate.
Qed.

Theorem C46_scheme_refuted :
  (* a step_async that throws leaves the Euler scheme in force although the next Courant numbers are small *)
  (exists h, accepted ex_o h (StepSync ex_a ex_p) /\ accepted ex_o (h ++ [StepSync ex_a ex_p]) (StepAsync ex_p false) /\
     In (OpAdve false) (ops_of ex_o (h ++ [StepSync ex_a ex_p]) (StepAsync ex_p false)) /\ pred_corr ex_o = true /\ a_cx_large ex_a = false) /\
  (* Courant numbers given to init only are not examined: predictor-corrector with |C_x| > 2 *)
  (accepted ex_o [Init ex_large; StepSync ex_null ex_p] (StepAsync ex_p false) /\
     In (OpAdve true) (ops_of ex_o [Init ex_large; StepSync ex_null ex_p] (StepAsync ex_p false)) /\
     cx_large (run ex_o [Init ex_large; StepSync ex_null ex_p] (fresh ex_o)) = true).
Proof.
  pose proof ex_large_ok as (L1 & L2 & L3). destruct (init_ok_eq ex_o ex_large L1) as (s0 & E0 & A1 & A2 & A3 & A4 & A5).
  assert (CO : cond_ok ex_o ex_p) by (apply ex_cond_ok; reflexivity).
  assert (AO : async_ok ex_o ex_p). { split; [reflexivity|]. split; [left; cbn; lra|]. split; [intros [H _]; discriminate|discriminate]. }
  split.
  - exists [Init ex_large; StepSync ex_large ex_p; StepAsync ex_bad false].
    destruct (step_sync_ok_eq ex_o ex_large ex_p s0 A1 A3 L2 CO) as (s1 & E1 & B1 & B2 & B3 & B4 & B5).
    assert (E2 : run ex_o [Init ex_large; StepSync ex_large ex_p; StepAsync ex_bad false] (fresh ex_o) = set_flags s1 (init_called s1) (now_cond s1) false).
    { change [Init ex_large; StepSync ex_large ex_p; StepAsync ex_bad false] with (([Init ex_large] ++ [StepSync ex_large ex_p]) ++ [StepAsync ex_bad false]).
      rewrite !run_snoc, E0. cbn [exec]. rewrite E1. cbn [fst]. rewrite async_bad_eq by (exact B3 || reflexivity). reflexivity. }
    destruct (step_sync_ok_eq ex_o ex_a ex_p (set_flags s1 (init_called s1) (now_cond s1) false) B1 eq_refl ex_sync_ok CO) as (s2 & E3 & C1 & C2 & C3 & C4 & C5).
    assert (E4 : run ex_o ([Init ex_large; StepSync ex_large ex_p; StepAsync ex_bad false] ++ [StepSync ex_a ex_p]) (fresh ex_o) = s2).
    { rewrite run_snoc, E2. cbn [exec]. rewrite E3. reflexivity. }
    split. { unfold accepted. rewrite E2. cbn [exec]. rewrite E3. reflexivity. }
    assert (HA : accepted ex_o ([Init ex_large; StepSync ex_large ex_p; StepAsync ex_bad false] ++ [StepSync ex_a ex_p]) (StepAsync ex_p false)).
    { unfold accepted. rewrite E4. cbn [exec]. now apply async_ok_accepted. }
    split; [exact HA|]. split; [|split; reflexivity].
    pose proof (proj1 (ops_async_has _ _ _ _ HA) eq_refl) as H. rewrite E4, C5 in H. cbn [set_flags scheme_pc] in H. rewrite B5 in H. exact H.
  - destruct (step_sync_ok_eq ex_o ex_null ex_p s0 A1 A3 L3 CO) as (s1 & E1 & B1 & B2 & B3 & B4 & B5).
    assert (E2 : run ex_o [Init ex_large; StepSync ex_null ex_p] (fresh ex_o) = s1).
    { change [Init ex_large; StepSync ex_null ex_p] with ([Init ex_large] ++ [StepSync ex_null ex_p]). rewrite run_snoc, E0. cbn [exec]. rewrite E1. reflexivity. }
    assert (HA : accepted ex_o [Init ex_large; StepSync ex_null ex_p] (StepAsync ex_p false)).
    { unfold accepted. rewrite E2. cbn [exec]. now apply async_ok_accepted. }
    split; [exact HA|]. split.
    + pose proof (proj1 (ops_async_has _ _ _ _ HA) eq_refl) as H. rewrite E2, B5, A5 in H. exact H.
    + rewrite E2, B4. exact A4.
Qed.
Print Assumptions C46_scheme_refuted.

(** *** C47. Order of operations. *)
(** operations that displace particles or create them *)
Definition moves (x : op) : Prop :=
  match x with OpAdve _ | OpTurbAdve _ | OpSedi _ | OpSubs _ | OpSrc _ | OpRlx _ => True | _ => False end.
Lemma ops1_no_post p s x : In x (async_ops1 p s) -> x <> OpBcnd /\ x <> OpExchange /\ x <> OpRcyc /\ x <> OpRemoveN0 /\ x <> OpIjk /\ x <> OpCount.
Proof.
  intros H. unfold async_ops1, coal_ops in H.
  repeat (apply in_app_or in H; destruct H as [H|H]);
    repeat match type of H with
    | In _ (if ?b then _ else _) => destruct b
    | In _ (_ ++ _) => apply in_app_or in H; destruct H as [H|H]
    | In _ (flat_map _ _) => apply in_flat_map in H; destruct H as (? & _ & H)
    | In _ _ => cbn in H
    | _ \/ _ => destruct H as [H|H]
    end; try contradiction; try (subst x; repeat split; discriminate).
Qed.
(** In an accepted step_async everything that moves or creates particles comes before the boundary conditions,
    which are applied exactly once; then come the exchange between subdomains (if anything was advected), the
    removal or recycling of particles with zero multiplicity, the recalculation of the cell indices and counting. *)
Theorem C47_order_of_operations :
  forall o h p r, accepted o h (StepAsync p r) -> multi_spawn o = false ->
    exists pre, ops_of o h (StepAsync p r) =
        pre ++ [OpBcnd] ++ (if o_adve p || o_turb_adve p then [OpExchange] else []) ++
        [if o_rcyc p then OpRcyc else OpRemoveN0; OpIjk; OpCount] /\
      (forall x, In x pre -> x <> OpBcnd /\ x <> OpExchange /\ x <> OpRcyc /\ x <> OpRemoveN0 /\ x <> OpIjk /\ x <> OpCount) /\
      (forall d, In (OpCoal d (o_turb_coal p)) pre -> o_coal p = true) /\
      (* each enabled displacement is performed *)
      (o_adve p = true -> exists b, In (OpAdve b) pre) /\ (o_turb_adve p = true -> exists d, In (OpTurbAdve d) pre) /\
      (o_sedi p = true -> exists d, In (OpSedi d) pre) /\ (o_subs p = true -> exists d, In (OpSubs d) pre).
Proof.
  intros o h p r HA HM. destruct (ops_async _ _ _ _ HA) as (s1 & mid & _ & _ & _ & _ & _ & D5 & D6).
  exists (async_ops1 p s1 ++ mid). split; [|split; [|split; [|split; [|split; [|split]]]]].
  - rewrite D5, <- !app_assoc. unfold async_ops2. rewrite HM. reflexivity.
  - intros x Hx. apply in_app_or in Hx. destruct Hx as [Hx|Hx]; [eapply ops1_no_post; exact Hx|].
    rewrite Forall_forall in D6. destruct (D6 x Hx) as [[[? ->] _]|[-> _]]; repeat split; discriminate.
  - intros d Hx. apply in_app_or in Hx. destruct Hx as [Hx|Hx].
    + assert (HH : In d (coal_lens (async_ops1 p s1))).
      { unfold coal_lens. apply in_flat_map. eexists; split; [exact Hx|]. now left. }
      rewrite coal_lens_ops1 in HH. destruct (o_coal p); [reflexivity|contradiction].
    + rewrite Forall_forall in D6. destruct (D6 _ Hx) as [[[? H] _]|[H _]]; discriminate.
  - intros H. exists (scheme_pc s1). apply in_or_app. left. unfold async_ops1. rewrite H. do 7 (apply in_or_app; right). apply in_or_app; left. now left.
  - intros H. exists (dt s1). apply in_or_app. left. unfold async_ops1. rewrite H. do 8 (apply in_or_app; right). apply in_or_app; left. now left.
  - intros H. exists (dt s1). apply in_or_app. left. unfold async_ops1. rewrite H. do 9 (apply in_or_app; right). apply in_or_app; left. now left.
  - intros H. exists (dt s1). apply in_or_app. left. unfold async_ops1. rewrite H. do 10 (apply in_or_app; right). now left.
Qed.
Print Assumptions C47_order_of_operations.

(** A call that throws should leave the particles where they were; a step_async rejected because the source was
    not configured has already moved them and left them without boundary conditions. *)
Definition ex_src : oinit :=
  mk_oinit 4 0 4 1 1 1 0 4 0 1 0 4 1 1 2 1 1 true 64 0 false 1 0 false false false true true false false
           false false false false false true false 0 [] 0 false false false src_off 1 2 0 0 1 1 true false false.
Definition ex_psrc : opts := mk_opts true true false true true true false true false false false false false false false (-1).
Theorem C47_rejected_step_moves_particles_refuted :
  let h := [Init ex_a; StepSync ex_a ex_p] in
  ~ accepted ex_src h (StepAsync ex_psrc false) /\
  In (OpSedi 1) (ops_of ex_src h (StepAsync ex_psrc false)) /\ ~ In OpBcnd (ops_of ex_src h (StepAsync ex_psrc false)).
Proof.
  cbv zeta. assert (L1 : init_rejects ex_src ex_a = false) by exact ex_init_ok.
  assert (L2 : sync_rejects ex_src ex_a = false) by reflexivity.
  destruct (init_ok_eq ex_src ex_a L1) as (s0 & E0 & A1 & A2 & A3 & A4 & A5).
  assert (CO : cond_ok ex_src ex_p) by (apply ex_cond_ok; reflexivity).
  destruct (step_sync_ok_eq ex_src ex_a ex_p s0 A1 A3 L2 CO) as (s1 & E1 & B1 & B2 & B3 & B4 & B5).
  assert (E2 : run ex_src [Init ex_a; StepSync ex_a ex_p] (fresh ex_src) = s1).
  { change [Init ex_a; StepSync ex_a ex_p] with ([Init ex_a] ++ [StepSync ex_a ex_p]). rewrite run_snoc, E0. cbn [exec]. rewrite E1. reflexivity. }
  unfold accepted, ops_of. rewrite run_snoc, E2. cbn [exec]. unfold step_async. rewrite B3. cbn [negb].
  change (async_rejects ex_src ex_psrc) with false. cbv iota.
  assert (HD : dt_ok ex_src ex_psrc) by (left; cbn; lra).
  pose proof (adjust_some ex_src ex_psrc (set_flags s1 (init_called s1) (now_cond s1) false) HD) as HA.
  destruct (adjust_timesteps ex_src (o_dt ex_psrc) _) as [s2|] eqn:E; [|contradiction].
  apply adjust_spec in E. destruct E as (_ & G1 & _ & _ & _ & _ & G2 & _). cbn [set_flags done] in G2. cbv zeta.
  assert (Q : o_src ex_psrc && negb (Reqb (src_x0 ex_src) 0 && Reqb (src_x1 ex_src) 0) && negb (src_on ex_src) = true).
  { cbn. assert (Q1 : Reqb 1 0 = false) by (apply Reqb_false; lra). rewrite Q1. reflexivity. }
  rewrite Q. cbn [fst snd set_scheme done].
  set (inc := _ || _).
  assert (ED : done (if o_coal ex_psrc && inc then set_coal (log s2 (async_ops1 ex_psrc s2)) (sstp_coal (log s2 (async_ops1 ex_psrc s2)) + 1) false
                     else set_coal (log s2 (async_ops1 ex_psrc s2)) (sstp_coal (log s2 (async_ops1 ex_psrc s2))) inc) = done s1 ++ async_ops1 ex_psrc s2).
  { destruct (o_coal ex_psrc && inc); cbn [set_coal log done]; rewrite G2; reflexivity. }
  rewrite ED, skipn_app_len. split; [discriminate|]. split.
  - assert (Edt : dt s2 = 1). { rewrite G1. unfold dt_eff. cbn. destruct (Rlt_dec 0 (-1)); [exfalso; lra|reflexivity]. }
    unfold async_ops1. rewrite Edt. do 9 (apply in_or_app; right). apply in_or_app; left. now left.
  - intros H. apply ops1_no_post in H. tauto.
Qed.
Print Assumptions C47_rejected_step_moves_particles_refuted.

(** *** C48. A process switched off in the initial options never runs. *)
Definition enabled (o : oinit) (x : op) : Prop :=
  match x with
  | OpCoal _ _ => coal_sw o = true
  | OpSedi _ => sedi_sw o = true
  | OpSubs _ => subs_sw o = true
  | OpTurbAdve _ => turb_adve_sw o = true /\ n_dims o <> 0%nat
  | OpIceNucl _ | OpIceDep _ _ => ice_sw o = true
  | OpIncloud _ => diag_incloud o = true
  | OpSrc _ => src_type o <> src_off
  | OpRlx _ => rlx_sw o = true
  | OpChem _ _ => chem_sw o = true
  | _ => True
  end.
Lemma cond_ops1_enabled o p s : Forall (enabled o) (cond_ops1 o p s).
Proof.
  apply Forall_forall. intros x H. unfold cond_ops1 in H.
  repeat (apply in_app_or in H; destruct H as [H|H]);
    repeat match type of H with
    | In _ (if ?b then _ else _) => destruct b eqn:?
    | In _ (_ ++ _) => apply in_app_or in H; destruct H as [H|H]
    | In _ (map _ _) => apply in_map_iff in H; destruct H as (? & H & _)
    | In _ (flat_map _ _) => apply in_flat_map in H; destruct H as (? & _ & H)
    | In _ _ => cbn in H
    | _ \/ _ => destruct H as [H|H]
    end; try contradiction; subst x; cbn; auto.
  apply andb_true_iff in Heqb. tauto.
Qed.
Lemma cond_ops_enabled o p s : chem_throws o p s = false -> Forall (enabled o) (cond_ops o p s).
Proof.
  intros HT. unfold cond_ops. apply Forall_app. split; [apply cond_ops1_enabled|]. apply Forall_app. split.
  - destruct (chem_on p) eqn:EC; [|constructor]. unfold chem_throws in HT. rewrite EC in HT.
    destruct (chem_sw o) eqn:ES. { apply Forall_forall. intros x H. apply in_map_iff in H. destruct H as (k & <- & _). exact ES. }
    cbn [negb andb] in HT. apply orb_false_iff in HT. destruct HT as (HT & _). apply Z.ltb_ge in HT. replace (Z.to_nat (sstp_chem s)) with 0%nat by lia. constructor.
  - destruct (o_cond p), (o_chem_dsl p); repeat constructor.
Qed.
Lemma before_chem_enabled o p s : Forall (enabled o) (ops_before_chem o p s).
Proof. unfold ops_before_chem. apply Forall_app. split; [apply cond_ops1_enabled|]. destruct (_ && _); repeat constructor. Qed.
Lemma ops1_enabled o p s : async_rejects o p = false -> Forall (enabled o) (async_ops1 p s).
Proof.
  intros HR. unfold async_rejects in HR. repeat (apply orb_false_iff in HR; destruct HR as [HR ?]).
  apply Forall_forall. intros x Hx. unfold async_ops1, coal_ops in Hx.
  repeat (apply in_app_or in Hx; destruct Hx as [Hx|Hx]);
    repeat match type of Hx with
    | In _ (if ?b then _ else _) => destruct b eqn:?
    | In _ (_ ++ _) => apply in_app_or in Hx; destruct Hx as [Hx|Hx]
    | In _ (flat_map _ _) => apply in_flat_map in Hx; destruct Hx as (? & _ & Hx)
    | In _ _ => cbn in Hx
    | _ \/ _ => destruct Hx as [Hx|Hx]
    end; try contradiction; subst x; cbn; auto;
  repeat match goal with H : (_ && negb ?b)%bool = false |- ?b = true => destruct b; [reflexivity|]; cbn in *; congruence
  end.
  split.
  - destruct (turb_adve_sw o); [reflexivity|]. cbn in *; congruence.
  - intros E. rewrite E in *. cbn in *. congruence.
Qed.
Lemma async_enabled o p r s : Forall (enabled o) (done s) -> Forall (enabled o) (done (fst (step_async o p r s))).
Proof.
  intros H. unfold step_async. destruct (negb (now_async s)); [exact H|].
  destruct (async_rejects o p) eqn:ER; [exact H|].
  destruct (adjust_timesteps o (o_dt p) _) as [s1|] eqn:E; [|exact H].
  apply adjust_spec in E. destruct E as (_ & _ & _ & _ & _ & _ & EDn & _). cbn [set_flags done] in EDn.
  cbv zeta. set (inc := _ || _). set (s3 := if o_coal p && inc then _ else _).
  assert (H3 : Forall (enabled o) (done s3)).
  { unfold s3. destruct (o_coal p && inc); cbn; rewrite EDn; apply Forall_app; split; auto using ops1_enabled. }
  clearbody s3.
  set (sh := o_src p && _). destruct (sh && negb (src_on o)) eqn:E1; [exact H3|].
  set (s5 := if sh then log _ _ else _).
  assert (H5 : Forall (enabled o) (done s5)).
  { unfold s5. destruct sh; [|exact H3]. cbn. apply Forall_app. split; [exact H3|]. constructor; [|constructor].
    cbn in *. unfold src_on in E1. destruct (src_type o); cbn in *; [discriminate|discriminate|discriminate]. }
  clearbody s5.
  destruct (o_rlx p && negb (rlx_sw o)) eqn:E2; [exact H5|].
  assert (H6 : forall l, Forall (enabled o) (done s5 ++ l ++ async_ops2 o p) <-> Forall (enabled o) l).
  { intros l. rewrite !Forall_app. assert (Forall (enabled o) (async_ops2 o p)).
    { unfold async_ops2. destruct (o_adve p || o_turb_adve p), (multi_spawn o), (o_rcyc p); cbn; repeat constructor. }
    tauto. }
  destruct (o_rlx p) eqn:E4; cbn [andb] in *.
  - destruct (_ =? 0)%Z; cbn.
    + rewrite <- app_assoc. apply H6. constructor; [|constructor]. cbn. now destruct (rlx_sw o).
    + apply (proj2 (H6 [])). constructor.
  - apply (proj2 (H6 [])). constructor.
Qed.
Theorem C48_disabled_process_never_runs_partial :
  forall o h x, In x (done (run o h (fresh o))) -> enabled o x.
Proof.
  intros o h. apply Forall_forall. induction h as [|c h IH] using rev_ind; [constructor|].
  rewrite run_snoc. set (s := run o h (fresh o)) in *.
  assert (HC : forall p s, Forall (enabled o) (done s) -> Forall (enabled o) (done (fst (step_cond o p s)))).
  { intros p t Ht. unfold step_cond. destruct (negb (now_cond t)); [exact Ht|]. destruct (_ && _); [exact Ht|].
    destruct (adjust_timesteps o (o_dt p) _) as [s2|] eqn:E; [|exact Ht].
    apply adjust_spec in E. destruct E as (_ & _ & _ & _ & _ & _ & EDn & _). cbn [set_flags done] in EDn.
    destruct (chem_throws o p s2) eqn:ET; cbn; rewrite EDn; apply Forall_app; (split; [exact Ht|]); [apply before_chem_enabled|apply cond_ops_enabled, ET]. }
  assert (HS : forall a s, Forall (enabled o) (done s) -> Forall (enabled o) (done (fst (sync_in o a s)))).
  { intros a t Ht. unfold sync_in. destruct (negb (init_called t)); [exact Ht|]. destruct (now_async t); [exact Ht|].
    destruct (sync_rejects o a); [exact Ht|]. cbn [fst set_flags done log].
    assert (E : forall u b, Forall (enabled o) (done u) -> Forall (enabled o) (done (if b : bool then set_scheme u false else u))) by (intros u [] Hu; exact Hu).
    apply Forall_app. split; [|repeat constructor]. apply E. destruct (a_cx a); exact Ht. }
  destruct c as [a|a|p|a p|p r]; cbn [exec].
  - unfold init. destruct (init_called s); [exact IH|]. destruct (init_rejects o a); [exact IH|].
    cbn [fst log done]. apply Forall_app. split; [destruct (a_cx a); exact IH|repeat constructor].
  - now apply HS.
  - now apply HC.
  - rewrite step_sync_eq. destruct (snd (sync_in o a s)); cbn [fst]; [apply HC|]; now apply HS.
  - now apply async_enabled.
Qed.
Print Assumptions C48_disabled_process_never_runs_partial.
Theorem C48_instance : In (OpSedi 1) (ops_of ex_src [Init ex_a; StepSync ex_a ex_p] (StepAsync ex_psrc false)).
Proof. exact (proj1 (proj2 C47_rejected_step_moves_particles_refuted)). Qed.

(** Not covered above because false: turbulence in the collision rate and the turbulent supersaturation tendency run although switched off. Chemistry does not, but
    the call that asks for it is refused only after condensation has been performed. *)
Definition ex_pchem : opts := mk_opts false false false true false false false true false false false false false true false (-1).
Definition ex_pturb : opts := mk_opts false false false false true false false true false false true false false false false (-1).
Definition ex_ptc : opts := mk_opts false false false false false false false true false true false false false false false (-1).
Theorem C48_unchecked_processes_refuted :
  chem_sw ex_o = false /\ turb_coal_sw ex_o = false /\ turb_cond_sw ex_o = false /\
  (let h := [Init ex_a; SyncIn ex_a] in ~ accepted ex_o h (StepCond ex_pchem) /\ In (OpCondCell 1 0) (ops_of ex_o h (StepCond ex_pchem))) /\
  (let h := [Init ex_a; StepSync ex_a ex_p] in
     (accepted ex_o h (StepAsync ex_pturb false) /\ exists d, In (OpCoal d true) (ops_of ex_o h (StepAsync ex_pturb false))) /\
     (accepted ex_o h (StepAsync ex_ptc false) /\ In OpTurbDotSs (ops_of ex_o h (StepAsync ex_ptc false)))).
Proof.
  assert (L1 := ex_init_ok). assert (L2 := ex_sync_ok).
  do 3 (split; [reflexivity|]). cbv zeta.
  destruct (init_ok_eq ex_o ex_a L1) as (s0 & E0 & A1 & A2 & A3 & A4 & A5). split.
  - destruct (sync_ok_eq ex_o ex_a s0 A1 A3 L2) as (s1 & E1 & B1 & B2 & B3 & _).
    assert (E3 : run ex_o [Init ex_a; SyncIn ex_a] (fresh ex_o) = s1).
    { change [Init ex_a; SyncIn ex_a] with ([Init ex_a] ++ [SyncIn ex_a]). rewrite run_snoc, E0. cbn [exec]. rewrite E1. reflexivity. }
    unfold accepted, ops_of. rewrite run_snoc, E3. cbn [exec]. unfold step_cond. rewrite B2. change (o_turb_cond ex_pchem && negb (turb_cond_sw ex_o)) with false. cbn [negb].
    set (t := set_flags s1 _ _ _).
    assert (Dt : dt_ok ex_o ex_pchem) by (left; cbn; lra). pose proof (adjust_some ex_o ex_pchem t Dt) as HA.
    destruct (adjust_timesteps ex_o (o_dt ex_pchem) t) as [s2|] eqn:E2; [|contradiction]. clear HA.
    apply adjust_spec in E2. destruct E2 as (_ & G1 & G2 & _ & G3 & _ & G4 & _).
    assert (Edt : dt s2 = 1). { rewrite G1. unfold dt_eff. cbn. destruct (Rlt_dec 0 (-1)); [exfalso; lra|reflexivity]. }
    assert (Eco : sstp_cond s2 = 1%Z). { rewrite G2. unfold adj. change (sstp_cond0 ex_o) with 1%Z. rewrite andb_false_r. reflexivity. }
    assert (Ech : sstp_chem s2 = 1%Z). { rewrite G3. unfold adj. change (sstp_chem0 ex_o) with 1%Z. rewrite andb_false_r. reflexivity. }
    assert (ET : chem_throws ex_o ex_pchem s2 = true) by (unfold chem_throws; rewrite Ech; reflexivity). rewrite ET. cbn [snd fst]. split; [discriminate|].
    cbn [log done]. rewrite G4. cbn [t set_flags done]. rewrite skipn_app_len. unfold ops_before_chem. apply in_or_app; left. unfold cond_ops1.
    do 2 (apply in_or_app; right). cbn [ex_pchem o_cond]. apply in_or_app; right. apply in_or_app; left. cbn [ex_o exact_sstp andb]. rewrite Eco, Edt.
    cbn. right. left. f_equal. lra.
  - assert (CO : cond_ok ex_o ex_p) by (apply ex_cond_ok; reflexivity).
    destruct (step_sync_ok_eq ex_o ex_a ex_p s0 A1 A3 L2 CO) as (s1 & E1 & B1 & B2 & B3 & B4 & B5).
    assert (E2 : run ex_o [Init ex_a; StepSync ex_a ex_p] (fresh ex_o) = s1).
    { change [Init ex_a; StepSync ex_a ex_p] with ([Init ex_a] ++ [StepSync ex_a ex_p]). rewrite run_snoc, E0. cbn [exec]. rewrite E1. reflexivity. }
    assert (HA : forall p, o_dt p = -1 -> o_src p = false -> o_rlx p = false -> async_rejects ex_o p = false -> accepted ex_o [Init ex_a; StepSync ex_a ex_p] (StepAsync p false)).
    { intros p P1 P2 P3 P4. unfold accepted. rewrite E2. cbn [exec]. apply async_ok_accepted; [exact B3|].
      split; [exact P4|]. split; [left; rewrite P1; lra|]. split; [intros [H _]; congruence|congruence]. }
    split.
    + assert (HA1 : accepted ex_o [Init ex_a; StepSync ex_a ex_p] (StepAsync ex_pturb false)) by (apply HA; reflexivity).
      split; [exact HA1|].
      pose proof (C36_increase_is_lost_refuted _ _ _ _ HA1 eq_refl) as HL.
      destruct (coal_lens (ops_of ex_o [Init ex_a; StepSync ex_a ex_p] (StepAsync ex_pturb false))) as [|d l] eqn:EL.
      { exfalso. cbn in HL. destruct (Rlt_dec 0 (-1)); [lra|]. discriminate. }
      exists d. destruct (ops_async_has _ _ _ _ HA1) as (_ & _ & HC). apply (HC eq_refl). rewrite EL. now left.
    + assert (HA1 : accepted ex_o [Init ex_a; StepSync ex_a ex_p] (StepAsync ex_ptc false)) by (apply HA; reflexivity).
      split; [exact HA1|]. destruct (ops_async_has _ _ _ _ HA1) as (_ & HC & _). exact (HC eq_refl).
Qed.
Print Assumptions C48_unchecked_processes_refuted.

Print Assumptions C35_instance.
Print Assumptions C36_instance.
Print Assumptions C48_instance.
