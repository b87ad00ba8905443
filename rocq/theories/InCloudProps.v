(** C43: in-cloud time. *)
From Coq Require Import List Arith NArith ZArith Lia Reals Lra Permutation Bool.
From Verif Require Import Base BaseProofs HskpngModel HskpngProofs HskpngProps
     RcycModel RcycProofs RcycProps CoalModel CoalProofs CoalPairProofs CoalPassProofs CoalProps TomsModel KoehlerModel InCloudModel.
Import ListNotations.
Local Open Scope R_scope.

(** ** Specification
    What is known of each event, for computing times: *)
Inductive entry :=
| Tick (dt : R) (activated : nat -> Prop)      (* time dt passes; who is larger than its critical radius *)
| Merge (absorbs : nat -> nat -> Prop)         (* number i absorbs number j *)
| Births (first : nat)                         (* numbers from [first] on are new *)
| Moved (src : nat -> nat)                     (* number i was number (src i) *)
| Nothing.

(** [time l i t]: following the history back from super-droplet i, through one of the droplets that were
    merged into it at each merge, the time since it was last not activated (or was created) is t. *)
Inductive time : list entry -> nat -> R -> Prop :=
| t_act dt (act : nat -> Prop) l i t : act i -> time l i t -> time (Tick dt act :: l) i (t + dt)
| t_deact dt (act : nat -> Prop) l i : ~ act i -> time (Tick dt act :: l) i 0
| t_self (abs : nat -> nat -> Prop) l i t : time l i t -> time (Merge abs :: l) i t
| t_absorbed (abs : nat -> nat -> Prop) l i j t : abs i j -> time l j t -> time (Merge abs :: l) i t
| t_born first l i : (first <= i)%nat -> time (Births first :: l) i 0
| t_old first l i t : (i < first)%nat -> time l i t -> time (Births first :: l) i t
| t_moved src l i t : time l (src i) t -> time (Moved src :: l) i t
| t_nothing l i t : time l i t -> time (Nothing :: l) i t.

Definition longest (l : list entry) (i : nat) (t : R) : Prop :=
  time l i t /\ forall t', time l i t' -> t' <= t.

(** the entry that describes an event which changes [s] into [s'] *)
Definition describes (o : copts) (prec : fptype) (n0 : nat) (s s' : nat -> sd) (e : event) (en : entry) : Prop :=
  match e with
  | Ev_step dt T ijk =>
      exists act, en = Tick dt act /\
        forall i, (i < n0)%nat -> (act i <-> rc2_of prec (rd3 (s i)) (kpa (s i)) (T (ijk i)) < rw2 (s i))
  | Ev_coal kernel dt dv _ _ _ ijk _ _ _ u01 =>
      exists abs pairs, en = Merge abs /\ legal_pairing ijk pairs /\
        (forall i j, abs i j <->
           exists r, ((In (r, i, j) pairs /\ (n (s i) < n (s j))%N) \/ (In (r, j, i) pairs /\ (n (s i) <= n (s j))%N)) /\
           exists c, (0 < c)%N /\ merged o c (s j) (s i) (s' j) (s' i)) /\
        (forall r i j, In (r, i, j) pairs -> ~ abs i j -> ~ abs j i -> s' i = s i /\ s' j = s j)
  | Ev_add _ _ => en = Births n0
  | Ev_copy src _ => en = Moved src
  | Ev_other _ => en = Nothing
  end.

(** inputs of the coalescence passes of a history are as in C01 *)
Definition good_event (n0 : nat) (s : nat -> sd) (e : event) : Prop :=
  match e with
  | Ev_coal kernel dt dv n_cell gn gr ijk sid_ sijk_ sched u01 =>
      sort_helper true ijk sijk_ sid_ /\ pass_inputs kernel dt dv n_cell ijk sched s
  | _ => True
  end.

Fixpoint described (o : copts) (prec : fptype) (l : list (event * nat * (nat -> sd))) (s' : nat -> sd) (en : list entry) : Prop :=
  match l, en with
  | [], [] => True
  | (e, n0, s) :: l', x :: en' => describes o prec n0 s s' e x /\ described o prec l' s en'
  | _, _ => False
  end.

(** ** one pass of coalescence *)
Lemma pairs_unique ijk ps : legal_pairing ijk ps ->
  forall r i j r' i' j', In (r, i, j) ps -> In (r', i', j') ps ->
    (i = i' \/ i = j' \/ j = i' \/ j = j') -> r = r' /\ i = i' /\ j = j'.
Proof.
  intros (ND & _) r i j r' i' j' H H'.
  induction ps as [|[[q a] b] ps IH]; [destruct H|].
  cbn in ND. inversion ND as [|x l Ha ND1 Ex]; subst. inversion ND1 as [|x l Hb ND2 Ex]; subst.
  assert (F : forall q' a' b', In (q', a', b') ps -> a <> a' /\ a <> b' /\ b <> a' /\ b <> b').
  { intros q' a' b' Hq.
    assert (Hina : In a' (flat_map (fun t => [snd (fst t); snd t]) ps)) by (apply in_flat_map; exists (q', a', b'); cbn; auto).
    assert (Hinb : In b' (flat_map (fun t => [snd (fst t); snd t]) ps)) by (apply in_flat_map; exists (q', a', b'); cbn; auto).
    repeat split; intros ->; try (apply Ha; right; assumption); try (apply Hb; assumption). }
  destruct H as [E|H], H' as [E'|H'].
  - injection E as <- <- <-. injection E' as <- <- <-. auto.
  - injection E as <- <- <-. destruct (F _ _ _ H') as (A & B & C & D). tauto.
  - injection E' as <- <- <-. destruct (F _ _ _ H) as (A & B & C & D).
    intros [K|[K|[K|K]]]; subst; tauto.
  - apply IH; auto.
Qed.

Lemma pass_times o kernel dt dv n_cell gn gr ijk sid_ sijk_ sched u01 s st :
  diag_incloud_time o = true ->
  sort_helper true ijk sijk_ sid_ -> pass_inputs kernel dt dv n_cell ijk sched s ->
  coal kernel dt dv o n_cell gn gr sid_ sijk_ (length ijk) sched u01 s = Some st ->
  exists abs ps,
    legal_pairing ijk ps /\
    (forall i j, abs i j <->
       exists r, ((In (r, i, j) ps /\ (n (s i) < n (s j))%N) \/ (In (r, j, i) ps /\ (n (s i) <= n (s j))%N)) /\
       exists c, (0 < c)%N /\ merged o c (s j) (s i) (arr st j) (arr st i)) /\
    (forall r i j, In (r, i, j) ps -> ~ abs i j -> ~ abs j i -> arr st i = s i /\ arr st j = s j) /\
    (forall i, ict (s i) <= ict (arr st i) /\
       (ict (arr st i) = ict (s i) \/ exists j, abs i j /\ ict (arr st i) = ict (s j))) /\
    (forall i j, abs i j -> ict (s j) <= ict (arr st i) /\ (i < length ijk)%nat /\ (j < length ijk)%nat).
Proof.
  intros Hd Hs Hin Hst.
  destruct (coal_pass_pairs kernel dt dv o n_cell gn gr ijk sid_ sijk_ sched u01 s Hs Hin) as (st' & H1 & H2 & H3 & H4).
  rewrite Hst in H1. injection H1 as <-.
  set (ps := pairs n_cell gn ijk sid_ sijk_) in *. clearbody ps.
  exists (fun i j => exists r, ((In (r, i, j) ps /\ (n (s i) < n (s j))%N) \/ (In (r, j, i) ps /\ (n (s i) <= n (s j))%N)) /\
       exists c, (0 < c)%N /\ merged o c (s j) (s i) (arr st j) (arr st i)), ps.
  split; [exact H2|]. split; [intros; reflexivity|].
  assert (Hict : forall c X Y X' Y', merged o c X Y X' Y' -> ict Y' = Rmax (ict X) (ict Y)).
  { intros c X Y X' Y' M. pose proof (mg_ict _ _ _ _ _ _ M) as E. now rewrite Hd in E. }
  assert (HX : forall c X Y X' Y', merged o c X Y X' Y' -> ict X' = ict X).
  { intros c X Y X' Y' M. pose proof (mg_X _ _ _ _ _ _ M) as E. tauto. }
  assert (Hlim : forall c X Y, (0 < c)%N -> (Y <= X)%N -> (0 < limited c X Y)%N) by (intros; apply limited_pos; auto).
  split; [|split].
  - intros r i j Hp Hn1 Hn2. destruct (H3 r i j Hp) as (c1 & _ & [(-> & E1 & E2)|[(Hc & Hle & M)|(Hc & Hlt & M)]]).
    + auto.
    + exfalso. apply Hn2. exists r. split; [right; auto|]. eexists; split; [|exact M]. now apply Hlim.
    + exfalso. apply Hn1. exists r. split; [left; auto|]. eexists; split; [|exact M]. apply Hlim; auto; lia.
  - intros i.
    destruct (in_dec Nat.eq_dec i (flat_map (fun t => [snd (fst t); snd t]) ps)) as [Hi|Hi].
    2:{ rewrite H4 by exact Hi. split; [lra|]. left; reflexivity. }
    apply in_flat_map in Hi. destruct Hi as ([[r a] b] & Hp & Hab). cbn in Hab.
    assert (Hmax : forall c j r', (0 < c)%N -> merged o c (s j) (s i) (arr st j) (arr st i) ->
       ((In (r', i, j) ps /\ (n (s i) < n (s j))%N) \/ (In (r', j, i) ps /\ (n (s i) <= n (s j))%N)) ->
       ict (s i) <= ict (arr st i) /\
       (ict (arr st i) = ict (s i) \/
        exists j0, (exists r, ((In (r, i, j0) ps /\ (n (s i) < n (s j0))%N) \/ (In (r, j0, i) ps /\ (n (s i) <= n (s j0))%N)) /\
          exists c, (0 < c)%N /\ merged o c (s j0) (s i) (arr st j0) (arr st i)) /\ ict (arr st i) = ict (s j0))).
    { intros c j r' Hc M Hr. pose proof (Hict _ _ _ _ _ M) as E. rewrite E. split; [apply Rmax_r|].
      unfold Rmax. destruct (Rle_dec (ict (s j)) (ict (s i))); [left; reflexivity|right].
      exists j. split; [|reflexivity]. exists r'. split; [exact Hr|]. exists c. auto. }
    destruct (H3 r a b Hp) as (c1 & Hcc & [(-> & E1 & E2)|[(Hc & Hle & M)|(Hc & Hlt & M)]]);
      destruct Hab as [<-|[<-|[]]].
    + rewrite E1. split; [lra|auto].
    + rewrite E2. split; [lra|auto].
    + rewrite (HX _ _ _ _ _ M). split; [lra|auto].
    + apply (Hmax _ a r) in M; auto.
    + apply (Hmax _ b r) in M; auto. apply Hlim; auto; lia.
    + rewrite (HX _ _ _ _ _ M). split; [lra|auto].
  - intros i j (r & Hr & c & Hc & M). rewrite (Hict _ _ _ _ _ M). split; [apply Rmax_l|].
    destruct H2 as (_ & _ & Hb & _). destruct Hr as [[Hr _]|[Hr _]]; destruct (Hb _ _ _ Hr) as (A & B & _); auto.
Qed.

Lemma history_longest o prec l np s :
  diag_incloud_time o = true ->
  history o prec l np s ->
  (forall e n0 s0, In (e, n0, s0) l -> good_event n0 s0 e) ->
  exists en, described o prec l s en /\ forall i, (i < np)%nat -> longest en i (ict (s i)).
Proof.
  intros Hd H. induction H as [s|l n0 s e n1 s' Hl IH He]; intros Hg.
  { exists []. split; [exact I|]. intros i Hi. lia. }
  destruct IH as (en & Hdes & Hlong). { intros. apply Hg. right. auto. }
  pose proof (Hg e n0 s (or_introl eq_refl)) as Hge. clear Hg.
  destruct e as [dt T ijk|kernel dt dv n_cell gn gr ijk sid_ sijk_ sched u01|fresh n_new|src n_new|f]; cbn [happens good_event] in *.
  - destruct He as [-> ->]. unfold step_cond_incloud. rewrite Hd.
    set (act := fun i => rc2_of prec (rd3 (s i)) (kpa (s i)) (T (ijk i)) < rw2 (s i)).
    exists (Tick dt act :: en). cbn [described describes]. split.
    { split; [|exact Hdes]. exists act. split; [reflexivity|]. intros i Hi. unfold act. tauto. }
    intros i Hi. unfold update_incloud_time. apply Nat.ltb_lt in Hi as Hi'. rewrite Hi'.
    cbn [ict set_ict]. unfold incloud_time_updater.
    destruct (Hlong i Hi) as [Ht Hm].
    destruct (Rltb _ _) eqn:E.
    + apply Rltb_true in E. split; [apply t_act; auto|]. intros t' Ht'. inversion Ht'; subst; [|tauto].
      match goal with K : time en i ?u |- ?u + _ <= _ => specialize (Hm _ K) end. lra.
    + apply Rltb_false in E. assert (~ act i) by (unfold act; lra).
      split; [now apply t_deact|]. intros t' Ht'. inversion Ht'; subst; [tauto|lra].
  - destruct He as (-> & Hn & st & Hst & ->). destruct Hge as [Hs Hin]. rewrite Hn in Hst.
    destruct (pass_times o kernel dt dv n_cell gn gr ijk sid_ sijk_ sched u01 s st Hd Hs Hin Hst)
      as (abs & ps & Hleg & Habs & Hnone & Hself & Hb).
    exists (Merge abs :: en). cbn [described describes]. split.
    { split; [|exact Hdes]. exists abs, ps. auto. }
    intros i Hi. destruct (Hself i) as [Hle Hor]. destruct (Hlong i Hi) as [Ht Hm]. split.
    + destruct Hor as [->|(j & Hj & ->)]; [now apply t_self|].
      destruct (Hb _ _ Hj) as (_ & _ & Hjl). apply (t_absorbed abs en i j); auto. apply Hlong. lia.
    + intros t' Ht'. inversion Ht'; subst.
      * match goal with K : time en i ?u |- ?u <= _ => specialize (Hm _ K) end. lra.
      * match goal with K : abs i ?j, K' : time en ?j ?u |- _ => destruct (Hb _ _ K) as (Hjle & _ & Hjl);
          destruct (Hlong j) as [_ Hmj]; [lia|]; specialize (Hmj _ K') end. lra.
  - destruct He as [-> ->]. rewrite Hd. exists (Births n0 :: en). cbn [described describes]. split; [auto|].
    intros i Hi. unfold init_incloud_time. destruct (Nat.leb_spec n0 i) as [Hge'|Hlt].
    + cbn [ict set_ict]. split; [now apply t_born|]. intros t' Ht'. inversion Ht'; subst; [lra|lia].
    + apply Nat.ltb_lt in Hlt as Hlt'. rewrite Hlt'. destruct (Hlong i Hlt) as [Ht Hm].
      split; [now apply t_old|]. intros t' Ht'. inversion Ht'; subst; [lia|auto].
  - destruct He as (-> & Hc). exists (Moved src :: en). cbn [described describes]. split; [auto|].
    intros i Hi. destruct (Hc i Hi) as [Hlt ->]. destruct (Hlong _ Hlt) as [Ht Hm].
    split; [now apply t_moved|]. intros t' Ht'. inversion Ht'; subst; auto.
  - destruct He as (-> & Hf & ->). exists (Nothing :: en). cbn [described describes]. split; [auto|].
    intros i Hi. cbv beta. rewrite Hf. destruct (Hlong i Hi) as [Ht Hm].
    split; [now apply t_nothing|]. intros t' Ht'. inversion Ht'; subst; auto.
Qed.

(** C43. With the diagnostic enabled, after every history of creation, steps, collisions, removal,
    recycling and other processes, the in-cloud time of every super-droplet is the longest of the times
    for which it, or one of the droplets that merged into it, has been activated without a break at the
    beginnings of steps (each step counting with its own timestep). *)
Theorem C43_history :
  forall o prec l np s,
    diag_incloud_time o = true ->
    history o prec l np s ->
    (forall e n0 s0, In (e, n0, s0) l -> good_event n0 s0 e) ->
    exists en, described o prec l s en /\ forall i, (i < np)%nat -> longest en i (ict (s i)).
Proof. exact history_longest. Qed.
Print Assumptions C43_history.

(** For a super-droplet which takes part in no merge and is not moved, this is the sum of the timesteps
    since the last step at which it was not activated: *)
Fixpoint since_deactivated (l : list (R * bool)) : R :=   (* newest first *)
  match l with
  | (dt, true) :: r => since_deactivated r + dt
  | _ => 0
  end.

(** A sequence of steps, newest first: timestep, temperatures and cells, and what the other
    processes do to the super-droplets after it *)
Fixpoint steps (o : copts) (prec : fptype) (np : nat)
    (l : list (R * (nat -> R) * (nat -> nat) * (nat -> sd -> sd))) (s : nat -> sd) : nat -> sd :=
  match l with
  | [] => s
  | (dt, T, ijk, f) :: r => fun i => f i (step_cond_incloud o prec dt T ijk np (steps o prec np r s) i)
  end.
Fixpoint activations (o : copts) (prec : fptype) (np : nat) (i : nat)
    (l : list (R * (nat -> R) * (nat -> nat) * (nat -> sd -> sd))) (s : nat -> sd) : list (R * bool) :=
  match l with
  | [] => []
  | (dt, T, ijk, f) :: r =>
      let x := steps o prec np r s i in
      (dt, if Rlt_dec (rc2_of prec (rd3 x) (kpa x) (T (ijk i))) (rw2 x) then true else false)
      :: activations o prec np i r s
  end.

Theorem C43_without_collisions :
  forall o prec np l s i,
    diag_incloud_time o = true -> (i < np)%nat -> ict (s i) = 0 ->
    (forall dt T ijk f, In (dt, T, ijk, f) l -> forall j x, ict (f j x) = ict x) ->
    ict (steps o prec np l s i) = since_deactivated (activations o prec np i l s).
Proof.
  intros o prec np l s i Hd Hi H0. induction l as [|[[[dt T] ijk] f] r IH]; intros Hf; [exact H0|].
  cbn [steps activations since_deactivated].
  rewrite (Hf dt T ijk f (or_introl eq_refl)). unfold step_cond_incloud, update_incloud_time. rewrite Hd.
  apply Nat.ltb_lt in Hi as ->. cbn [ict set_ict]. unfold incloud_time_updater.
  rewrite IH by (intros; eapply Hf; right; eauto).
  destruct (Rltb _ _) eqn:E.
  - apply Rltb_true in E. destruct (Rlt_dec _ _); [reflexivity|tauto].
  - apply Rltb_false in E. destruct (Rlt_dec _ _); [lra|reflexivity].
Qed.
Print Assumptions C43_without_collisions.

(** Without the diagnostic nothing is written. *)
Theorem C43_disabled :
  forall o prec dt T ijk np s, diag_incloud_time o = false ->
    step_cond_incloud o prec dt T ijk np s = s.
Proof. intros o prec dt T ijk np s H. unfold step_cond_incloud. now rewrite H. Qed.
Print Assumptions C43_disabled.

(** ** removal and recycling only copy *)
Lemma finite_choice (P : nat -> nat -> Prop) m :
  (forall k, (k < m)%nat -> exists j, P k j) -> exists f, forall k, (k < m)%nat -> P k (f k).
Proof.
  induction m as [|m IH]; intros H; [exists (fun _ => 0%nat); intros; lia|].
  destruct IH as (f & Hf); [intros; apply H; lia|]. destruct (H m (Nat.lt_succ_diag_r m)) as (j & Hj).
  exists (fun k => if (k =? m)%nat then j else f k). intros k Hk.
  destruct (Nat.eqb_spec k m) as [->|]; [exact Hj|apply Hf; lia].
Qed.
Lemma xfer_copies (sid : list nat) np sched (f : nat -> R) :
  (forall k, (nth k sid 0 < np)%nat) ->
  forall i, (i < np)%nat -> exists j, (j < np)%nat /\ xfer (fun x => x) 0 sid sched f i = f j.
Proof.
  intros Hsid. unfold xfer.
  assert (G : forall l g, (forall i, (i < np)%nat -> exists j, (j < np)%nat /\ g i = f j) ->
     forall i, (i < np)%nat -> exists j, (j < np)%nat /\
       fold_left (fun f k => upd f (0 + nth k sid 0) (f (0 + nth (length sid - 1 - k) sid 0)))%nat l g i = f j).
  { induction l as [|k l IH]; intros g Hg; [exact Hg|]. cbn [fold_left]. apply IH.
    intros i Hi. unfold upd. destruct (Nat.eqb_spec i (0 + nth k sid 0)%nat) as [E|E]; [apply Hg; apply Hsid|apply Hg; exact Hi]. }
  apply G. intros i Hi. exists i. auto.
Qed.
Lemma survivors_copies gar garn nmax nvec nchem q p' v :
  (np q <= nmax)%nat -> remove_n0 gar garn nmax nvec nchem q = Some p' -> (v < nvec)%nat ->
  forall k, (k < np p')%nat -> exists j, (j < np q)%nat /\ vec p' v k = vec q v j.
Proof.
  intros Hq H Hv k Hk.
  destruct (remove_n0_survivors gar garn nmax nvec nchem q Hq) as (p2 & E & (keep & _ & Hin & Enp & Hkk) & _).
  rewrite H in E. injection E as <-. destruct (Hkk k Hk) as [_ Ha].
  exists (nth k keep 0%nat). split; [apply Hin; apply nth_In; lia|].
  unfold attrs in Ha. apply (f_equal (fun l => nth v l 0)) in Ha.
  rewrite !app_nth1 in Ha by (rewrite map_length, seq_length; exact Hv).
  rewrite (nth_indep _ 0 (vec p' 0%nat k)), (nth_indep (map (fun w => vec q w _) _) 0 (vec q 0%nat (nth k keep 0%nat))) in Ha
    by (rewrite map_length, seq_length; exact Hv).
  rewrite (map_nth (fun w => vec p' w k)), (map_nth (fun w => vec q w (nth k keep 0%nat))), seq_nth in Ha by exact Hv. exact Ha.
Qed.

(** the end-of-step clean-up (recycling or removal) is an event of the kind [Ev_copy] *)
Theorem C43_clean_up_copies :
  forall gar garn n_sd_max nvec nchem pcm tmp sid sched opt_rcyc p p' v,
    rcyc_inputs n_sd_max p tmp sid sched -> (v < nvec)%nat ->
    clean_up gar garn n_sd_max nvec nchem pcm tmp sid sched opt_rcyc p = Some p' ->
    exists src, forall k, (k < np p')%nat -> (src k < np p)%nat /\ vec p' v k = vec p v (src k).
Proof.
  intros gar garn nmax nvec nchem pcm tmp sid sched opt p p' v (Hmax & Hsort & Hsched) Hv Hrun.
  assert (Hcopy : forall k, (k < np p')%nat -> exists j, (j < np p)%nat /\ vec p' v k = vec p v j).
  { assert (Hrem : remove_n0 gar garn nmax nvec nchem p = Some p' ->
       forall k, (k < np p')%nat -> exists j, (j < np p)%nat /\ vec p' v k = vec p v j)
      by (intros; eapply survivors_copies; eauto).
    unfold clean_up in Hrun. destruct opt; [|auto].
    unfold rcyc in Hrun. destruct (count_zero p =? 0)%nat eqn:E0.
    { injection Hrun as <-. intros k Hk. exists k. auto. }
    destruct pcm; [auto|]. destruct (find1 (rev tmp) =? 0)%nat; [auto|].
    assert (Hsid : forall k, (nth k sid 0 < np p)%nat).
    { pose proof (sid_perm p tmp sid Hsort) as HP. intros k.
      assert (Hl : length sid = np p) by (apply Permutation_length in HP; now rewrite seq_length in HP).
      destruct (Nat.lt_ge_cases k (length sid)) as [Hk|Hk].
      - assert (In (nth k sid 0%nat) (seq 0 (np p))) by (eapply Permutation_in; [exact HP|now apply nth_In]).
        apply in_seq in H. lia.
      - rewrite nth_overflow by exact Hk.
        assert (0 < np p)%nat; [|assumption]. destruct (np p) eqn:Enp; [|lia].
        apply Nat.eqb_neq in E0. unfold count_zero in E0. rewrite Enp in E0. cbn in E0. congruence. }
    set (nf := if (find1 (rev tmp) <? count_zero p)%nat then find1 (rev tmp) else count_zero p) in *.
    destruct (nf <? count_zero p)%nat.
    - intros k Hk. pose proof (fun H => survivors_copies _ _ _ _ _ _ _ v H Hrun Hv k Hk) as HS.
      destruct (HS Hmax) as (j & Hj & ->). clear HS.
      cbn [np vec] in *. assert (Ev : (v <? nvec)%nat = true) by now apply Nat.ltb_lt. rewrite Ev.
      apply xfer_copies; auto.
    - injection Hrun as <-. cbn [np vec]. intros k Hk.
      assert (Ev : (v <? nvec)%nat = true) by now apply Nat.ltb_lt. rewrite Ev. apply xfer_copies; auto. }
  apply finite_choice in Hcopy. exact Hcopy.
Qed.
Print Assumptions C43_clean_up_copies.

(** ** a concrete history: creation of two super-droplets, a step in which one of them is activated, a
    pass of coalescence in which they collide (twice) *)
Definition x_prec : fptype := {| fmax := 1; fmin := 1; feps := 1 |}.
Definition x_opts : copts := mk_copts false 1 0 1 true false false.
Definition x_fresh (i : nat) : sd :=
  if (i =? 0)%nat then mk_sd 5 (Rabs (rc2_of x_prec 1 1 300) + 1) 1 1 1 (fun _ => 0) 7 0 (0,0,0)
  else mk_sd 2 0 1 1 1 (fun _ => 0) 7 0 (0,0,0).
Definition x_born : nat -> sd := init_incloud_time 0 (fun i => if (i <? 0)%nat then x_fresh i else x_fresh i).
Definition x_step1 := step_cond_incloud x_opts x_prec 2 (fun _ => 300) (fun _ => 0%nat) 2 x_born.

Lemma x_inputs : pass_inputs (fun _ _ _ => 3) 1 (fun _ => 1) 1 [0;0]%nat (fun _ => [0%nat]) x_step1.
Proof.
  constructor.
  - cbn [length]. lia.
  - intros c [<-|[<-|[]]]; lia.
  - intros k. cbn. apply Permutation_refl.
  - lra.
  - intros; lra.
  - intros; lra.
  - intros i Hi. destruct i as [|[|i]]; reflexivity.
  - intros i Hi. pose proof (Rabs_pos (rc2_of x_prec 1 1 300)).
    destruct i as [|[|i]]; [| |cbn [length] in Hi; lia];
      unfold x_step1, step_cond_incloud, update_incloud_time, x_born, init_incloud_time, x_fresh;
      cbn [diag_incloud_time x_opts Nat.ltb Nat.leb Nat.eqb set_ict rw2]; lra.
Qed.

Theorem C43_instance :
  exists l s,
    history x_opts x_prec l 2 s /\
    (forall e n0 s0, In (e, n0, s0) l -> good_event n0 s0 e) /\
    length l = 3%nat /\ ict (s 0%nat) = 2 /\ ict (s 1%nat) = 2 /\ n (s 0%nat) = 1%N.
Proof.
  destruct (C01_pairs_disjoint_same_cell_others_untouched (fun _ _ _ => 3) 1 (fun _ => 1) x_opts 1
     (fun _ => 0%nat) (fun _ => 0) [0;0]%nat [0;1]%nat [0;0]%nat (fun _ => [0%nat]) (fun _ => 1/2) x_step1
     ex_sort x_inputs) as (st & prs & Hrun & _).
  exists [(Ev_coal (fun _ _ _ => 3) 1 (fun _ => 1) 1 (fun _ => 0%nat) (fun _ => 0) [0;0]%nat [0;1]%nat [0;0]%nat
             (fun _ => [0%nat]) (fun _ => 1/2), 2%nat, x_step1);
          (Ev_step 2 (fun _ => 300) (fun _ => 0%nat), 2%nat, x_born);
          (Ev_add x_fresh 2, 0%nat, x_fresh)], (arr st).
  split; [|split; [|split; [reflexivity|]]].
  - apply h_cons with (s := x_step1) (n0 := 2%nat).
    + apply h_cons with (s := x_born) (n0 := 2%nat).
      * apply h_cons with (s := x_fresh) (n0 := 0%nat); [apply h_nil|].
        cbn [happens]. split; reflexivity.
      * cbn [happens]. split; reflexivity.
    + cbn [happens]. split; [reflexivity|]. split; [reflexivity|]. exists st. split; [exact Hrun|reflexivity].
  - intros e n0 s0 [E|[E|[E|[]]]]; injection E as <- <- <-; cbn [good_event]; auto.
    split; [exact ex_sort|exact x_inputs].
  - assert (I0 : ict (x_step1 0%nat) = 2).
    { unfold x_step1, step_cond_incloud, update_incloud_time, x_born, init_incloud_time, x_fresh.
      cbn [diag_incloud_time x_opts Nat.ltb Nat.leb Nat.eqb set_ict rw2 rd3 kpa ict].
      unfold incloud_time_updater. pose proof (Rle_abs (rc2_of x_prec 1 1 300)).
      replace (Rltb _ _) with true; [lra|]. symmetry. apply Rltb_true. lra. }
    assert (I1 : 0 <= ict (x_step1 1%nat) <= 2).
    { unfold x_step1, step_cond_incloud, update_incloud_time, x_born, init_incloud_time, x_fresh.
      cbn [diag_incloud_time x_opts Nat.ltb Nat.leb Nat.eqb set_ict rw2 rd3 kpa ict].
      unfold incloud_time_updater. destruct (Rltb _ _); lra. }
    cbn in Hrun. unfold collider_step in Hrun. cbn in Hrun.
    unfold collider_pair in Hrun.
    assert (Hpr : forall a b, prob (fun (_ : nat) (_ _ : sd) => 3) 1 (fun _ : nat => 1) 1 (fun _ : nat => 0) [0%nat; 0%nat] 0 a b = 3).
    { intros a b. unfold prob, scl, counts, count_n. cbn. unfold upd. cbn. unfold scale_factor. cbn. lra. }
    cbn [sid nth] in Hrun.
    change (sijk [0%nat; 0%nat] 0) with 0%nat in Hrun.
    rewrite Hpr in Hrun.
    assert (Ht : truncN 3 = 3%N) by (apply truncN_unique; unfold N2R; cbn; lra).
    rewrite Ht in Hrun.
    assert (Hl : Rltb (1/2) (3 - N2R 3) = false) by (apply Rltb_false; unfold N2R; cbn; lra).
    rewrite Hl in Hrun.
    change (n (x_step1 0%nat)) with 5%N in Hrun. change (n (x_step1 1%nat)) with 2%N in Hrun.
    cbn [N.eqb N.leb N.compare] in Hrun. cbn in Hrun.
    change (incloud_time_updater 2 (Rabs (rc2_of x_prec 1 1 300) + 1) (rc2_of x_prec 1 1 300) 0 = 2) in I0.
    change (0 <= incloud_time_updater 2 0 (rc2_of x_prec 1 1 300) 0 <= 2) in I1.
    rewrite I0 in Hrun. set (t1 := incloud_time_updater 2 0 (rc2_of x_prec 1 1 300) 0) in *. clearbody t1.
    injection Hrun as <-. cbn [arr]. unfold follow_step, selector, sid. cbn [nth].
    assert (Hz : Rleb (N2R 2) 0 = false) by (apply Rleb_false; unfold N2R; cbn [Z.of_N]; lra).
    unfold upd. cbn [Nat.eqb]. rewrite !Hz, !Reqb_refl. cbn [Nat.eqb set_ict ict n].
    rewrite cmax_Rmax. split; [reflexivity|]. split; [|reflexivity]. apply Rmax_left. lra.
Qed.
Print Assumptions C43_instance.
