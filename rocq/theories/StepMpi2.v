(** C96: in whole runs on several MPI processes the exchange of super-droplets never hangs, and its outcome does not depend on the order of
    messages. *)
From Coq Require Import List Arith NArith ZArith Lia Reals Lra Permutation Bool Relations.
From Verif Require Import Base BaseProofs DistModel ExchProofs ExchInv ExchProps HskpngModel SpaceModel SpaceProofs CondPassModel StepModel StepProps StepMpiModel StepMpi.
Import ListNotations.
Local Open Scope R_scope.

(** what xstep_ok asks of a step up to the exchange *)
Definition parts_ok (C : cluster) (t : xstates) : Prop :=
  (forall i, (i < k_size C)%nat ->
     let F := k_F C i in let so := x_so t i in
     o_parcel (so_c so) = f_parcel F /\ o_ice (so_c so) = f_ice F /\ o_exact (so_c so) = f_exact F /\ (1 <= o_sstp (so_c so))%nat /\
     (f_ice F = true -> so_coal so = false) /\ accurate so (at_synced (x_s t i))) /\
  reachable C t /\ buffers_ok C t.
Lemma step_parts C t : xstep_ok C t -> x_adve t = true -> parts_ok C t.
Proof.
  intros [H1 H2] E. rewrite E in H2. split; [|exact H2]. intros i Hi. cbv zeta. destruct (H1 i Hi) as (K1 & K2 & K3 & K4 & K5 & K6 & _). auto 10.
Qed.
(** the processes have got to the exchange, [W]: states at the beginning of the step *)
Definition before_exchange (C : cluster) (W : nat -> world) (t : xstates) : Prop :=
  forall i, (i < k_size C)%nat -> at_start (x_s t i) = W i /\ first_part (k_F C i) (x_so t i) (x_s t i).
(** an exchange as it begins, and its moves *)
Definition beginning (C : cluster) (t : xstates) : gstate :=
  let c := rank_of C (x_bufs t) (fun i => ids_of (k_F C i) (at_added (x_s t i))) in
  start (fun i => bcnd_flag (c i) (local_of (k_F C i) (walls (k_F C i) (at_added (x_s t i))))).
Definition move (C : cluster) (t : xstates) : gstate -> gstate -> Prop :=
  DistModel.step (k_size C) ix_x (rank_of C (x_bufs t) (fun i => ids_of (k_F C i) (at_added (x_s t i)))).
(** number of super-droplets that neighbours send: those of the right one that are left of its part of the domain, and the reverse *)
Definition arrivals (C : cluster) (t : xstates) (i : nat) : nat :=
  let W j := at_added (x_s t j) in let o j := f_b (k_F C j) in
  let l := lft_rank (k_size C) i in let r := rgt_rank (k_size C) i in
  (if rgt_open (o i) then 0 else length (filter (fun k => Rltb (w_x (W r) k) (x0 (o r))) (seq 0 (p_np (w_P (W r)))))) +
  (if lft_open (o i) then 0 else length (filter (fun k => Rleb (x1 (o l)) (w_x (W l) k)) (seq 0 (p_np (w_P (W l)))))).

Lemma got_there C W t : cluster_ok C -> states_ok C W -> before_exchange C W t -> parts_ok C t ->
  forall i, (i < k_size C)%nat -> loose (k_F C i) (at_added (x_s t i)) /\ close_by (k_F C i) (at_added (x_s t i)).
Proof.
  intros HC HW HB [HO _] i Hi. destruct (HB i Hi) as [E B]. destruct (HO i Hi) as (K1 & K2 & K3 & K4 & K5 & K6).
  assert (S : state_ok (k_F C i) (at_start (x_s t i))) by (rewrite E; apply HW, Hi).
  destruct (first_budget (alone (k_F C i)) (x_so t i) (x_s t i) (alone_ok C i (proj1 (proj2 HC) i Hi)) (first_alone _ _ _ B) K1 K2 K3 K4 K5 K6 S) as (Q1 & Q2 & _).
  split; [exact Q1|exact Q2].
Qed.

(** the one end of all orders of messages *)
Lemma one_end C W t : cluster_ok C -> states_ok C W -> before_exchange C W t -> parts_ok C t ->
  exists ns' cols', forall y, clos_refl_trans_1n _ (move C t) (beginning C t) y -> (forall z, ~ move C t y z) ->
    exists g, y = Run g /\ forall i, (i < k_size C)%nat ->
      ns (loc g i) = ns' i /\ cols (loc g i) = cols' i /\ length (ns' i) = (p_np (w_P (at_added (x_s t i))) + arrivals C t i)%nat /\
      threw (loc g i) = (f_max (k_F C i) <? p_np (w_P (at_added (x_s t i))) + arrivals C t i)%nat.
Proof.
  intros HC HW HB HO. pose proof (got_there C W t HC HW HB HO) as HG.
  assert (HL : forall i, (i < k_size C)%nat -> loose (k_F C i) (at_added (x_s t i))) by (intros i Hi; apply HG, Hi).
  assert (HN : forall i, (i < k_size C)%nat -> close_by (k_F C i) (at_added (x_s t i))) by (intros i Hi; apply HG, Hi).
  pose proof (ring C HC t HL HN (proj1 (proj2 HO)) (proj2 (proj2 HO))) as RS.
  set (c := rank_of C (x_bufs t) _) in RS. set (L := fun i : nat => local_of _ _) in RS.
  pose proof (the_end _ _ _ _ _ _ _ RS) as TE.
  assert (EN : forall i, (i < k_size C)%nat -> PB (k_size C) c (fun i => length (ns (L i))) i = (p_np (w_P (at_added (x_s t i))) + arrivals C t i)%nat /\
             (bcL (c i) || bcR (c i) = true)).
  { intros i Hi. pose proof (H2 C HC) as Hs. destruct (neighbours C i Hi) as [N1 N2]. split.
    - unfold PB, PA, inA, inB, arrivals. assert (E0 : length (ns (L i)) = p_np (w_P (at_added (x_s t i)))) by (unfold L, local_of; cbn [ns]; rewrite map_length, seq_length; reflexivity).
      rewrite E0, <- Nat.add_assoc. f_equal.
      change (bcR (c i)) with (negb (rgt_open (f_b (k_F C i)))). change (bcL (c i)) with (negb (lft_open (f_b (k_F C i)))). f_equal.
      + destruct (rgt_open _); [reflexivity|]. cbn [negb]. change (lft_id (c (rgt_rank (k_size C) i))) with (fst (ids_of (k_F C (rgt_rank (k_size C) i)) (at_added (x_s t (rgt_rank (k_size C) i))))).
        rewrite (ids C HC t _ N2). reflexivity.
      + destruct (lft_open _); [reflexivity|]. cbn [negb]. change (rgt_id (c (lft_rank (k_size C) i))) with (snd (ids_of (k_F C (lft_rank (k_size C) i)) (at_added (x_s t (lft_rank (k_size C) i))))).
        rewrite (ids C HC t _ N1). reflexivity.
    - change (bcR (c i)) with (negb (rgt_open (f_b (k_F C i)))). change (bcL (c i)) with (negb (lft_open (f_b (k_F C i)))).
      destruct (ends C HC i Hi) as (-> & -> & _). destruct (Nat.eqb_spec i 0), (Nat.eqb_spec (S i) (k_size C)), (k_periodic C); try reflexivity; lia. }
  eexists; eexists. intros y Y1 Y2. destruct (TE y Y1 Y2) as (g & -> & E). exists g. split; [reflexivity|]. intros i Hi.
  destruct (E i Hi) as (E1 & E2 & E3). destruct (EN i Hi) as (EN1 & EN2).
  split; [exact E1|]. split; [exact E2|]. split; [rewrite map_length, seq_length; exact EN1|]. rewrite E3, EN2, <- EN1. reflexivity.
Qed.

(** C96, no deadlock: after any run, when the processes get to the exchange, it comes to an end in every order of messages, in finitely many
    moves, without a failure of communication, and in the same way for all processes: a process throws if and only if the super-droplets it
    has and those that arrive are more than n_sd_max *)
Theorem C96_ends C W l W' t : cluster_ok C -> xrun C W l W' -> states_ok C W -> Forall (xstep_ok C) l ->
  before_exchange C W' t -> parts_ok C t ->
  Acc (fun z y => move C t y z) (beginning C t) /\
  forall y, clos_refl_trans_1n _ (move C t) (beginning C t) y -> (forall z, ~ move C t y z) ->
    exists g, y = Run g /\ forall i, (i < k_size C)%nat ->
      length (ns (loc g i)) = (p_np (w_P (at_added (x_s t i))) + arrivals C t i)%nat /\
      (threw (loc g i) = true <-> (f_max (k_F C i) < p_np (w_P (at_added (x_s t i))) + arrivals C t i)%nat).
Proof.
  intros HC Hr HW HO HB HP. destruct (C95_state C W l W' HC Hr HW HO) as (HW' & _). split.
  - apply C16_every_run_ends. pose proof (H2 C HC). lia.
  - intros y Y1 Y2. destruct (one_end C W' t HC HW' HB HP) as (a & b & Q). destruct (Q y Y1 Y2) as (g & E & G). exists g. split; [exact E|].
    intros i Hi. destruct (G i Hi) as (G1 & _ & G3 & G4). rewrite G1, G3, G4. split; [reflexivity|]. apply Nat.ltb_lt.
Qed.
(** C96, one outcome: whatever the order of messages, every process has the same state after the exchange *)
Theorem C96_one_outcome C W l W' t V1 V2 : cluster_ok C -> xrun C W l W' -> states_ok C W -> Forall (xstep_ok C) l ->
  before_exchange C W' t -> parts_ok C t ->
  exchange C true (x_bufs t) (fun i => at_added (x_s t i)) V1 -> exchange C true (x_bufs t) (fun i => at_added (x_s t i)) V2 ->
  forall i, (i < k_size C)%nat -> V1 i = V2 i.
Proof.
  intros HC Hr HW HO HB HP (g1 & A1 & B1 & _ & D1) (g2 & A2 & B2 & _ & D2) i Hi. destruct (C95_state C W l W' HC Hr HW HO) as (HW' & _).
  destruct (one_end C W' t HC HW' HB HP) as (a & b & Q).
  destruct (Q (Run g1) A1 B1) as (h1 & E1 & G1). destruct (Q (Run g2) A2 B2) as (h2 & E2 & G2). injection E1 as <-. injection E2 as <-.
  destruct (G1 i Hi) as (P1 & P2 & _). destruct (G2 i Hi) as (P3 & P4 & _).
  rewrite (D1 i Hi), (D2 i Hi). unfold received. rewrite P1, P2, P3, P4. reflexivity.
Qed.
(** C96, progress: where there is room for all arrivals a step can go on after the exchange *)
Theorem C96_goes_on C W l W' t : cluster_ok C -> xrun C W l W' -> states_ok C W -> Forall (xstep_ok C) l ->
  before_exchange C W' t -> parts_ok C t ->
  (forall i, (i < k_size C)%nat -> (p_np (w_P (at_added (x_s t i))) + arrivals C t i <= f_max (k_F C i))%nat) ->
  exists V, exchange C true (x_bufs t) (fun i => at_added (x_s t i)) V.
Proof.
  intros HC Hr HW HO HB HP HF. destruct (C96_ends C W l W' t HC Hr HW HO HB HP) as (_ & Q).
  pose proof (H2 C HC) as Hs. destruct (some_end (k_size C) ix_x (rank_of C (x_bufs t) (fun i => ids_of (k_F C i) (at_added (x_s t i)))) (beginning C t) ltac:(lia)) as (y & Y1 & Y2).
  destruct (Q y Y1 Y2) as (g & -> & G). exists (fun i => received (k_F C i) (walls (k_F C i) (at_added (x_s t i))) (loc g i)). exists g.
  split; [exact Y1|]. split; [exact Y2|]. split; [|reflexivity]. intros i Hi. destruct (G i Hi) as (_ & G2).
  destruct (threw (loc g i)); [|reflexivity]. pose proof (proj1 G2 eq_refl). specialize (HF i Hi). lia.
Qed.

(** an instance: in the two processes of C95_instance each sends one super-droplet to the other; both have room *)
Lemma mx_parts (e r : nat -> world) : parts_ok mx_C (mx_t e r).
Proof.
  split; [|split; [apply mx_reach|apply mx_buffers]]. intros i Hi. cbv zeta.
  split; [reflexivity|]. split; [reflexivity|]. split; [reflexivity|]. split; [cbn; lia|]. split; [discriminate|]. intros E; discriminate E.
Qed.
Lemma mx_before (e r : nat -> world) : before_exchange mx_C mx_W (mx_t e r).
Proof. intros i Hi. split; [reflexivity|]. exact (mx_first i (e i)). Qed.
Lemma mx_arrivals (e r : nat -> world) i : (i < 2)%nat -> arrivals mx_C (mx_t e r) i = 1%nat /\ p_np (w_P (at_added (x_s (mx_t e r) i))) = (2 - i)%nat.
Proof.
  intros Hi. split; [|destruct i as [|[|i]]; [reflexivity|reflexivity|lia]].
  unfold arrivals. cbn [mx_C k_F k_size mx_F f_b mx_b rgt_open lft_open mx_t x_s at_added x0 x1].
  destruct i as [|[|i]]; [| |lia]; cbn [lft_rank rgt_rank Nat.ltb Nat.leb Nat.sub Nat.add mx_A mx_4 with_pos with_P with_E mx_W w_P w_x set_turb set_vt p_np Nat.eqb seq filter];
    unfold mx_x; cbn [Nat.eqb];
    rewrite ?(proj2 (Rltb_true (- (1 / 2)) 0)), ?(proj2 (Rltb_false (1 / 2) 0)), ?(proj2 (Rltb_false (3 / 2) 0)), ?(proj2 (Rleb_true 1 (3 / 2))),
      ?(proj2 (Rleb_false 1 (- (1 / 2)))), ?(proj2 (Rleb_false 1 (1 / 2))) by lra; reflexivity.
Qed.
Theorem C96_instance : exists t,
  cluster_ok mx_C /\ xrun mx_C mx_W [] mx_W /\ states_ok mx_C mx_W /\ before_exchange mx_C mx_W t /\ parts_ok mx_C t /\
  (forall i, (i < 2)%nat -> arrivals mx_C t i = 1%nat /\ p_np (w_P (at_added (x_s t i))) = (2 - i)%nat) /\
  forall i, (i < k_size mx_C)%nat -> (p_np (w_P (at_added (x_s t i))) + arrivals mx_C t i <= f_max (k_F mx_C i))%nat.
Proof.
  exists (mx_t mx_W mx_W). split; [exact mx_cluster|]. split; [constructor|]. split; [exact mx_state|]. split; [apply mx_before|]. split; [apply mx_parts|].
  split; [intros i Hi; apply (mx_arrivals mx_W mx_W i Hi)|]. intros i Hi. destruct (mx_arrivals mx_W mx_W i Hi) as [-> ->]. cbn [mx_C k_F mx_F f_max]. lia.
Qed.

Print Assumptions C96_ends.
Print Assumptions C96_one_outcome.
Print Assumptions C96_goes_on.
Print Assumptions C96_instance.
