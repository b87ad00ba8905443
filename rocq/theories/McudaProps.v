(** C77: the exchange of super-droplets between the graphics cards of one machine. *)
From Coq Require Import List Arith NArith ZArith Reals Bool Lia Lra Relations Permutation.
From Verif Require Import Base BaseProofs DistModel ExchProofs ExchInv ExchProps McudaModel McudaInv.
Import ListNotations.
Local Open Scope nat_scope.

(** ** Specification *)
(** how many super-droplets a device gets from its two neighbours *)
Definition received (size : nat) (c : nat -> rankc) (i : nat) : nat :=
  (if bcR (c i) then length (lft_id (c (rgt_rank size i))) else 0) +
  (if bcL (c i) then length (rgt_id (c (lft_rank size i))) else 0).
(** At least two devices share out the domain, know the edges of their neighbours and have determined which
    super-droplets are beyond which edge; the buffers they have before the step are large enough for what they send
    and for what they receive; no super-droplet has moved further than across the neighbouring sub-domain, and the
    sub-domains are not narrower than the tolerance for positions. [L] are the states before the step. *)
Record devices_setup (size ix nv : nat) (open_walls : bool) (off : nat -> R) (c : nat -> rankc) (L : nat -> local) : Prop := {
  ds_size : 2 <= size; ds_ix : ix < nv;
  ds_state : forall i, i < size -> aligned nv (L i) /\ threw (L i) = false;
  ds_bcL : forall i, i < size -> bcL (c i) = dev_bcL size open_walls i;
  ds_bcR : forall i, i < size -> bcR (c i) = dev_bcR size open_walls i;
  ds_lft : forall i, i < size -> lft_id (c i) = bcnd_lft ix (c i) (L i);
  ds_rgt : forall i, i < size -> rgt_id (c i) = bcnd_rgt ix (c i) (L i);
  ds_width : forall i, i < size -> (cx0 (c i) < cx1 (c i))%R;
  ds_tolerance : forall i, i < size -> (bcond_tolerance <= cx1 (c i) - cx0 (c i))%R;
  ds_adjacent : forall i, S i < size -> (off i + cx1 (c i) = off (S i) + cx0 (c (S i)))%R;
  ds_lft_x1 : forall i, i < size -> lft_x1 (c i) = cx1 (c (lft_rank size i));
  ds_rgt_x0 : forall i, i < size -> rgt_x0 (c i) = cx0 (c (rgt_rank size i));
  ds_send : forall i, i < size ->
    length (lft_id (c i)) <= length (in_n (L i)) /\ length (rgt_id (c i)) <= length (in_n (L i));
  ds_receive_rgt : forall i, i < size -> bcR (c i) = true ->
    length (lft_id (c (rgt_rank size i))) <= length (in_n (L i)) /\ nv * length (lft_id (c (rgt_rank size i))) <= length (in_r (L i));
  ds_receive_lft : forall i, i < size -> bcL (c i) = true ->
    length (rgt_id (c (lft_rank size i))) <= length (in_n (L i)) /\ nv * length (rgt_id (c (lft_rank size i))) <= length (in_r (L i));
  ds_reach : forall i d, i < size -> In d (droplets (L i)) -> alive d = true ->
    (bcL (c i) = true -> cx0 (c i) - (cx1 (c (lft_rank size i)) - cx0 (c (lft_rank size i))) <= x_of ix d)%R /\
    (bcR (c i) = true -> x_of ix d < cx1 (c i) + (cx1 (c (rgt_rank size i)) - cx0 (c (rgt_rank size i))))%R
}.
(** runs: any interleaving of the threads and of the copy engines; a run that cannot be continued *)
Definition run (na : R -> R) (size ix nv : nat) (c : nat -> rankc) (L : nat -> local) (y : cstate) : Prop :=
  clos_refl_trans_1n _ (cstep na size ix nv c) (cstart size L) y.
Definition ended (na : R -> R) (size ix nv : nat) (c : nat -> rankc) (y : cstate) : Prop :=
  forall z, ~ cstep na size ix nv c y z.

(** ** Proofs *)
(** the same processes as the exchange by messages has, the capacities being the lengths of the buffers *)
Definition with_caps (c : nat -> rankc) (L : nat -> local) (i : nat) : rankc :=
  mk_rankc (bcL (c i)) (bcR (c i)) (lft_id (c i)) (rgt_id (c i)) (cx0 (c i)) (cx1 (c i)) (lft_x1 (c i)) (rgt_x0 (c i))
           (n_sd_max (c i)) (length (in_n (L i))) (length (in_r (L i))).

Section proof.
Variables (na : R -> R) (size ix nv : nat) (open : bool) (off : nat -> R) (c : nat -> rankc) (L : nat -> local).
Hypothesis DS : devices_setup size ix nv open off c L.

Lemma dev_ring : ring_setup size ix nv (negb open) off (with_caps c L) L.
Proof.
  pose proof (ds_size _ _ _ _ _ _ _ DS) as Hs.
  constructor; cbn [with_caps bcL bcR lft_id rgt_id cx0 cx1 lft_x1 rgt_x0 n_sd_max cap_n cap_r].
  - lia.
  - apply (ds_ix _ _ _ _ _ _ _ DS).
  - apply (ds_state _ _ _ _ _ _ _ DS).
  - intros i Hi. rewrite (ds_bcL _ _ _ _ _ _ _ DS) by auto. unfold dev_bcL.
    destruct (Nat.eqb_spec i 0) as [->|]; cbn [Nat.ltb Nat.leb orb].
    + rewrite andb_true_r. now destruct (negb open).
    + rewrite andb_false_r. destruct i; [lia|reflexivity].
  - intros i Hi. rewrite (ds_bcR _ _ _ _ _ _ _ DS) by auto. unfold dev_bcR.
    destruct (Nat.eqb_spec i 0) as [->|]; cbn [negb].
    + rewrite andb_false_r. cbn [andb]. destruct size as [|[|]]; [lia|lia|reflexivity].
    + rewrite andb_true_r. destruct (Nat.eqb_spec i (size - 1)), (Nat.ltb_spec (S i) size); try lia.
      * rewrite andb_true_r. cbn [orb]. now destruct (negb open).
      * rewrite andb_false_r. reflexivity.
  - apply (ds_lft _ _ _ _ _ _ _ DS).
  - apply (ds_rgt _ _ _ _ _ _ _ DS).
  - apply (ds_width _ _ _ _ _ _ _ DS).
  - apply (ds_adjacent _ _ _ _ _ _ _ DS).
  - apply (ds_lft_x1 _ _ _ _ _ _ _ DS).
  - apply (ds_rgt_x0 _ _ _ _ _ _ _ DS).
  - apply (ds_receive_rgt _ _ _ _ _ _ _ DS).
  - apply (ds_receive_lft _ _ _ _ _ _ _ DS).
  - apply (ds_reach _ _ _ _ _ _ _ DS).
Qed.
Let c' := with_caps c L.
Let RS := dev_ring.
Let P (i : nat) : nat := length (ns (L i)).
Let F (i v k : nat) : R := nth k (nth v (cols (L i)) []) 0%R.
Let f (i k : nat) : N :=
  if (negb (bcL (c' i)) && Rltb (F i ix k) (cx0 (c' i))) || (negb (bcR (c' i)) && Rleb (cx1 (c' i)) (F i ix k)) then 0%N
  else nth k (ns (L i)) 0%N.

Lemma x1_ok i k : i < size -> bcR (c i) = true -> P i <= k < PA size c P i -> F3 size ix c P F i ix k <> cx1 (c i).
Proof.
  intros Hi Hb Hk. unfold PA, inA in Hk. rewrite Hb in Hk. unfold F3, F_app, inA. rewrite Hb.
  assert (Hs : 1 <= size) by (pose proof (ds_size _ _ _ _ _ _ _ DS); lia).
  pose proof (rgtr_lt size Hs i Hi) as Hj. set (j := rgt_rank size i) in *.
  assert (Hij : lft_rank size j = i) by (apply lft_rgt; auto).
  set (q := nth (k - P i) (lft_id (c j)) 0).
  assert (Hq : In q (lft_id (c j))) by (apply nth_In; lia).
  pose proof (ids_l size ix nv (negb open) off c' L RS j Hj) as E.
  change (lft_id (c' j)) with (lft_id (c j)) in E.
  assert (Hx : (F j ix q < cx0 (c j))%R).
  { rewrite E in Hq. apply filter_In in Hq. destruct Hq as [_ Hq]. now apply Rltb_true in Hq. }
  assert (EF : FL ix c F j ix q = (lft_x1 (c j) + F j ix q - cx0 (c j))%R).
  { unfold FL, F_remote. rewrite Nat.eqb_refl. cbn [andb].
    replace (existsb (Nat.eqb q) (lft_id (c j))) with true; [reflexivity|]. symmetry. apply existsb_exists. exists q.
    split; auto. apply Nat.eqb_refl. }
  pose proof (ds_lft_x1 _ _ _ _ _ _ _ DS j Hj) as E1. rewrite Hij in E1.
  pose proof (ds_tolerance _ _ _ _ _ _ _ DS i Hi) as T.
  set (l := length (lft_id (c j))) in *. clearbody l.
  assert (X : tol c i (FL ix c F j ix q) <> cx1 (c i)).
  { unfold tol, tolerance_away. rewrite EF, E1. destruct (Rleb _ _) eqn:A.
    - apply Rleb_true in A. lra.
    - destruct (Rltb _ _) eqn:B; [apply Rltb_true in B|apply Rltb_false in B]; lra. }
  fold j. fold q. rewrite ?Nat.eqb_refl.
  repeat match goal with |- context[if ?b then _ else _] => destruct b eqn:? end; auto.
  all: exfalso; repeat match goal with H : (_ <=? _) = _ |- _ => first [apply Nat.leb_le in H|apply Nat.leb_gt in H]
       | H : (_ <? _) = _ |- _ => first [apply Nat.ltb_lt in H|apply Nat.ltb_ge in H] 
       | H : _ && _ = _ |- _ => first [apply andb_prop in H; destruct H | apply andb_false_iff in H; destruct H] end; try lia.
Qed.

Lemma received_len i : P i + received size c i = PB size c P i.
Proof.
  unfold received, PB, PA, inA, inB. destruct (bcR (c i)), (bcL (c i)); cbn [length]; lia.
Qed.

Lemma fits_ok i t : i < size -> cguard (c i) (at_copy t) = true -> cnt nv (c i) t <= in_len t (L (dest size t i)).
Proof.
  assert (Hs : 1 <= size) by (pose proof (ds_size _ _ _ _ _ _ _ DS); lia).
  intros Hi Hg.
  assert (RL_ : bcL (c i) = true -> length (lft_id (c i)) <= length (in_n (L (lft_rank size i))) /\
     nv * length (lft_id (c i)) <= length (in_r (L (lft_rank size i)))).
  { intros H. pose proof (ring_ok' size ix nv (negb open) off c' L RS i Hi) as E. cbn in E.
    destruct (ds_receive_rgt _ _ _ _ _ _ _ DS (lft_rank size i) (lftr_lt size Hs i Hi)) as [A B]; [congruence|].
    rewrite rgt_lft in A, B by auto. auto. }
  assert (RR_ : bcR (c i) = true -> length (rgt_id (c i)) <= length (in_n (L (rgt_rank size i))) /\
     nv * length (rgt_id (c i)) <= length (in_r (L (rgt_rank size i)))).
  { intros H. pose proof (ring_ok size ix nv (negb open) off c' L RS i Hi) as E. cbn in E.
    destruct (ds_receive_lft _ _ _ _ _ _ _ DS (rgt_rank size i) (rgtr_lt size Hs i Hi)) as [A B]; [congruence|].
    rewrite lft_rgt in A, B by auto. auto. }
  destruct t; cbn in Hg |- *; unfold cnt, in_len, dest, ids_of; cbn; first [apply RL_; exact Hg|apply RR_; exact Hg].
Qed.

Lemma dev_end y : run na size ix nv c L y -> ended na size ix nv c y ->
  (exists g, y = CRun g /\ forall i, i < size -> cpc g i = 34 /\ PB size c P i <= n_sd_max (c i) /\
    ns (cloc g i) = map (f3 size c P f i) (seq 0 (PB size c P i)) /\ cols (cloc g i) = tab nv (PB size c P i) (F4 size ix c P F i))
  \/ (y = Terminated /\ exists i, i < size /\ n_sd_max (c i) < PB size c P i).
Proof.
  assert (Hs : 1 <= size) by (pose proof (ds_size _ _ _ _ _ _ _ DS); lia).
  apply (final_state na size ix nv c L (fun i => bcnd_flag (c i) (L i)) P f F); auto using fits_ok, x1_ok.
  - intros i Hi. exact (proj1 (l0_eq size ix nv (negb open) off c' L RS i Hi)).
  - intros i Hi. destruct (l0_eq size ix nv (negb open) off c' L RS i Hi) as [_ [A _]].
    exact (eq_trans A (Lcols size ix nv (negb open) off c' L RS i Hi)).
  - intros i Hi. destruct (l0_eq size ix nv (negb open) off c' L RS i Hi) as [_ [_ [A _]]]. exact A.
  - intros i Hi. exact (valid_l size ix nv (negb open) off c' L RS i Hi).
  - intros i Hi. exact (valid_r size ix nv (negb open) off c' L RS i Hi).
  - intros i k Hi. exact (disj size ix nv (negb open) off c' L RS i k Hi).
  - intros i Hi. exact (ring_ok size ix nv (negb open) off c' L RS i Hi).
  - intros i Hi. exact (ds_send _ _ _ _ _ _ _ DS i Hi).
Qed.
Lemma dev_reach y : run na size ix nv c L y -> CG size ix nv c L (fun i => bcnd_flag (c i) (L i)) P f F y.
Proof.
  assert (Hs : 1 <= size) by (pose proof (ds_size _ _ _ _ _ _ _ DS); lia).
  apply (CG_reach na size ix nv c L (fun i => bcnd_flag (c i) (L i)) P f F); auto using fits_ok, x1_ok.
  - intros i Hi. exact (proj1 (l0_eq size ix nv (negb open) off c' L RS i Hi)).
  - intros i Hi. destruct (l0_eq size ix nv (negb open) off c' L RS i Hi) as [_ [A _]].
    exact (eq_trans A (Lcols size ix nv (negb open) off c' L RS i Hi)).
  - intros i Hi. destruct (l0_eq size ix nv (negb open) off c' L RS i Hi) as [_ [_ [A _]]]. exact A.
  - intros i Hi. exact (valid_l size ix nv (negb open) off c' L RS i Hi).
  - intros i Hi. exact (valid_r size ix nv (negb open) off c' L RS i Hi).
  - intros i k Hi. exact (disj size ix nv (negb open) off c' L RS i k Hi).
  - intros i Hi. exact (ring_ok size ix nv (negb open) off c' L RS i Hi).
  - intros i Hi. exact (ds_send _ _ _ _ _ _ _ DS i Hi).
Qed.
Lemma dev_exchange g : (forall i, i < size ->
    ns (cloc g i) = map (f3 size c P f i) (seq 0 (PB size c P i)) /\ cols (cloc g i) = tab nv (PB size c P i) (F4 size ix c P F i)) ->
  Permutation (world ix size off (cloc g))
    (through_walls ix (negb open) (left_end c off) (right_end size c off) (world ix size off L)) /\
  forall i d, i < size -> In d (droplets (cloc g i)) -> alive d = true -> (cx0 (c i) <= x_of ix d < cx1 (c i))%R.
Proof.
  intros H. exact (exchange size ix nv (negb open) off c' L RS
    (mk_sys (fun _ => 0) (cloc g) (fun _ _ => None) (fun _ _ => false)) H).
Qed.
End proof.

(** ** C77 *)
(** However the threads and the copies are interleaved: when the step is over, the super-droplets of all devices
    together are those there were before, at the positions the walls give them; every one is on the device whose
    sub-domain contains it; no device holds more than n_sd_max. If some device would have to hold more, the run is
    terminated. *)
Theorem C77_exchange_partial : forall na size ix nv open_walls off c L, devices_setup size ix nv open_walls off c L ->
  forall y, run na size ix nv c L y -> ended na size ix nv c y ->
  (exists g, y = CRun g /\
    (forall i, i < size -> cpc g i = length cprog) /\
    Permutation (world ix size off (cloc g))
      (through_walls ix (negb open_walls) (left_end c off) (right_end size c off) (world ix size off L)) /\
    (forall i d, i < size -> In d (droplets (cloc g i)) -> alive d = true -> (cx0 (c i) <= x_of ix d < cx1 (c i))%R) /\
    (forall i, i < size -> length (cols (cloc g i)) = nv /\ forall v, In v (cols (cloc g i)) -> length v = length (ns (cloc g i))) /\
    (forall i, i < size -> length (ns (cloc g i)) = length (ns (L i)) + received size c i /\ length (ns (cloc g i)) <= n_sd_max (c i)))
  \/ (y = Terminated /\ exists i, i < size /\ n_sd_max (c i) < length (ns (L i)) + received size c i).
Proof.
  intros na size ix nv open off c L DS y Hy He.
  destruct (dev_end na size ix nv open off c L DS y Hy He) as [[g [-> E]]|[-> [i [Hi E]]]].
  - left. exists g. split; auto. split; [intros i Hi; apply (E i Hi)|].
    destruct (dev_exchange size ix nv open off c L DS g) as [A B]; [intros i Hi; destruct (E i Hi) as [_ [_ X]]; exact X|].
    split; [exact A|]. split; [exact B|]. split; intros i Hi; destruct (E i Hi) as [_ [E0 [E1 E2]]].
    + rewrite E1, E2. unfold tab. rewrite !map_length, !seq_length. split; auto.
      intros v Hv. apply in_map_iff in Hv. destruct Hv as [q [<- _]]. now rewrite map_length, seq_length.
    + rewrite E1, map_length, seq_length, (received_len size c L i). auto.
  - right. split; auto. exists i. rewrite (received_len size c L i). auto.
Qed.

(** No run ever writes outside of a buffer, resizes a buffer being written to or uses an event that does not exist. *)
Theorem C77_never_corrupt : forall na size ix nv open_walls off c L, devices_setup size ix nv open_walls off c L ->
  ~ run na size ix nv c L Corrupt.
Proof. intros na size ix nv open off c L DS H. exact (dev_reach na size ix nv open off c L DS _ H). Qed.

(** There is no infinite run, whatever the state of the devices. *)
Theorem C77_every_run_ends : forall na size ix nv c x, Acc (fun y x => cstep na size ix nv c x y) x.
Proof.
  intros na size ix nv c x. remember (cweight size nv c x) as w eqn:E. revert x E.
  induction w as [w IH] using lt_wf_ind. intros x ->. constructor. intros y Hy.
  eapply IH; [|reflexivity]. eapply cstep_weight; eauto.
Qed.

(** A case meeting the hypotheses: two devices in a periodic domain [0,5), with super-droplets crossing both edges. *)
Definition with_buffers (n r : nat) (s : local) : local := set_in_r (set_in_n s (repeat 0%N n)) (repeat 0%R r).
Theorem C77_instance :
  devices_setup 2 0 2 false (fun i => match i with 0 => 0 | _ => 2 end)%R ex_c (fun i => with_buffers 2 4 (ex_L i)) /\
  length (world 0 2 (fun i => match i with 0 => 0 | _ => 2 end)%R (fun i => with_buffers 2 4 (ex_L i))) = 4 /\
  received 2 ex_c 0 = 2 /\ received 2 ex_c 1 = 2.
Proof.
  split; [|repeat split; reflexivity].
  constructor; try lia.
  - intros [|[|i]] Hi; try lia; split; auto; repeat split; cbn; intros v [<-|[<-|[]]]; reflexivity.
  - intros [|[|i]] Hi; try lia; reflexivity.
  - intros [|[|i]] Hi; try lia; reflexivity.
  - intros [|[|i]] Hi; try lia; unfold bcnd_lft, ids_if; cbn; lra_bool; reflexivity.
  - intros [|[|i]] Hi; try lia; unfold bcnd_rgt, ids_if; cbn; lra_bool; reflexivity.
  - intros [|[|i]] Hi; try lia; cbn; lra.
  - intros [|[|i]] Hi; try lia; unfold bcond_tolerance; cbn; lra.
  - intros [|[|i]] Hi; try lia; cbn; lra.
  - intros [|[|i]] Hi; try lia; reflexivity.
  - intros [|[|i]] Hi; try lia; reflexivity.
  - intros [|[|i]] Hi; try lia; cbn; lia.
  - intros [|[|i]] Hi; try lia; cbn; lia.
  - intros [|[|i]] Hi; try lia; cbn; lia.
  - intros [|[|i]] d Hi Hd Ha; try lia; cbn in Hd; repeat destruct Hd as [<-|Hd]; try contradiction; cbn in Ha; try discriminate;
      unfold x_of; cbn; split; intros; lra.
Qed.

(** The receive buffers are not always large enough, and here nobody notices: they are reserved for n_sd_max/nx/2
    super-droplets, grow with what the device itself sends, and the copy between devices does not know the length of
    the buffer it writes to. Two devices of 4 columns each, n_sd_max = 8: the second sends its two super-droplets to
    the first, which has room for one. *)
Theorem C77_receive_buffer_refuted : forall na,
  let L := fun i => with_buffers (fst (reserved 1 4 8)) (snd (reserved 1 4 8)) (bad_L i) in
  (forall i, i < 2 -> bcL (bad_c i) = dev_bcL 2 false i /\ bcR (bad_c i) = dev_bcR 2 false i /\
     lft_id (bad_c i) = bcnd_lft 0 (bad_c i) (L i) /\ rgt_id (bad_c i) = bcnd_rgt 0 (bad_c i) (L i)) /\
  (forall i, i < 2 -> length (ns (L i)) + received 2 bad_c i <= n_sd_max (bad_c i)) /\
  run na 2 0 1 bad_c L Corrupt.
Proof.
  intros na L. split; [|split].
  - intros [|[|i]] Hi; try lia; unfold bcnd_lft, bcnd_rgt, ids_if; cbn; lra_bool; auto.
  - intros [|[|i]] Hi; try lia; cbn; lia.
  - unfold run, cstart.
    do 4 (eapply Relation_Operators.rt1n_trans; [eapply (cs_instr _ _ _ _ _ _ 1); [lia|reflexivity..]|]).
    eapply Relation_Operators.rt1n_trans; [|apply Relation_Operators.rt1n_refl].
    eapply (cs_overrun _ _ _ _ _ _ 1 NL 1); [lia|reflexivity|cbn; lia|reflexivity| |cbn; lia].
    intros u Hu Hlt. destruct u; cbn in Hlt; lia.
Qed.

(** A device that has to send more than its buffers hold enlarges them, the receive buffers included, before it has
    waited for anybody; its right neighbour may already be copying into them. *)
Definition race_L (i : nat) : local :=
  match i with 0 => ex_local [1; 1]%N [[-(1/2); -(1/4)]]%R | _ => ex_local [1]%N [[-(1/2)]]%R end.
Definition race_c (i : nat) : rankc :=
  mk_rankc true true (match i with 0 => [0; 1] | _ => [0] end) [] 0 4 4 0 8 2 2.
Theorem C77_growth_race_refuted : forall na,
  let L := fun i => with_buffers (match i with 0 => 1 | _ => 2 end) (match i with 0 => 1 | _ => 2 end) (race_L i) in
  (forall i, i < 2 -> bcL (race_c i) = dev_bcL 2 false i /\ bcR (race_c i) = dev_bcR 2 false i /\
     lft_id (race_c i) = bcnd_lft 0 (race_c i) (L i) /\ rgt_id (race_c i) = bcnd_rgt 0 (race_c i) (L i)) /\
  (forall i, i < 2 -> received 2 race_c i <= length (in_n (L i)) /\ received 2 race_c i <= length (in_r (L i))) /\
  (forall i, i < 2 -> length (ns (L i)) + received 2 race_c i <= n_sd_max (race_c i)) /\
  run na 2 0 1 race_c L Corrupt.
Proof.
  intros na L. split; [|split; [|split]].
  - intros [|[|i]] Hi; try lia; unfold bcnd_lft, bcnd_rgt, ids_if; cbn; lra_bool; auto.
  - intros [|[|i]] Hi; try lia; cbn; lia.
  - intros [|[|i]] Hi; try lia; cbn; lia.
  - unfold run, cstart.
    do 4 (eapply Relation_Operators.rt1n_trans; [eapply (cs_instr _ _ _ _ _ _ 1); [lia|reflexivity..]|]).
    eapply Relation_Operators.rt1n_trans; [|apply Relation_Operators.rt1n_refl].
    eapply (cs_harm _ _ _ _ _ _ 0); [lia|reflexivity..].
Qed.

Print Assumptions C77_exchange_partial.
Print Assumptions C77_never_corrupt.
Print Assumptions C77_every_run_ends.
Print Assumptions C77_instance.
Print Assumptions C77_receive_buffer_refuted.
Print Assumptions C77_growth_race_refuted.
