(** Whole time steps of the Lagrangian scheme on several MPI processes: every process performs the parts of step_sync and step_async of
    StepModel on its part of the domain, with the boundary conditions for distributed memory; then super-droplets are exchanged between
    neighbours (particles_step.ipp:487-492, DistModel), and each process tidies up (post_copy).  For runs without chemistry. *)
From Coq Require Import List Arith NArith ZArith Reals Bool Relations.
From Verif Require Import Base DistModel SpaceModel RcycModel CoalModel HskpngModel CondPassModel StepModel.
Import ListNotations.
Local Open Scope R_scope.

(** the processes: how many, the setup of each (opts_init after distmem_opts), where its sub-domain begins, side walls periodic or open *)
Record cluster := mk_cluster { k_size : nat; k_F : nat -> setup; k_off : nat -> R; k_periodic : bool }.

(** the vectors registered in distmem_n_vctrs and distmem_real_vctrs (particles_impl.ipp:440-491), in the numbering of StepModel.vec_of,
    where x has number 4 *)
Definition ix_x : nat := 4.
Definition local_of (F : setup) (W : world) : local :=
  let np := p_np (w_P W) in
  mk_local (map (p_n (w_P W)) (seq 0 np)) (map (fun v => map (vec_of W v) (seq 0 np)) (seq 0 (n_vec F))) np 0 0 [] [] [] [] false.
(** the state of a process after the exchange: the vectors are those of the exchange, fields in cells and the puddle do not change.
    with_pop also computes cell numbers: they are computed again in post_copy and not used before. *)
Definition received (F : setup) (W : world) (l : local) : world :=
  with_pop F W (mk_pop (length (ns l)) (fun k => nth k (ns l) 0%N)
    (fun v k => if (v <? n_vec F)%nat then nth k (nth v (cols l) []) 0 else vec_of W v k) (fun _ => 0)).

(** the ids of super-droplets to be sent (particles_impl_bcnd.ipp:154-173) *)
Definition ids_of (F : setup) (W : world) : list nat * list nat :=
  snd (bcnd (f_b F) (map (bsd_of W) (seq 0 (p_np (w_P W)))) (w_pud W)).
(** constants of process [i] in an exchange; edges of the neighbours: xchng_domains.  bcond is open or distmem_mpi (particles_ctor.ipp:36-50).
    [bufs]: sizes of the receive buffers for multiplicities and for real attributes *)
Definition rank_of (C : cluster) (bufs : nat -> nat * nat) (ids : nat -> list nat * list nat) (i : nat) : rankc :=
  let o j := f_b (k_F C j) in
  mk_rankc (negb (lft_open (o i))) (negb (rgt_open (o i))) (fst (ids i)) (snd (ids i)) (SpaceModel.x0 (o i)) (SpaceModel.x1 (o i))
    (SpaceModel.x1 (o (lft_rank (k_size C) i))) (SpaceModel.x0 (o (rgt_rank (k_size C) i))) (f_max (k_F C i)) (fst (bufs i)) (snd (bufs i)).
(** the boundary conditions and the exchange, which takes place only with advection (particles_step.ipp:487-492).  [A]: states before;
    [V]: states after.  bcnd zeroes the multiplicities beyond open ends (walls); bcnd_flag does so again, without effect.
    The exchange may run in any order; only those runs are described that come to an end without an exception in any process. *)
Definition exchange (C : cluster) (adve : bool) (bufs : nat -> nat * nat) (A V : nat -> world) : Prop :=
  let Wl i := walls (k_F C i) (A i) in
  let L i := local_of (k_F C i) (Wl i) in
  let c := rank_of C bufs (fun i => ids_of (k_F C i) (A i)) in
  if adve then
    exists g, clos_refl_trans_1n _ (DistModel.step (k_size C) ix_x c) (start (fun i => bcnd_flag (c i) (L i))) (Run g) /\
      (forall y, ~ DistModel.step (k_size C) ix_x c (Run g) y) /\
      (forall i, (i < k_size C)%nat -> threw (loc g i) = false) /\
      forall i, (i < k_size C)%nat -> V i = received (k_F C i) (Wl i) (loc g i)
  else forall i, (i < k_size C)%nat -> V i = Wl i.

(** a step: the options of each process, whether there is advection, the sizes of the buffers, the states of each process as in
    StepModel.step, and those after the exchange *)
Record xstates := mk_xs {
  x_so : nat -> sopts; x_adve : bool; x_bufs : nat -> nat * nat; x_s : nat -> step_states; x_recv : nat -> world }.
(** step_sync and step_async up to sources and relaxation (particles_step.ipp:31-484), as in StepModel.step *)
Definition first_part (F : setup) (so : sopts) (s : step_states) : Prop :=
  exists W2 W3 W4 W5,
    sync_in so (at_start s) (at_synced s) /\ nucl F so (at_synced s) W2 /\ cond so W2 W3 /\
    prepare so W3 W4 /\ coalescence F so W4 W5 /\ motion F W5 (at_moved s) /\ sources F (at_moved s) (at_added s).
Definition xstep (C : cluster) (t : xstates) : Prop :=
  (forall i, (i < k_size C)%nat -> first_part (k_F C i) (x_so t i) (x_s t i)) /\
  exchange C (x_adve t) (x_bufs t) (fun i => at_added (x_s t i)) (x_recv t) /\
  (forall i, (i < k_size C)%nat -> tidy (k_F C i) (x_so t i) (x_recv t i) (at_end (x_s t i))).
Inductive xrun (C : cluster) : (nat -> world) -> list xstates -> (nat -> world) -> Prop :=
| xrun_nil W : xrun C W [] W
| xrun_cons t l W' : xstep C t -> xrun C (fun i => at_end (x_s t i)) l W' -> xrun C (fun i => at_start (x_s t i)) (t :: l) W'.
