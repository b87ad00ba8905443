(** The exchange of super-droplets between graphics cards of one machine: one host thread per device, asynchronous
    copies between devices, events and a barrier.
    src/impl_multi_gpu/particles_multi_gpu_impl_step_async_and_copy.ipp, src/particles_multi_gpu_step.ipp,
    src/impl_multi_gpu/particles_multi_gpu_impl.ipp, src/detail/gpu_assert.hpp *)
From Coq Require Import List Arith NArith ZArith Reals Bool Lia.
From Verif Require Import Base DistModel.
Import ListNotations.
Local Open Scope nat_scope.

Inductive side := Lft | Rgt.

(** What a host thread does. Calls working on the memory of its own device are one step each: Thrust algorithms
    return when they are done. [CopyA] is cudaMemcpyPeerAsync in the stream of the device, [RecordE] cudaEventRecord,
    [Sync] cudaEventSynchronize on the event of a neighbour. *)
Inductive cinstr :=
| Bcnd | Create | Loc (a : instr) | CopyA (t : tag) | RecordE | Barrier | Sync (s : side)
| UnpackN_from (s : side) | UnpackR_from (s : side) | Nextafter | ResizeN | Destroy.

(** step_async_and_copy (particles_multi_gpu_impl_step_async_and_copy.ipp:28-206) for opts.adve || opts.turb_adve and
    more than one device, as a list of guarded instructions; the guards are bcond.first == distmem_cuda and
    bcond.second == distmem_cuda. Of particles[dev_id]->step_async only its end matters here: the boundary conditions. *)
Definition cprog : list ((bool -> bool -> bool) * cinstr) :=
  let L := fun l (r : bool) => l in let Rg := fun (l : bool) r => r in let any := fun (_ _ : bool) => true in
  [ (any, Bcnd);               (*  0: l.39 *)
    (any, Create);             (*  1: l.65-66 *)
    (L, Loc PackN_lft);        (*  2: l.73 *)
    (L, CopyA NL);             (*  3: l.76-81 *)
    (L, RecordE);              (*  4: l.83 *)
    (any, Barrier);            (*  5: l.87 *)
    (L, Loc Remote_lft);       (*  6: l.93 *)
    (L, Loc PackR_lft);        (*  7: l.96 *)
    (Rg, Sync Rgt);            (*  8: l.102 *)
    (Rg, UnpackN_from Rgt);    (*  9: l.104 *)
    (L, CopyA RL);             (* 10: l.110-115 *)
    (L, RecordE);              (* 11: l.117 *)
    (any, Barrier);            (* 12: l.120 *)
    (Rg, Loc PackN_rgt);       (* 13: l.125 *)
    (Rg, Loc Remote_rgt);      (* 14: l.128 *)
    (Rg, Sync Rgt);            (* 15: l.131 *)
    (Rg, UnpackR_from Rgt);    (* 16: l.134 *)
    (Rg, Nextafter);           (* 17: l.137 *)
    (Rg, CopyA NR);            (* 18: l.140-145 *)
    (Rg, RecordE);             (* 19: l.147 *)
    (any, Barrier);            (* 20: l.150 *)
    (Rg, Loc PackR_rgt);       (* 21: l.154 *)
    (L, Sync Lft);             (* 22: l.159 *)
    (L, UnpackN_from Lft);     (* 23: l.161 *)
    (Rg, CopyA RR);            (* 24: l.167-172 *)
    (Rg, RecordE);             (* 25: l.174 *)
    (any, Barrier);            (* 26: l.178 *)
    (L, Loc Flag_lft);         (* 27: l.180 *)
    (Rg, Loc Flag_rgt);        (* 28: l.182 *)
    (L, Sync Lft);             (* 29: l.187 *)
    (L, UnpackR_from Lft);     (* 30: l.190 *)
    (any, ResizeN);            (* 31: l.194 *)
    (any, Barrier);            (* 32: l.200 *)
    (any, Destroy) ].          (* 33: l.201-202 *)

(** position of an instruction in the program *)
Fixpoint find_pos (p : cinstr -> bool) (l : list ((bool -> bool -> bool) * cinstr)) : nat :=
  match l with [] => 0 | (_, a) :: l => if p a then 0 else S (find_pos p l) end.
Definition at_copy (t : tag) : nat := find_pos (fun a => match a with CopyA u => tag_eqb u t | _ => false end) cprog.
Definition at_create : nat := find_pos (fun a => match a with Create => true | _ => false end) cprog.
Definition at_destroy : nat := find_pos (fun a => match a with Destroy => true | _ => false end) cprog.
Definition cguard (c : rankc) (k : nat) : bool :=
  match nth_error cprog k with Some (g, _) => g (bcL c) (bcR c) | None => false end.

(** bcond of the devices (particles_multi_gpu_impl.ipp:157-176) without MPI: whether it is distmem_cuda *)
Definition dev_bcL (dev_count : nat) (open_walls : bool) (dev_id : nat) : bool :=
  let first := if dev_id =? 0 then false else true in
  if negb open_walls && (dev_id =? 0) then true else first.
Definition dev_bcR (dev_count : nat) (open_walls : bool) (dev_id : nat) : bool :=
  let second := if dev_id =? 0 then true else if dev_id =? dev_count - 1 then false else true in
  if negb open_walls && negb (dev_id =? 0) && (dev_id =? dev_count - 1) then true else second.

(** The whole system: program counter and memory of each device; which elements of which copy have been transferred;
    position of the last cudaEventRecord of each device (0: none); the barrier (gpu_assert.hpp:102-137): for each
    thread the generation it is waiting for the end of, m_generation and m_count. *)
Record csys := mk_csys {
  cpc : nat -> nat; cloc : nat -> local;
  moved : nat -> tag -> nat -> bool;
  evt : nat -> nat;
  waiting : nat -> option nat; gen : nat; m_count : nat
}.
(** [Terminated]: an exception left a thread, so std::terminate; [Corrupt]: memory not belonging to a buffer was
    written, or an invalid event was used *)
Inductive cstate := CRun (g : csys) | Terminated | Corrupt.

Definition ids_of (c : rankc) (t : tag) : list nat := if to_left t then lft_id c else rgt_id c.
(** number of elements of a copy: lft_count or distmem_real_vctrs_count * lft_count, etc. *)
Definition cnt (nv : nat) (c : rankc) (t : tag) : nat := if is_n t then length (ids_of c t) else nv * length (ids_of c t).
Definition posted (c : nat -> rankc) (g : csys) (i : nat) (t : tag) : bool :=
  (at_copy t <? cpc g i) && cguard (c i) (at_copy t).
Definition complete (nv : nat) (c : nat -> rankc) (g : csys) (i : nat) (t : tag) : bool :=
  forallb (moved g i t) (seq 0 (cnt nv (c i) t)).
Definition tags : list tag := [NL; RL; NR; RR].

Definition neighbour (size : nat) (s : side) (i : nat) : nat := match s with Lft => lft_rank size i | Rgt => rgt_rank size i end.
(** cudaEventSynchronize returns when all that was in the stream at the last cudaEventRecord is done *)
Definition event_done (nv : nat) (c : nat -> rankc) (g : csys) (j : nat) : bool :=
  forallb (fun t => implb ((at_copy t <? evt g j) && cguard (c j) (at_copy t)) (complete nv c g j t)) tags.
(** between cudaEventCreate and cudaEventDestroy *)
Definition live (g : csys) (j : nat) : bool := (at_create <? cpc g j) && (cpc g j <=? at_destroy).

(** one element *)
Definition put {A} (k : nat) (v : A) (l : list A) : list A := firstn k l ++ v :: skipn (S k) l.
Definition write_elem (t : tag) (k : nat) (src dst : local) : local :=
  if is_n t then set_in_n dst (put k (nth k (out_n src) 0%N) (in_n dst))
  else set_in_r dst (put k (nth k (out_r src) 0%R) (in_r dst)).
Definition in_len (t : tag) (s : local) : nat := if is_n t then length (in_n s) else length (in_r s).

(** the end of step_async: bcnd (particles_impl_bcnd.ipp:145-198). [local] keeps of the send buffers only what has
    been packed; they are resized together with the receive buffers. *)
Definition bcnd_buffers (nv : nat) (c : rankc) (s : local) : local :=
  let '(kn, kr) := grown nv (length (lft_id c)) (length (rgt_id c)) (length (in_n s)) (length (in_r s)) in
  set_in_r (set_in_n s (resize 0%N kn (in_n s))) (resize 0%R kr (in_r s)).
Definition grows (c : rankc) (s : local) : bool :=
  (length (in_n s) <? length (lft_id c)) || (length (in_n s) <? length (rgt_id c)).
(** l.137: x equal to x1 among the received, replaced by the neighbouring number ([na] is nextafter(., 0)) *)
Definition sanitise_x1 (na : R -> R) (ix : nat) (c : rankc) (s : local) : local :=
  set_cols s (on_col ix (fun v => map (fun t =>
    if (n_part_old s <=? fst t) && (fst t <? n_part s) && Reqb (snd t) (cx1 c) then na (snd t) else snd t)
    (combine (seq 0 (length v)) v)) (cols s)).

Definition cexec (na : R -> R) (size ix nv : nat) (c : nat -> rankc) (i : nat) (a : cinstr) (s : local) : local :=
  match a with
  | Bcnd => bcnd_flag (c i) (bcnd_buffers nv (c i) s)
  | Loc a => exec (c i) ix a s
  | UnpackN_from Rgt => unpack_n (length (lft_id (c (rgt_rank size i)))) s
  | UnpackN_from Lft => unpack_n (length (rgt_id (c (lft_rank size i)))) s
  | UnpackR_from Rgt => unpack_real (c i) ix (length (lft_id (c (rgt_rank size i)))) s
  | UnpackR_from Lft => unpack_real (c i) ix (length (rgt_id (c (lft_rank size i)))) s
  | Nextafter => sanitise_x1 na ix (c i) s
  | _ => s
  end.

(** whether a thread may go on *)
Definition cenabled (size nv : nat) (c : nat -> rankc) (g : csys) (i : nat) (a : cinstr) : bool :=
  match a with Sync s => event_done nv c g (neighbour size s i) | Barrier => false | _ => true end.
(** bcnd reallocating a receive buffer into which a copy is under way; waiting for an event that does not exist *)
Definition harmful (size nv : nat) (c : nat -> rankc) (g : csys) (i : nat) (a : cinstr) : bool :=
  match a with
  | Bcnd => grows (c i) (cloc g i) &&
      existsb (fun t => let j := source size t i in posted c g j t && negb (complete nv c g j t)) tags
  | Sync s => negb (live g (neighbour size s i))
  | _ => false
  end.
(** hskpng_resize_npart throws when there are more than n_sd_max *)
Definition too_many (c : nat -> rankc) (g : csys) (i : nat) (a : cinstr) : bool :=
  match a with ResizeN => n_sd_max (c i) <? n_part (cloc g i) | _ => false end.

Definition upd3 (f : nat -> tag -> nat -> bool) (i : nat) (t : tag) (k : nat) : nat -> tag -> nat -> bool :=
  fun j u q => if (j =? i) && tag_eqb u t && (q =? k) then true else f j u q.
Definition record_evt (g : csys) (i : nat) (a : cinstr) : nat -> nat :=
  match a with RecordE => updf (evt g) i (cpc g i) | _ => evt g end.

(** One step of the system:
    - a thread performs its next instruction, or skips it when the guard is false;
    - it arrives at the barrier, as the last one (which lets the others go on) or not, and then waits;
    - it leaves the barrier when the generation has changed;
    - the copy engine of a device transfers one element, any one, of the copy at the head of its stream, at any time
      after the copy was issued; writing beyond the end of the receive buffer corrupts memory. *)
Inductive cstep (na : R -> R) (size ix nv : nat) (c : nat -> rankc) : cstate -> cstate -> Prop :=
| cs_instr : forall g i gd a, i < size -> waiting g i = None -> nth_error cprog (cpc g i) = Some (gd, a) ->
    gd (bcL (c i)) (bcR (c i)) = true -> cenabled size nv c g i a = true -> harmful size nv c g i a = false ->
    too_many c g i a = false ->
    cstep na size ix nv c (CRun g)
      (CRun (mk_csys (updf (cpc g) i (S (cpc g i))) (updf (cloc g) i (cexec na size ix nv c i a (cloc g i)))
                     (moved g) (record_evt g i a) (waiting g) (gen g) (m_count g)))
| cs_harm : forall g i gd a, i < size -> waiting g i = None -> nth_error cprog (cpc g i) = Some (gd, a) ->
    gd (bcL (c i)) (bcR (c i)) = true -> harmful size nv c g i a = true ->
    cstep na size ix nv c (CRun g) Corrupt
| cs_throw : forall g i gd a, i < size -> waiting g i = None -> nth_error cprog (cpc g i) = Some (gd, a) ->
    gd (bcL (c i)) (bcR (c i)) = true -> too_many c g i a = true ->
    cstep na size ix nv c (CRun g) Terminated
| cs_skip : forall g i gd a, i < size -> waiting g i = None -> nth_error cprog (cpc g i) = Some (gd, a) ->
    gd (bcL (c i)) (bcR (c i)) = false ->
    cstep na size ix nv c (CRun g)
      (CRun (mk_csys (updf (cpc g) i (S (cpc g i))) (cloc g) (moved g) (evt g) (waiting g) (gen g) (m_count g)))
| cs_last : forall g i gd, i < size -> waiting g i = None -> nth_error cprog (cpc g i) = Some (gd, Barrier) ->
    gd (bcL (c i)) (bcR (c i)) = true -> m_count g - 1 = 0 ->
    cstep na size ix nv c (CRun g)
      (CRun (mk_csys (updf (cpc g) i (S (cpc g i))) (cloc g) (moved g) (evt g) (waiting g) (S (gen g)) size))
| cs_wait : forall g i gd, i < size -> waiting g i = None -> nth_error cprog (cpc g i) = Some (gd, Barrier) ->
    gd (bcL (c i)) (bcR (c i)) = true -> m_count g - 1 <> 0 ->
    cstep na size ix nv c (CRun g)
      (CRun (mk_csys (cpc g) (cloc g) (moved g) (evt g) (updf (waiting g) i (Some (gen g))) (gen g) (m_count g - 1)))
| cs_wake : forall g i w, i < size -> waiting g i = Some w -> w <> gen g ->
    cstep na size ix nv c (CRun g)
      (CRun (mk_csys (updf (cpc g) i (S (cpc g i))) (cloc g) (moved g) (evt g) (updf (waiting g) i None) (gen g) (m_count g)))
| cs_copy : forall g i t k, i < size -> posted c g i t = true -> k < cnt nv (c i) t -> moved g i t k = false ->
    (forall u, posted c g i u = true -> at_copy u < at_copy t -> complete nv c g i u = true) ->
    k < in_len t (cloc g (dest size t i)) ->
    cstep na size ix nv c (CRun g)
      (CRun (mk_csys (cpc g) (updf (cloc g) (dest size t i) (write_elem t k (cloc g i) (cloc g (dest size t i))))
                     (upd3 (moved g) i t k) (evt g) (waiting g) (gen g) (m_count g)))
| cs_overrun : forall g i t k, i < size -> posted c g i t = true -> k < cnt nv (c i) t -> moved g i t k = false ->
    (forall u, posted c g i u = true -> at_copy u < at_copy t -> complete nv c g i u = true) ->
    in_len t (cloc g (dest size t i)) <= k ->
    cstep na size ix nv c (CRun g) Corrupt.

(** the threads start (particles_multi_gpu_step.ipp:59-84); the barrier is constructed with the number of devices *)
Definition cstart (size : nat) (l : nat -> local) : cstate :=
  CRun (mk_csys (fun _ => 0) l (fun _ _ _ => false) (fun _ => 0) (fun _ => None) 0 size).
