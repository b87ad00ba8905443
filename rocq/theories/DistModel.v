(** Decomposition of the domain among devices and the exchange of super-droplets between processes.
    src/detail/distmem_opts.hpp, src/impl/distributed_memory/{particles_impl_pack,particles_impl_unpack,
    particles_impl_mpi_exchange}.ipp, src/impl/housekeeping/particles_impl_hskpng_resize.ipp *)
From Coq Require Import List Arith NArith ZArith Reals Bool Lia.
From Verif Require Import Base.
Import ListNotations.
Local Open Scope R_scope.

(** ** distmem_opts.hpp *)
(** the members of opts_init_t read or changed by distmem_opts *)
Record dopts := mk_dopts {
  d_nx : nat; d_dx : R; d_x0 : R; d_x1 : R; d_src_x0 : R; d_src_x1 : R;
  d_n_sd_max : N; d_rlx_sd_per_bin : R
}.
(** get_dev_nx (distmem_opts.hpp:9-16). nx and size are ints, so nx / size is an integer quotient; adding .5 and
    converting back to int changes nothing. *)
Definition get_dev_nx (nx rank size : nat) : nat :=
  if (rank <? size - 1)%nat then (nx / size)%nat else (nx - rank * (nx / size))%nat.
(** distmem_opts (distmem_opts.hpp:18-53): the options of one device and the number of columns before it *)
Definition distmem_opts (o : dopts) (rank size : nat) : dopts * nat :=
  let bfr := (rank * get_dev_nx (d_nx o) 0 size)%nat in
  let nx := get_dev_nx (d_nx o) rank size in
  let x0 := if (rank =? 0)%nat then d_x0 o else 0 in
  let x1 := if (rank =? size - 1)%nat then d_x1 o - INR bfr * d_dx o else INR nx * d_dx o in
  let s0 := d_src_x0 o - INR bfr * d_dx o in
  let s1 := d_src_x1 o - INR bfr * d_dx o in
  let '(s0', s1') :=
    if Rleb s1 x0 || Rleb x1 s0 then (0, 0)
    else ((if Rltb s0 x0 then x0 else s0), (if Rltb x1 s1 then x1 else s1)) in
  (mk_dopts nx (d_dx o) x0 x1 s0' s1' (d_n_sd_max o / N.of_nat size + 1)%N (d_rlx_sd_per_bin o / INR size), bfr).
(** multi_CUDA constructor (src/impl_multi_gpu/particles_multi_gpu_impl.ipp): more devices than columns are refused *)
Definition device_count_ok (nx size : nat) : bool := (0 <? size)%nat && (size <=? nx)%nat.

(** ** The exchange, particles_impl_mpi_exchange.ipp *)
(** One process. Attributes are stored as in the code: the vector of multiplicities and one vector per real
    attribute (distmem_real_vctrs; std::set of member addresses, hence the same order in every process). *)
Record local := mk_local {
  ns : list N; cols : list (list R);
  n_part : nat; n_part_old : nat; n_copied : nat;
  out_n : list N; out_r : list R; in_n : list N; in_r : list R;
  threw : bool
}.
(** constants of one process: ids of the super-droplets to be sent (filled by bcnd), domain edges, edges of the
    neighbours (xchng_domains), maximal number of super-droplets, sizes of the receive buffers *)
Record rankc := mk_rankc {
  bcL : bool; bcR : bool;           (* bcond.first / bcond.second == distmem_mpi *)
  lft_id : list nat; rgt_id : list nat;
  cx0 : R; cx1 : R; lft_x1 : R; rgt_x0 : R;
  n_sd_max : nat; cap_n : nat; cap_r : nat
}.

(** pack_n_lft/rgt, pack_real_lft/rgt (pack.ipp:28-105): a gather; the vectors one after another *)
Definition gather {A} (d : A) (ids : list nat) (v : list A) : list A := map (fun i => nth i v d) ids.
Definition pack_real (ids : list nat) (cs : list (list R)) : list R := flat_map (gather 0 ids) cs.
(** detail::remote (pack.ipp:14-27) and bcnd_remote_lft/rgt (107-131): x of the listed super-droplets, in place.
    [ix] is the position of x among the attribute vectors. *)
Definition remote (lcl rmt x : R) : R := rmt + x - lcl.
Definition at_ids {A} (ids : list nat) (f : A -> A) (v : list A) : list A :=
  map (fun t => if existsb (Nat.eqb (fst t)) ids then f (snd t) else snd t) (combine (seq 0 (length v)) v).
Definition on_col (ix : nat) (f : list R -> list R) (cs : list (list R)) : list (list R) :=
  map (fun t => if (fst t =? ix)%nat then f (snd t) else snd t) (combine (seq 0 (length cs)) cs).
Definition bcnd_remote (ix : nat) (ids : list nat) (lcl rmt : R) (cs : list (list R)) : list (list R) :=
  on_col ix (at_ids ids (remote lcl rmt)) cs.
(** vector::resize and a copy to position [off] *)
Definition resize {A} (d : A) (k : nat) (v : list A) : list A := firstn k v ++ repeat d (k - length v).
Definition copy_to {A} (off : nat) (src v : list A) : list A := firstn off v ++ src ++ skipn (off + length src) v.
(** unpack_n (unpack.ipp:48-70) *)
Definition unpack_n (k : nat) (s : local) : local :=
  let old := n_part s in
  let np := (n_part s + k)%nat in
  mk_local (if (k =? 0)%nat then ns s else copy_to old (firstn k (in_n s)) (resize 0%N np (ns s)))
           (cols s) np old (n_copied s) (out_n s) (out_r s) (in_n s) (in_r s) (threw s).
(** tolerance_away_from_bcond (unpack.ipp:14-30); config.bcond_tolerance = 5e-4 (detail/config.hpp) *)
Definition bcond_tolerance : R := 5 / 10000.
Definition tolerance_away (lft rgt x : R) : R :=
  if Rleb rgt x then x - bcond_tolerance else if Rltb x lft then x + bcond_tolerance else x.
(** unpack_real (unpack.ipp:72-122) *)
Definition unpack_real (c : rankc) (ix k : nat) (s : local) : local :=
  if (k =? 0)%nat then s
  else
    let cs := map (fun t => copy_to (n_part_old s) (firstn k (skipn (fst t * k) (in_r s))) (resize 0 (n_part s) (snd t)))
                  (combine (seq 0 (length (cols s))) (cols s)) in
    let sanitise v := firstn (n_part_old s) v ++ map (tolerance_away (cx0 c) (cx1 c)) (skipn (n_part_old s) v) in
    mk_local (ns s) (on_col ix sanitise cs) (n_part s) (n_part_old s) (n_copied s)
             (out_n s) (out_r s) (in_n s) (in_r s) (threw s).

(** flag_lft / flag_rgt (unpack.ipp:124-146) *)
Definition flag (ids : list nat) (v : list N) : list N := at_ids ids (fun _ => 0%N) v.

Definition set_ns (s : local) v := mk_local v (cols s) (n_part s) (n_part_old s) (n_copied s) (out_n s) (out_r s) (in_n s) (in_r s) (threw s).
Definition set_cols (s : local) v := mk_local (ns s) v (n_part s) (n_part_old s) (n_copied s) (out_n s) (out_r s) (in_n s) (in_r s) (threw s).
Definition set_copied (s : local) v := mk_local (ns s) (cols s) (n_part s) (n_part_old s) v (out_n s) (out_r s) (in_n s) (in_r s) (threw s).
Definition set_out_n (s : local) v := mk_local (ns s) (cols s) (n_part s) (n_part_old s) (n_copied s) v (out_r s) (in_n s) (in_r s) (threw s).
Definition set_out_r (s : local) v := mk_local (ns s) (cols s) (n_part s) (n_part_old s) (n_copied s) (out_n s) v (in_n s) (in_r s) (threw s).
Definition set_in_n (s : local) v := mk_local (ns s) (cols s) (n_part s) (n_part_old s) (n_copied s) (out_n s) (out_r s) v (in_r s) (threw s).
Definition set_in_r (s : local) v := mk_local (ns s) (cols s) (n_part s) (n_part_old s) (n_copied s) (out_n s) (out_r s) (in_n s) v (threw s).
Definition set_threw (s : local) v := mk_local (ns s) (cols s) (n_part s) (n_part_old s) (n_copied s) (out_n s) (out_r s) (in_n s) (in_r s) v.

(** the four messages: multiplicities / real attributes, going left / right (the tags of enumerator detail::tag) *)
Inductive tag := NL | RL | NR | RR.
Definition tag_eqb (a b : tag) : bool :=
  match a, b with NL, NL => true | RL, RL => true | NR, NR => true | RR, RR => true | _, _ => false end.

Inductive instr :=
| PackN_lft | PackN_rgt | PackR_lft | PackR_rgt | Remote_lft | Remote_rgt
| Isend (t : tag) | Irecv (t : tag) | WaitRecv (t : tag) | WaitSend (t : tag)
| UnpackN | UnpackR | Flag_lft | Flag_rgt | Resize.

(** mpi_exchange (mpi_exchange.ipp:21-333) as a list of guarded instructions; the guards are
    (needs bcond.first == distmem_mpi, needs bcond.second == distmem_mpi). The last two waits are for the
    request most recently stored in req_send_n_t / req_send_real_t. *)
Definition prog : list ((bool -> bool -> bool) * instr) :=
  let L := fun l (r : bool) => l in let Rg := fun (l : bool) r => r in
  let LR := andb in let Lonly := fun l r => l && negb r in let any := fun l r => l || r in
  [ (L, PackN_lft);            (*  0: l.62 *)
    (L, Isend NL);             (*  1: l.75-83 *)
    (Rg, Irecv NL);            (*  2: l.87-98 *)
    (L, Remote_lft);           (*  3: l.103 *)
    (L, PackR_lft);            (*  4: l.106 *)
    (L, Isend RL);             (*  5: l.139-147 *)
    (Rg, Irecv RL);            (*  6: l.154-162 *)
    (Rg, WaitRecv NL);         (*  7: l.165-168 *)
    (Rg, UnpackN);             (*  8: l.171 *)
    (LR, WaitSend NL);         (*  9: l.177-178 *)
    (Rg, PackN_rgt);           (* 10: l.183 *)
    (Rg, Remote_rgt);          (* 11: l.187 *)
    (Rg, WaitRecv RL);         (* 12: l.190 *)
    (Rg, UnpackR);             (* 13: l.198 *)
    (Rg, Isend NR);            (* 14: l.219-227 *)
    (L, Irecv NR);             (* 15: l.232-243 *)
    (LR, WaitSend RL);         (* 16: l.249-252 *)
    (Rg, PackR_rgt);           (* 17: l.253 *)
    (L, WaitRecv NR);          (* 18: l.260-263 *)
    (L, UnpackN);              (* 19: l.266 *)
    (Rg, Isend RR);            (* 20: l.275-283 *)
    (L, Irecv RR);             (* 21: l.288-299 *)
    (L, Flag_lft);             (* 22: l.302-303 *)
    (Rg, Flag_rgt);            (* 23: l.305-306 *)
    (L, WaitRecv RR);          (* 24: l.309-311 *)
    (L, UnpackR);              (* 25: l.316 *)
    (any, Resize);             (* 26: l.320 *)
    (Rg, WaitSend NR);         (* 27: l.326 *)
    (Lonly, WaitSend NL);
    (Rg, WaitSend RR);         (* 29: l.327 *)
    (Lonly, WaitSend RL) ].

(** local effect of an instruction; a message is received into in_n / in_r by [deliver] below.
    MPI_Get_count of the n message is its length, as there is one vector of multiplicities. *)
Definition exec (c : rankc) (ix : nat) (a : instr) (s : local) : local :=
  match a with
  | PackN_lft => set_out_n s (gather 0%N (lft_id c) (ns s))
  | PackN_rgt => set_out_n s (gather 0%N (rgt_id c) (ns s))
  | PackR_lft => set_out_r s (pack_real (lft_id c) (cols s))
  | PackR_rgt => set_out_r s (pack_real (rgt_id c) (cols s))
  | Remote_lft => set_cols s (bcnd_remote ix (lft_id c) (cx0 c) (lft_x1 c) (cols s))
  | Remote_rgt => set_cols s (bcnd_remote ix (rgt_id c) (cx1 c) (rgt_x0 c) (cols s))
  | WaitRecv NL | WaitRecv NR => set_copied s (length (in_n s))
  | UnpackN => unpack_n (n_copied s) s
  | UnpackR => unpack_real c ix (n_copied s) s
  | Flag_lft => set_ns s (flag (lft_id c) (ns s))
  | Flag_rgt => set_ns s (flag (rgt_id c) (ns s))
  | Resize => set_threw s (n_sd_max c <? n_part s)%nat
  | Isend _ | Irecv _ | WaitRecv _ | WaitSend _ => s
  end.

(** a message: multiplicities or reals *)
Inductive msg := MN (l : list N) | MR (l : list R).
Definition is_n (t : tag) : bool := match t with NL | NR => true | _ => false end.
Definition to_left (t : tag) : bool := match t with NL | RL => true | _ => false end.

(** The whole system of [size] processes: program counters, local states, for each process and tag whether the
    send and the receive have been posted, what the library has read from the send buffer, and whether it has been
    written to the receive buffer. *)
Record sys := mk_sys {
  pc : nat -> nat; loc : nat -> local;
  net : nat -> tag -> option msg;       (* by sender *)
  recvd : nat -> tag -> bool            (* by receiver *)
}.
Inductive gstate := Run (g : sys) | Abort.

Definition updf {A} (f : nat -> A) (i : nat) (v : A) : nat -> A := fun j => if (j =? i)%nat then v else f j.
Definition updt {A} (f : nat -> tag -> A) (i : nat) (t : tag) (v : A) : nat -> tag -> A :=
  fun j u => if (j =? i)%nat && tag_eqb u t then v else f j u.

(** neighbours in the ring (mpi_exchange.ipp:30-31) *)
Definition lft_rank (size i : nat) : nat := if (0 <? i)%nat then (i - 1)%nat else (size - 1)%nat.
Definition rgt_rank (size i : nat) : nat := if (i <? size - 1)%nat then (i + 1)%nat else 0%nat.
Definition dest (size : nat) (t : tag) (i : nat) : nat := if to_left t then lft_rank size i else rgt_rank size i.
Definition source (size : nat) (t : tag) (i : nat) : nat := if to_left t then rgt_rank size i else lft_rank size i.

Definition guard (c : rankc) (k : nat) : bool := match nth_error prog k with Some (g, _) => g (bcL c) (bcR c) | None => false end.
(** positions of the posting instructions in [prog] *)
Definition at_isend (t : tag) : nat := match t with NL => 1 | RL => 5 | NR => 14 | RR => 20 end.
Definition at_irecv (t : tag) : nat := match t with NL => 2 | RL => 6 | NR => 15 | RR => 21 end.
Definition posted_send (c : nat -> rankc) (g : sys) (i : nat) (t : tag) : bool :=
  (at_isend t <? pc g i)%nat && guard (c i) (at_isend t).
Definition posted_recv (c : nat -> rankc) (g : sys) (i : nat) (t : tag) : bool :=
  (at_irecv t <? pc g i)%nat && guard (c i) (at_irecv t).

Definition fits (c : rankc) (m : msg) : bool :=
  match m with MN l => (length l <=? cap_n c)%nat | MR l => (length l <=? cap_r c)%nat end.

(** whether an instruction may complete now *)
Definition enabled (size : nat) (g : sys) (i : nat) (a : instr) : bool :=
  match a with
  | WaitRecv t => recvd g i t
  | WaitSend t => match net g i t with Some _ => true | None => false end
  | _ => true
  end.

(** One step of the system:
    - a process performs its next instruction (skipping it when the guard is false, waiting when not enabled;
      after an exception in Resize it performs nothing more);
    - the library reads a posted send buffer, at any moment between the posting and the completed wait;
    - the library writes a message into a posted receive buffer, or raises an error (which aborts the run) when
      the message is longer than the buffer. *)
Inductive step (size ix : nat) (c : nat -> rankc) : gstate -> gstate -> Prop :=
| st_instr : forall g i gd a, (i < size)%nat -> nth_error prog (pc g i) = Some (gd, a) ->
    gd (bcL (c i)) (bcR (c i)) = true -> threw (loc g i) = false -> enabled size g i a = true ->
    step size ix c (Run g)
      (Run (mk_sys (updf (pc g) i (S (pc g i))) (updf (loc g) i (exec (c i) ix a (loc g i))) (net g) (recvd g)))
| st_skip : forall g i gd a, (i < size)%nat -> nth_error prog (pc g i) = Some (gd, a) ->
    gd (bcL (c i)) (bcR (c i)) = false -> threw (loc g i) = false ->
    step size ix c (Run g) (Run (mk_sys (updf (pc g) i (S (pc g i))) (loc g) (net g) (recvd g)))
| st_read : forall g i t, (i < size)%nat -> posted_send c g i t = true -> net g i t = None ->
    step size ix c (Run g)
      (Run (mk_sys (pc g) (loc g)
             (updt (net g) i t (Some (if is_n t then MN (out_n (loc g i)) else MR (out_r (loc g i))))) (recvd g)))
| st_write : forall g j t m, (j < size)%nat -> posted_recv c g j t = true -> recvd g j t = false ->
    net g (source size t j) t = Some m -> fits (c j) m = true ->
    step size ix c (Run g)
      (Run (mk_sys (pc g)
             (updf (loc g) j (match m with MN l => set_in_n (loc g j) l | MR l => set_in_r (loc g j) l end))
             (net g) (updt (recvd g) j t true)))
| st_overrun : forall g j t m, (j < size)%nat -> posted_recv c g j t = true -> recvd g j t = false ->
    net g (source size t j) t = Some m -> fits (c j) m = false ->
    step size ix c (Run g) Abort.

(** the start of the exchange *)
Definition start (l0 : nat -> local) : gstate :=
  Run (mk_sys (fun _ => 0%nat) l0 (fun _ _ => None) (fun _ _ => false)).

(** bcnd (src/impl/boundary_conditions/particles_impl_bcnd.ipp:145-173): the ids to be sent; 175-192: the sizes of
    the buffers after it, given the sizes before and the number of attribute vectors *)
Definition ids_if (p : R -> bool) (xs : list R) : list nat :=
  map fst (filter (fun t => p (snd t)) (combine (seq 0 (length xs)) xs)).
Definition grown (nvec lft_count rgt_count size_n size_r : nat) : nat * nat :=
  if (size_n <? lft_count)%nat || (size_n <? rgt_count)%nat then
    let k := (11 * Nat.max lft_count rgt_count / 10)%nat in (k, (nvec * k)%nat)
  else (size_n, size_r).
(** particles_impl_reserve_hskpng_npart.ipp:84-94 with config.bfr_fraction = 2 *)
Definition reserved (nvec nx n_sd_max : nat) : nat * nat :=
  ((1 * n_sd_max / nx / 2)%nat, (nvec * n_sd_max / nx / 2)%nat).
(** bcnd, distributed-memory branch (particles_impl_bcnd.ipp:145-198): ids of the super-droplets beyond each end of
    the sub-domain, which are zeroed where that end is open (an end that is not distmem_mpi is open, particles_ctor.ipp:36-58) *)
Definition bcnd_lft (ix : nat) (c : rankc) (s : local) : list nat := ids_if (fun x => Rltb x (cx0 c)) (nth ix (cols s) []).
Definition bcnd_rgt (ix : nat) (c : rankc) (s : local) : list nat := ids_if (fun x => Rleb (cx1 c) x) (nth ix (cols s) []).
Definition bcnd_flag (c : rankc) (s : local) : local :=
  let s := if bcL c then s else set_ns s (flag (lft_id c) (ns s)) in
  if bcR c then s else set_ns s (flag (rgt_id c) (ns s)).
