(** The parts of the interface of the multi-GPU backend that do not exchange super-droplets: the constructor, outbuf and
    diag_puddle. src/impl_multi_gpu/particles_multi_gpu_impl.ipp, src/particles_multi_gpu_diag.ipp *)
From Coq Require Import List Arith NArith ZArith Reals Bool Lia.
From Verif Require Import Base DistModel DiagModel.
Import ListNotations.
Local Open Scope R_scope.

(** ** The constructor *)
(** particles_multi_gpu_impl.ipp:46-70: refusals, and the number of devices used. [avail] is what cudaGetDeviceCount
    found, [wanted] opts_init.dev_count (zero or less: all). The checks of unified addressing are left out. *)
Definition mcuda_ctor (chem_switch : bool) (nx : nat) (x0 x1 dx : R) (avail wanted : Z) : option Z :=
  if chem_switch then None
  else if (nx =? 0)%nat then None
  else if negb (Rltb x0 x1 && Rleb x1 (INR nx * dx)) then None
  else
    let used := if (0 <? wanted)%Z then if (avail <? wanted)%Z then None else Some wanted else Some avail in
    match used with
    | None => None
    | Some k => if (Z.of_nat nx <? k)%Z then None else Some k
    end.

(** ** outbuf *)
(** what outbuf reads of one device: the counting arrays, the vector of the host pool tmp_host_real_cell that
    reset_guardp takes (it has one vector, so always the same), n_cell_bfr *)
Record odev := mk_odev { od_st : dst; od_host : list R; od_bfr : nat }.
Definition m1 (n : nat) : nat := if (n =? 0)%nat then 1%nat else n.
(** particles_multi_gpu_impl.ipp:154 *)
Definition n_cell_bfr (o : DistModel.dopts) (size ny nz r : nat) : nat := (snd (distmem_opts o r size) * m1 ny * m1 nz)%nat.
(** fill_outbuf (fill_outbuf.ipp:12-37) on the vector it is given *)
Definition fill_vec (st : dst) (v : list R) : list R := map (fill_outbuf st) (seq 0 (length v)).
(** std::bind(f, ..., arg) stores a copy of [arg], and calls f with that copy; the value of [arg] afterwards *)
Definition bind_call {A} (f : A -> A) (arg : A) : A :=
  let stored := arg in
  let stored_after := f stored in
  arg.
(** particles_multi_gpu_diag.ipp:273-310: the threads, then the copies into real_n_cell_tot (here [tot]), which is returned *)
Definition mcuda_outbuf (ds : list odev) (tot : list R) : list R * list odev :=
  let ds := map (fun d => mk_odev (od_st d) (bind_call (fill_vec (od_st d)) (od_host d)) (od_bfr d)) ds in
  (fold_left (fun t d => copy_to (od_bfr d) (od_host d) t) ds tot, ds).

(** ** diag_puddle *)
(** std::map<output_t, real_t>; operator[] of a missing key inserts zero. There are 14 outputs (common/output.hpp:9-43). *)
Definition pmap := nat -> option R.
Definition at_key (m : pmap) (i : nat) : R := match m i with Some v => v | None => 0 end.
Definition n_outputs : nat := 14.
(** particles_multi_gpu_diag.ipp:17-23; chem_all is 8 *)
Definition empty_out_map : pmap := fun i => if (i <? 8 + 2)%nat then Some 0 else None.
(** 313-318 *)
Definition add_puddle (x y : pmap) : pmap :=
  fun i => if (i <? n_outputs)%nat then Some (at_key x i + at_key y i) else None.
(** 320-343; the results of the devices are collected in their order *)
Definition mcuda_puddle (ps : list pmap) : pmap := fold_left add_puddle ps empty_out_map.
