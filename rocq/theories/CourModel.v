(** * Exchange of Courant numbers and of domain edges between MPI processes
    Models src/impl/distributed_memory/particles_impl_xchng_courants.ipp and particles_impl_xchng_domains.ipp, the sizes of halos
    (src/impl/particles_impl.ipp:361-371) and of arrays (src/impl/initialization/particles_impl_init_sync.ipp:27-41).
    Simplifications: array indices are natural numbers (int in the code, no overflow); values are real numbers. *)
From Coq Require Import List Arith ZArith Reals Bool.
From Verif Require Import DistModel.
Import ListNotations.

(** ** Geometry *)
(** what all processes share: number of dimensions, ny, nz, halo_size *)
Record grid := mk_grid { g_dims : nat; g_ny : nat; g_nz : nat; g_halo : nat }.
(** particles_impl.ipp:361: halo_size is 2 with the predictor-corrector scheme, 0 otherwise *)
Definition halo_of (pred_corr : bool) : nat := if pred_corr then 2 else 0.
(** of a process: nx of its part, and whether bcond.first, bcond.second are distmem_mpi *)
Record rankg := mk_rankg { g_nx : nat; g_bL : bool; g_bR : bool }.
(** particles_ctor.ipp:36-58, with more than one process *)
Definition bcond_of (open_side_walls : bool) (rank size : nat) : bool * bool :=
  if open_side_walls then if rank =? 0 then (false, true) else if rank =? size - 1 then (true, false) else (true, true) else (true, true).

Section Sizes.
  Variable (G : grid) (nx : nat).
  Definition m1 (n : nat) : nat := if n =? 0 then 1 else n. (* particles_impl.ipp:322 *)
  Definition n_cell : nat := m1 nx * m1 (g_ny G) * m1 (g_nz G). (* particles_impl.ipp:336-340 *)
  (** particles_impl.ipp:362-371 *)
  Definition halo_x : nat :=
    match g_dims G with 1 => g_halo G | 2 => g_halo G * g_nz G | _ => g_halo G * g_nz G * g_ny G end.
  Definition halo_y : nat := g_halo G * (g_ny G + 1) * g_nz G.
  Definition halo_z : nat :=
    match g_dims G with 2 => g_halo G * (g_nz G + 1) | _ => g_halo G * (g_nz G + 1) * g_ny G end.
  (** init_sync.ipp:27-41 *)
  Definition size_x : nat :=
    match g_dims G with 3 => (nx + 2 * g_halo G + 1) * g_ny G * g_nz G | 2 => (nx + 2 * g_halo G + 1) * g_nz G | _ => nx + 2 * g_halo G + 1 end.
  Definition size_y : nat := (nx + 2 * g_halo G) * (g_ny G + 1) * g_nz G.
  Definition size_z : nat :=
    match g_dims G with 3 => (nx + 2 * g_halo G) * g_ny G * (g_nz G + 1) | _ => (nx + 2 * g_halo G) * (g_nz G + 1) end.
  (** xchng_courants.ipp:27-51 *)
  Definition cx_lft_internal : nat :=
    match g_dims G with 1 => g_halo G + 1 | 2 => (g_halo G + 1) * g_nz G | _ => (g_halo G + 1) * g_nz G * g_ny G end.
  Definition cx_rgt_internal : nat := n_cell.
  Definition cz_lft_internal : nat := halo_z.
  Definition cz_rgt_internal : nat := match g_dims G with 2 => nx * (g_nz G + 1) | _ => nx * (g_nz G + 1) * g_ny G end.
  Definition cy_lft_internal : nat := halo_y.
  Definition cy_rgt_internal : nat := nx * g_nz G * (g_ny G + 1).
  Definition cx_lft_halo : nat := 0.
  Definition cx_rgt_halo : nat := size_x - halo_x.
  Definition cz_lft_halo : nat := 0.
  Definition cz_rgt_halo : nat := size_z - halo_z.
  Definition cy_lft_halo : nat := 0.
  Definition cy_rgt_halo : nat := size_y - halo_y.
End Sizes.

(** ** What is exchanged *)
(** the arrays; VD stands for opts_init.x0, opts_init.x1, lft_x1, rgt_x0 in this order *)
Inductive var := VX | VY | VZ | VD.
Definition var_eqb (a b : var) : bool := match a, b with VX, VX | VY, VY | VZ, VZ | VD, VD => true | _, _ => false end.
(** an MPI_Isend followed by an MPI_Recv: to the left (i = 1) or to the right (i = 0), tag, array, where the values are read
    and written (depending on the nx of the process), how many *)
Record item := mk_item { i_left : bool; i_tag : Z; i_var : var; i_from : nat -> nat; i_to : nat -> nat; i_count : nat }.

(** the tags, xchng_courants.ipp:53 *)
Definition cx_tag : Z := 12331.
Definition cy_tag : Z := 12332.
Definition cz_tag : Z := 12333.
(** one turn of the loop in xchng_courants.ipp:56-149; [left] is i *)
Definition turn (G : grid) (left : bool) : list item :=
  let t := (if left then 2 else 1)%Z in
  (if 0 <? g_dims G then
     [mk_item left (t * cx_tag) VX (fun nx => if left then cx_lft_internal G else cx_rgt_internal G nx)
        (fun nx => if left then cx_rgt_halo G nx else cx_lft_halo) (halo_x G)] else []) ++
  (if 1 <? g_dims G then
     [mk_item left (t * cz_tag) VZ (fun nx => if left then cz_lft_internal G else cz_rgt_internal G nx)
        (fun nx => if left then cz_rgt_halo G nx else cz_lft_halo) (halo_z G)] else []) ++
  (if 2 <? g_dims G then
     [mk_item left (t * cy_tag) VY (fun nx => if left then cy_lft_internal G else cy_rgt_internal G nx)
        (fun nx => if left then cy_rgt_halo G nx else cy_lft_halo) (halo_y G)] else []).
(** xchng_courants.ipp:14-152 *)
Definition courants_plan (G : grid) : list item := if g_halo G =? 0 then [] else turn G false ++ turn G true.
(** xchng_domains.ipp:13-52: x1 goes to the right and becomes lft_x1, x0 goes to the left and becomes rgt_x0 *)
Definition domains_plan : list item :=
  [mk_item false 0 VD (fun _ => 1) (fun _ => 2) 1; mk_item true 1 VD (fun _ => 0) (fun _ => 3) 1].

(** ** Processes and messages *)
(** a message on its way: its data are read from the buffer of the sender at some moment after the call of MPI_Isend *)
Record msg := mk_msg { m_src : nat; m_dst : nat; m_tag : Z; m_var : var; m_off : nat; m_cnt : nat; m_data : option (list R) }.
(** program counters, memories, messages in the order of sending *)
Record csys := mk_csys { cpc : nat -> nat; cmem : nat -> var -> nat -> R; cnet : list msg }.

Definition write (off : nat) (d : list R) (f : nat -> R) : nat -> R :=
  fun j => if (off <=? j) && (j <? off + length d) then nth (j - off) d 0%R else f j.
Definition set_var (v : var) (a : nat -> R) (m : var -> nat -> R) : var -> nat -> R := fun w => if var_eqb w v then a else m w.

Section Ring.
  Variable (size : nat) (plan : list item) (c : nat -> rankg).
  (** neighbours: xchng_courants.ipp:22-23 as in [DistModel.lft_rank], [DistModel.rgt_rank] *)
  Definition to_of (it : item) (r : nat) : nat := if i_left it then lft_rank size r else rgt_rank size r.
  Definition from_of (it : item) (r : nat) : nat := if i_left it then rgt_rank size r else lft_rank size r.
  Definition send_guard (it : item) (r : nat) : bool := if i_left it then g_bL (c r) else g_bR (c r).
  Definition recv_guard (it : item) (r : nat) : bool := if i_left it then g_bR (c r) else g_bL (c r).
  (** which messages an MPI_Recv accepts *)
  Definition accepts (it : item) (r : nat) (m : msg) : bool :=
    (m_src m =? from_of it r) && (m_dst m =? r) && (m_tag m =? i_tag it)%Z.
  Definition sent (it : item) (r : nat) : msg :=
    mk_msg r (to_of it r) (i_tag it) (i_var it) (i_from it (g_nx (c r))) (i_count it) None.
  Definition with_data (m : msg) (d : list R) : msg := mk_msg (m_src m) (m_dst m) (m_tag m) (m_var m) (m_off m) (m_cnt m) (Some d).

  (** A step: a process calls MPI_Isend (or passes over it), the MPI library reads a buffer, a process completes MPI_Recv with the
      first message that it accepts (or passes over it).  Statement 2 k of a process is the send and 2 k + 1 the receive of item k. *)
  Inductive cstep : csys -> csys -> Prop :=
  | c_send g r k it : r < size -> cpc g r = 2 * k -> nth_error plan k = Some it -> send_guard it r = true ->
      cstep g (mk_csys (updf (cpc g) r (2 * k + 1)) (cmem g) (cnet g ++ [sent it r]))
  | c_no_send g r k it : r < size -> cpc g r = 2 * k -> nth_error plan k = Some it -> send_guard it r = false ->
      cstep g (mk_csys (updf (cpc g) r (2 * k + 1)) (cmem g) (cnet g))
  | c_read g l1 m l2 : cnet g = l1 ++ m :: l2 -> m_data m = None ->
      cstep g (mk_csys (cpc g) (cmem g)
                 (l1 ++ with_data m (map (cmem g (m_src m) (m_var m)) (seq (m_off m) (m_cnt m))) :: l2))
  | c_recv g r k it l1 m l2 d : r < size -> cpc g r = 2 * k + 1 -> nth_error plan k = Some it -> recv_guard it r = true ->
      cnet g = l1 ++ m :: l2 -> accepts it r m = true -> (forall m', In m' l1 -> accepts it r m' = false) ->
      m_data m = Some d -> length d <= i_count it ->
      cstep g (mk_csys (updf (cpc g) r (2 * k + 2))
                 (updf (cmem g) r (set_var (i_var it) (write (i_to it (g_nx (c r))) d (cmem g r (i_var it))) (cmem g r)))
                 (l1 ++ l2))
  | c_no_recv g r k it : r < size -> cpc g r = 2 * k + 1 -> nth_error plan k = Some it -> recv_guard it r = false ->
      cstep g (mk_csys (updf (cpc g) r (2 * k + 2)) (cmem g) (cnet g)).

  Inductive csteps : nat -> csys -> csys -> Prop :=
  | cs_0 g : csteps 0 g g
  | cs_S n g g' g'' : cstep g g' -> csteps n g' g'' -> csteps (S n) g g''.
  Definition cstart (m0 : nat -> var -> nat -> R) : csys := mk_csys (fun _ => 0) m0 [].
  (** all calls have returned *)
  Definition finished (g : csys) : Prop := forall r, r < size -> cpc g r = 2 * length plan.
End Ring.
