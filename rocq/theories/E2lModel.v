(** Mapping of library cells and cell walls to elements of host arrays: src/impl/initialization/particles_impl_init_e2l.ipp,
    src/impl/particles_impl_sync.ipp and the calls in src/particles_init.ipp (36-47) and src/particles_step.ipp (84-97).
    Overflow of the int counting iterators is not modelled. *)
From Coq Require Import List ZArith Reals.
Import ListNotations.
Local Open Scope Z_scope.

(** opts_init.nx of this device, ny, nz, n_dims; n_x_tot of all devices of the process, n_x_bfr of those to the left; halo_size
    (particles_impl.ipp:361: 2 with the predictor-corrector scheme, else 0) *)
Record geom := { n_dims : nat; nx : Z; ny : Z; nz : Z; n_x_tot : Z; n_x_bfr : Z; halo_size : Z }.

(** arrays: scalars in cells and the three Courant numbers *)
Inductive arr := a_cell | a_cx | a_cy | a_cz.
Definition ext_x (a : arr) : Z := match a with a_cx => 1 | _ => 0 end.
Definition ext_y (a : arr) : Z := match a with a_cy => 1 | _ => 0 end.
Definition ext_z (a : arr) : Z := match a with a_cz => 1 | _ => 0 end.

(** n_cell_bfr (particles_multi_gpu_impl.ipp:155; m1(n) = n == 0 ? 1 : n) *)
Definition m1 (n : Z) : Z := if n =? 0 then 1 else n.
Definition n_cell_bfr (g : geom) : Z := n_x_bfr g * m1 (ny g) * m1 (nz g).
(** halo_x, halo_y, halo_z (particles_impl.ipp:362-371) *)
Definition halo_x (g : geom) : Z :=
  match n_dims g with 1%nat => halo_size g | 2%nat => halo_size g * nz g | _ => halo_size g * nz g * ny g end.
Definition halo_y (g : geom) : Z := halo_size g * (ny g + 1) * nz g.
Definition halo_z (g : geom) : Z :=
  match n_dims g with 2%nat => halo_size g * (nz g + 1) | _ => halo_size g * (nz g + 1) * ny g end.
(** the argument [offset] (particles_init.ipp:36-47) *)
Definition offset (g : geom) (a : arr) : Z :=
  match a with
  | a_cell => 0
  | a_cx => - halo_x g
  | a_cy => n_x_bfr g * nz g - halo_y g
  | a_cz => n_x_bfr g * Z.max 1 (ny g) - halo_z g
  end.
(** sizes of the library arrays (particles_impl_init_sync.ipp:15-45) *)
Definition lib_size (g : geom) (a : arr) : Z :=
  match a, n_dims g with
  | a_cell, _ => m1 (nx g) * m1 (ny g) * m1 (nz g)
  | a_cx, 3%nat => (nx g + 2 * halo_size g + 1) * ny g * nz g
  | a_cy, 3%nat => (nx g + 2 * halo_size g) * (ny g + 1) * nz g
  | a_cz, 3%nat => (nx g + 2 * halo_size g) * ny g * (nz g + 1)
  | a_cx, 2%nat => (nx g + 2 * halo_size g + 1) * nz g
  | a_cz, 2%nat => (nx g + 2 * halo_size g) * (nz g + 1)
  | a_cx, 1%nat => nx g + 2 * halo_size g + 1
  | _, _ => 0
  end.

(** periodic_cellno (12-31) *)
Definition periodic_cellno (n_tot ix : Z) : Z := if n_tot <=? ix then ix - n_tot else if ix <? 0 then ix + n_tot else ix.

(** init_e2l (33-112): element of the host array with strides [s0], [s1], [s2] for position [p] of the library array.  In one dimension the
    stride is taken to be 1 (an assertion), in two the second one, in three the third one. *)
Definition l2e (g : geom) (a : arr) (s0 s1 s2 p : Z) : Z :=
  let v := p + (n_cell_bfr g + offset g a) in
  let Z' := nz g + ext_z a in let Y' := ny g + ext_y a in
  match n_dims g with
  | 0%nat => 0
  | 1%nat => periodic_cellno ((n_x_tot g + ext_x a) * 1) v
  | 2%nat => periodic_cellno ((n_x_tot g + ext_x a) * s0) (s0 * Z.quot v Z' + s1 * Z.rem v Z')
  | _ =>
    let mx := Z.max s0 s1 in
    periodic_cellno ((if mx =? s0 then n_x_tot g + ext_x a else ny g + ext_y a) * mx)
      (s0 * Z.quot v (Z' * Y') + s1 * Z.rem (Z.quot v Z') Y' + s2 * Z.rem v Z')
  end.

(** sync in (particles_impl_sync.ipp:15-38) and out (41-72): c_arr_get, c_arr_set.  [n] is the size of the library array *)
Definition sync_in (m : Z -> Z) (host : Z -> R) (p : Z) : R := host (m p).
Fixpoint sync_out (m : Z -> Z) (n : nat) (from host : Z -> R) : Z -> R :=
  match n with
  | O => host
  | S k => let h := sync_out m k from host in fun x => if x =? m (Z.of_nat k) then from (Z.of_nat k) else h x
  end.
