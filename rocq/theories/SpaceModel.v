(** Boundary conditions, cell indices, the staggered grid and cell volumes:
    src/impl/boundary_conditions/particles_impl_bcnd.ipp,
    src/impl/housekeeping/particles_impl_hskpng_ijk.ipp,
    src/impl/initialization/particles_impl_init_grid.ipp.
    Real arithmetic replaces floating point. *)
From Coq Require Import List Arith NArith ZArith Reals Bool.
From Verif Require Import Base.
Import ListNotations.
Local Open Scope R_scope.

(** C truncation towards zero, and fmod *)
Definition truncZ (x : R) : Z := if Rle_dec 0 x then Int_part x else (- Int_part (- x))%Z.
Definition fmod (x y : R) : R := x - y * IZR (truncZ (x / y)).

(** periodic (particles_impl_bcnd.ipp:96-108) *)
Definition periodic (a b x : R) : R := a + fmod ((x - a) + 10 * (b - a)) (b - a).

(** std::pow for a non-negative base *)
Definition cpow (x y : R) : R :=
  if Req_EM_T x 0 then (if Req_EM_T y 0 then 1 else 0) else Rpower x y.

(** attributes of a super-droplet used by the boundary conditions *)
Record bsd := mk_bsd {
  b_n : N; b_x : R; b_y : R; b_z : R;
  b_rw2 : R; b_rd3 : R; b_a : R; b_c : R; b_rho : R; b_chem : nat -> R
}.
Definition set_n (s : bsd) (v : N) := mk_bsd v (b_x s) (b_y s) (b_z s) (b_rw2 s) (b_rd3 s) (b_a s) (b_c s) (b_rho s) (b_chem s).
Definition set_x (s : bsd) (v : R) := mk_bsd (b_n s) v (b_y s) (b_z s) (b_rw2 s) (b_rd3 s) (b_a s) (b_c s) (b_rho s) (b_chem s).
Definition set_y (s : bsd) (v : R) := mk_bsd (b_n s) (b_x s) v (b_z s) (b_rw2 s) (b_rd3 s) (b_a s) (b_c s) (b_rho s) (b_chem s).
Definition set_z (s : bsd) (v : R) := mk_bsd (b_n s) (b_x s) (b_y s) v (b_rw2 s) (b_rd3 s) (b_a s) (b_c s) (b_rho s) (b_chem s).

Record bopts := mk_bopts {
  n_dims : nat;
  x0 : R; x1 : R; y0 : R; y1 : R; z0 : R; z1 : R;
  open_side_walls : bool;
  periodic_topbot : bool;
  distmem : bool;          (* distributed memory *)
  lft_open : bool;         (* bcond.first == open *)
  rgt_open : bool;         (* bcond.second == open *)
  ice_on : bool;
  chem_on : bool
}.

(** output_puddle *)
Record puddle := mk_puddle {
  p_liq_vol : R; p_dry_vol : R; p_liq_num : R; p_prt_num : R; p_ice_mass : R; p_ice_num : R;
  p_chem : nat -> R
}.

(** thrust::transform_if on the multiplicities with the flag functor *)
Definition flag_if (cond : bsd -> bool) (l : list bsd) : list bsd :=
  map (fun s => if cond s then set_n s 0%N else s) l.

(** count_vol (24-47), count_ice_mass (49-68), count_num (70-83), count_mass (85-94) *)
Definition count_vol (exponent n r : R) : R := 4 / 3 * PI * n * cpow r exponent.
Definition count_ice_mass (n a c rho : R) : R := 4 / 3 * PI * n * a * a * c * rho.
Definition count_num (ice : nat) (n rw2 : R) : R :=
  if ((ice =? 0)%nat && Reqb rw2 0) || ((ice =? 1)%nat && Rltb 0 rw2) then 0 else n.
Definition count_mass (n m : R) : R := n * m.

(** the ids of super-droplets to be sent (copy_if, 161-173) *)
Definition ids_where (cond : bsd -> bool) (l : list bsd) : list nat :=
  map fst (filter (fun t => cond (snd t)) (combine (seq 0 (length l)) l)).
(** flag_lft / flag_rgt (particles_impl_pack.ipp): zero the multiplicity of the listed ids *)
Definition flag_ids (ids : list nat) (l : list bsd) : list bsd :=
  map (fun t => if existsb (Nat.eqb (fst t)) ids then set_n (snd t) 0%N else snd t) (combine (seq 0 (length l)) l).

(** x boundary (119-197); returns also (lft_id, rgt_id) *)
Definition bcnd_x (o : bopts) (l : list bsd) : list bsd * list nat * list nat :=
  if negb (distmem o) then
    if negb (open_side_walls o) then (map (fun s => set_x s (periodic (x0 o) (x1 o) (b_x s))) l, [], [])
    else (flag_if (fun s => Rleb (x1 o) (b_x s) || Rltb (b_x s) (x0 o)) l, [], [])
  else
    let lft := ids_where (fun s => Rltb (b_x s) (x0 o)) l in
    let rgt := ids_where (fun s => Rleb (x1 o) (b_x s)) l in
    let l1 := if lft_open o then flag_ids lft l else l in
    let l2 := if rgt_open o then flag_ids rgt l1 else l1 in
    (l2, lft, rgt).

(** y boundary (200-220) *)
Definition bcnd_y (o : bopts) (l : list bsd) : list bsd :=
  if (n_dims o =? 3)%nat then
    if negb (open_side_walls o) then map (fun s => set_y s (periodic (y0 o) (y1 o) (b_y s))) l
    else flag_if (fun s => Rleb (y1 o) (b_y s) || Rltb (b_y s) (y0 o)) l
  else l.

(** z boundary (223-367) *)
Definition bcnd_z (o : bopts) (l : list bsd) (p : puddle) : list bsd * puddle :=
  if (1 <? n_dims o)%nat then
    if negb (periodic_topbot o) then
      let l1 := flag_if (fun s => Rleb (z1 o) (b_z s)) l in
      let nf s := if Rltb (b_z s) (z0 o) then N2R (b_n s) else 0 in
      let acc (f : bsd -> R) := lsumR (map f l1) in
      let p1 := mk_puddle
        (p_liq_vol p + acc (fun s => count_vol (3 / 2) (nf s) (b_rw2 s)))
        (p_dry_vol p + acc (fun s => count_vol 1 (nf s) (b_rd3 s)))
        (p_liq_num p + acc (fun s => count_num 0 (nf s) (b_rw2 s)))
        (p_prt_num p + acc nf)
        (if ice_on o then p_ice_mass p + acc (fun s => count_ice_mass (nf s) (b_a s) (b_c s) (b_rho s)) else p_ice_mass p)
        (if ice_on o then p_ice_num p + acc (fun s => count_num 1 (nf s) (b_rw2 s)) else p_ice_num p)
        (if chem_on o then (fun i => if (i <? 8)%nat then p_chem p i + acc (fun s => count_mass (nf s) (b_chem s i)) else p_chem p i)
         else p_chem p) in
      (flag_if (fun s => Rltb (b_z s) (z0 o)) l1, p1)
    else (map (fun s => set_z s (periodic (z0 o) (z1 o) (b_z s))) l, p)
  else (l, p).

(** bcnd (111-375); in 0D nothing happens *)
Definition bcnd (o : bopts) (l : list bsd) (p : puddle) : (list bsd * puddle) * (list nat * list nat) :=
  if (n_dims o =? 0)%nat then ((l, p), ([], []))
  else
    let '(lx, lft, rgt) := bcnd_x o l in
    (bcnd_z o (bcnd_y o lx) p, (lft, rgt)).

(** ** cell indices *)
(** divide_by_constant_and_cast (hskpng_ijk.ipp:14-29), for positions >= 0 *)
Definition cell_coord (d x : R) : nat := Z.to_nat (truncZ (x / d)).
(** ravel_ijk (32-81) *)
Definition ravel (dims ny nz : nat) (i j k : nat) : nat :=
  match dims with
  | O => 0
  | 1 => i
  | 2 => i * nz + k
  | _ => (i * (nz * ny) + j * nz) + k
  end%nat.
(** unravel_ijk (84-157) *)
Definition unravel (dims ny nz : nat) (ijk : nat) : nat * nat * nat :=
  match dims with
  | O => (0, 0, 0)
  | 1 => (ijk, 0, 0)
  | 2 => (ijk / nz, 0, ijk mod nz)
  | _ => (ijk / (nz * ny), (ijk / nz) mod ny, ijk mod nz)
  end%nat.
(** hskpng_ijk (159-201) *)
Definition hskpng_ijk (dims ny nz : nat) (dx dy dz x y z : R) : nat :=
  ravel dims ny nz (cell_coord dx x) (cell_coord dy y) (cell_coord dz z).

(** ** face indices (init_grid.ipp:92-155), c counts cells including the halo *)
Definition lft_ix (c : nat) : nat := c.
Definition rgt_ix (dims ny nz c : nat) : nat :=
  match dims with 3 => lft_ix c + nz * ny | _ => lft_ix c + nz end%nat.
Definition blw_ix (dims ny nz c : nat) : nat :=
  match dims with
  | 3 => c + ny * (c / (nz * ny)) + (c - (c / (nz * ny)) * (nz * ny)) / nz
  | _ => c + c / nz
  end%nat.
Definition abv_ix (dims ny nz c : nat) : nat := (blw_ix dims ny nz c + 1)%nat.
Definition fre_ix (ny nz c : nat) : nat := (c + (c / (nz * ny)) * nz)%nat.
Definition hnd_ix (ny nz c : nat) : nat := (fre_ix ny nz c + nz)%nat.
(** sizes of the Courant number arrays (init_sync.ipp:29-41) *)
Definition size_cx (dims nx ny nz halo : nat) : nat :=
  match dims with 3 => (nx + 2 * halo + 1) * ny * nz | 2 => (nx + 2 * halo + 1) * nz | _ => nx + 2 * halo + 1 end%nat.
Definition size_cy (nx ny nz halo : nat) : nat := ((nx + 2 * halo) * (ny + 1) * nz)%nat.
Definition size_cz (dims nx ny nz halo : nat) : nat :=
  match dims with 3 => (nx + 2 * halo) * ny * (nz + 1) | _ => (nx + 2 * halo) * (nz + 1) end%nat.

(** ** cell volume, dv_eval (init_grid.ipp:14-53) *)
Definition m1 (k : nat) : nat := Nat.max 1 k.
Definition dv_eval (ny nz : nat) (dx dy dz xa xb ya yb za zb : R) (ijk : nat) : R :=
  let i := (ijk / m1 nz / m1 ny)%nat in
  let j := ((ijk / m1 nz) mod m1 ny)%nat in
  let k := (ijk mod m1 nz)%nat in
  cmax 0 ((cmin ((INR i + 1) * dx) xb - cmax (INR i * dx) xa) *
          (cmin ((INR j + 1) * dy) yb - cmax (INR j * dy) ya) *
          (cmin ((INR k + 1) * dz) zb - cmax (INR k * dz) za)).
