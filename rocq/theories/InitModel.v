(** * Creation of super-droplets
    Models src/impl/initialization/particles_impl_init_{SD_with_distros,SD_with_distros_sd_conc,SD_with_distros_const_multi,
    SD_with_distros_tail,SD_with_sizes,dist_analysis,count_num,ijk,dry_sd_conc,dry_const_multi,dry_dry_sizes,n,xyz}.ipp and, of the
    source, init_count_num_src with src_dry_distros_simple and src_dry_sizes.
    Simplifications: real arithmetic; multiplicities do not overflow; the wet radius, freezing temperature, in-cloud time and
    chemical composition are set elsewhere (KoehlerModel, IceInitModel, InCloudModel); vectors are total functions. *)
From Coq Require Import List Arith NArith ZArith Reals Bool.
From Verif Require Import Base SpaceModel.
From Verif Require ThermoModel.
Import ListNotations.
Open Scope R_scope.

(** include/libcloudph++/common/earth.hpp:19-22 *)
Definition p_stp : R := 101325.
Definition T_stp : R := 27315 / 100 + 15.
Definition rho_stp : R := p_stp / T_stp / ThermoModel.R_d.

Record icfg := {
  ic_dims : nat; ic_nx : nat; ic_ny : nat; ic_nz : nat; ic_dx : R; ic_dy : R; ic_dz : R;
  ic_x0 : R; ic_x1 : R; ic_y0 : R; ic_y1 : R; ic_z0 : R; ic_z1 : R;
  ic_sd_conc : N; ic_const_multi : N;
  ic_indep : bool;        (* aerosol_independent_of_rhod *)
  ic_factor : list R;     (* aerosol_conc_factor *)
  ic_n_cell : nat;
  ic_rhod : nat -> R; ic_dv : nat -> R;
  ic_bin : R              (* config.bin_precision, src/detail/config.hpp:29 *)
}.

(** random numbers drawn for the k-th new super-droplet: dry radius and position *)
Record draws := { d_r : nat -> R; d_x : nat -> R; d_y : nat -> R; d_z : nat -> R }.

Record csd := mk_csd { c_cell : nat; c_rd3 : R; c_kpa : R; c_n : N; c_x : R; c_y : R; c_z : R }.

(** ** cells of new super-droplets *)
(** thrust::exclusive_scan *)
Definition exscan (counts : list nat) (c : nat) : nat := list_sum (firstn c counts).
(** arbitrary_sequence::operator(), init_ijk.ipp:16-29 *)
Fixpoint fill_run (v : nat -> nat) (off cnt val : nat) : nat -> nat :=
  match cnt with O => v | S k => upd (fill_run v off k val) (off + k)%nat val end.
(** init_ijk, init_ijk.ipp:36-53 *)
Definition init_ijk (counts : list nat) (v : nat -> nat) : nat -> nat :=
  fold_left (fun v c => fill_run v (exscan counts c) (nth c counts 0%nat) c) (seq 0 (length counts)) v.

(** ** positions *)
(** pos_lgrngn_domain::operator(), init_xyz.ipp:25-34 *)
Definition pos_in_cell (p0 p1 dp u : R) (ii : nat) : R :=
  u * cmin p1 ((INR ii + 1) * dp) + (1 - u) * cmax p0 (INR ii * dp).
(** init_xyz, init_xyz.ipp:41-76, with unravel_ijk; a coordinate whose dimension is absent keeps its value (0 here) *)
Definition position (o : icfg) (d : draws) (cell k : nat) : R * R * R :=
  let '(i, j, kk) := unravel (ic_dims o) (ic_ny o) (ic_nz o) cell in
  (if Nat.eqb (ic_nx o) 0 then 0 else pos_in_cell (ic_x0 o) (ic_x1 o) (ic_dx o) (d_x d k) i,
   if Nat.eqb (ic_ny o) 0 then 0 else pos_in_cell (ic_y0 o) (ic_y1 o) (ic_dy o) (d_y d k) j,
   if Nat.eqb (ic_nz o) 0 then 0 else pos_in_cell (ic_z0 o) (ic_z1 o) (ic_dz o) (d_z d k) kk).

(** a group of new super-droplets with counts per cell: init_ijk, then attributes as functions of the index in the group and
    of the cell, e.g. init_SD_with_distros_sd_conc.ipp:30-47, init_SD_with_distros.ipp:50-101 *)
Definition make_group (o : icfg) (counts : list nat) (kappa : R) (rd3 : nat -> nat -> R) (n : nat -> nat -> R -> N)
           (d : draws) : list csd :=
  let ijk := init_ijk counts (fun _ => 0%nat) in
  map (fun k =>
         let c := ijk k in
         let '(x, y, z) := position o d c k in
         mk_csd c (rd3 k c) kappa (n k c (rd3 k c)) x y z)
      (seq 0 (list_sum counts)).

(** ** a number of super-droplets per cell: sd_conc *)
(** multiplier, init_dist_analysis.ipp:24-33 and 48-54; [sd]: number of super-droplets, [dt]: 1 at init, length of the
    super-step for sources *)
Definition analysis_multiplier (o : icfg) (sd : N) (dt rd_min rd_max : R) : R :=
  ln (rd_max / rd_min) / N2R sd * dt * (if Nat.eqb (ic_dims o) 0 then ic_dv o 0%nat else ic_dx o * ic_dy o * ic_dz o).

(** automatic detection of the range of radii, init_dist_analysis.ipp:39-76; [f] is n_of_lnrd_stp *)
Inductive search_result := Range (rd_min rd_max : R) | Threw | NotYet.
Fixpoint search (o : icfg) (f : R -> R) (sd : N) (dt lo0 hi0 : R) (fuel : nat) (rd_min rd_max : R) : search_result :=
  match fuel with
  | O => NotYet
  | S fuel =>
    let m := analysis_multiplier o sd dt rd_min rd_max in
    let n_min := truncN (f (ln rd_min) * m) in
    let n_max := truncN (f (ln rd_max) * m) in
    if Reqb rd_min lo0 && negb (N.eqb n_min 0) then Threw
    else if Reqb rd_max hi0 && negb (N.eqb n_max 0) then Threw
    else if N.eqb n_min 0 then search o f sd dt lo0 hi0 fuel (rd_min * (101 / 100)) rd_max
    else if N.eqb n_max 0 then search o f sd dt lo0 hi0 fuel rd_min (rd_max / (101 / 100))
    else Range rd_min rd_max
  end.

(** calc_lnrd::operator(), init_dry_sd_conc.ipp:34-37, and exp3x *)
Definition lnrd_sd_conc (lo hi u : R) (count k ptr : nat) : R :=
  lo + (INR (k - ptr) + u) * (hi - lo) / INR count.
Definition rd3_sd_conc (lo hi : R) (counts : list nat) (d : draws) (k c : nat) : R :=
  exp (3 * lnrd_sd_conc lo hi (d_r d k) (nth c counts 0%nat) k (exscan counts c)).

(** k index of a cell and the concentration profile, init_n.ipp:98-107, init_count_num.ipp:61-71 *)
Definition profile (o : icfg) (c : nat) (x : R) : R :=
  match ic_factor o with [] => x | _ => x * nth (c mod ic_nz o) (ic_factor o) 0 end.

(** init_n_sd_conc, init_n.ipp:47-141 *)
Definition n_sd_conc (o : icfg) (f : R -> R) (multiplier : R) (c : nat) (rd3 : R) : N :=
  let v := multiplier * f (ln rd3 / 3) in
  let v := if ic_indep o then v else v * ic_rhod o c / rho_stp in
  let v := profile o c v in
  let v := if Nat.eqb (ic_dims o) 0 then v else v * ic_dv o c / (ic_dx o * ic_dy o * ic_dz o) in
  truncN (v + 5 / 10).

(** a distribution: kappa, n_of_lnrd_stp, range of radii found by the analysis *)
Record distro := { di_kappa : R; di_f : R -> R; di_min : R; di_max : R }.
Definition di_range (D : distro) : R := ln (di_max D) - ln (di_min D).

(** init_SD_with_distros_sd_conc, init_SD_with_distros_sd_conc.ipp:14-49; the quotient of the two integers in line 27 is an
    integer quotient (sd_conc is unsigned long long, opts_init.hpp:56); [None]: an exception, or division by zero *)
Definition init_sd_conc (o : icfg) (tot : R) (D : distro) (d : draws) : option (list csd) :=
  if Rleb (ln (di_max D)) (ln (di_min D)) then None
  else
    let fraction := (ln (di_max D) - ln (di_min D)) / tot in
    let den := truncN (fraction * N2R (ic_sd_conc o) + 5 / 10) in
    if N.eqb den 0 then None
    else
      let m := analysis_multiplier o (ic_sd_conc o) 1 (di_min D) (di_max D) * N2R (ic_sd_conc o / den) in
      (* init_count_num_sd_conc, init_count_num.ipp:33-36: conversion to an integer by truncation *)
      let counts := repeat (N.to_nat (truncN (fraction * N2R (ic_sd_conc o)))) (ic_n_cell o) in
      Some (make_group o counts (di_kappa D) (rd3_sd_conc (ln (di_min D)) (ln (di_max D)) counts d)
                       (fun _ c r => n_sd_conc o (di_f D) m c r) d).

(** the loop over distributions, init_SD_with_distros.ipp:15-49, for sd_conc > 0 without the large tail *)
Definition tot_lnrd_rng (l : list distro) : R := fold_left (fun s D => s + di_range D) l 0.
Fixpoint init_all_sd_conc (o : icfg) (tot : R) (l : list distro) (d : nat -> draws) : option (list (list csd)) :=
  match l with
  | [] => Some []
  | D :: r =>
    match init_sd_conc o tot D (d 0%nat), init_all_sd_conc o tot r (fun i => d (S i)) with
    | Some g, Some gs => Some (g :: gs)
    | _, _ => None
    end
  end.
Definition init_with_distros (o : icfg) (l : list distro) (d : nat -> draws) : option (list (list csd)) :=
  init_all_sd_conc o (tot_lnrd_rng l) l d.

(** ** constant multiplicity *)
(** detail::integrate, init_count_num.ipp:17-28 *)
Definition integrate (f : R -> R) (mn mx bin : R) : R :=
  let n := Z.to_nat (truncZ ((mx - mn) / bin)) in
  ((f mn + f mx) / 2 + sumR (n - 1) (fun i => f (mn + INR (S i) * bin))) * bin.

(** conc_to_number, init_count_num.ipp:39-73 *)
Definition conc_to_number (o : icfg) (conc : R) (c : nat) : R :=
  let v := conc * ic_dv o c in
  let v := if ic_indep o then v else ic_rhod o c / rho_stp * v in
  profile o c v.

(** init_count_num_hlpr, init_count_num.ipp:75-89 *)
Definition counts_const_multi (o : icfg) (conc : R) (multi : N) : list nat :=
  map (fun c => N.to_nat (truncN (conc_to_number o conc c / N2R multi + 5 / 10))) (seq 0 (ic_n_cell o)).

(** calc_CDF, init_dry_const_multi.ipp:23-43: number of points, values *)
Definition cdf_points (mn mx bin : R) : nat := N.to_nat (truncN ((mx - mn) / bin + 1)).
Definition cdf (f : R -> R) (mn mx bin : R) (i : nat) : R :=
  let F j := sumR (S j) (fun k => f (mn + bin * INR k)) in
  F i / F (cdf_points mn mx bin - 1)%nat.
(** thrust::upper_bound, init_dry_const_multi.ipp:69: the first of [n] points whose value exceeds [u], [n] if there is none *)
Fixpoint upper_bound_from (g : nat -> R) (u : R) (i n : nat) : nat :=
  match n with O => i | S n => if Rltb u (g i) then i else upper_bound_from g u (S i) n end.
(** init_dry_const_multi, init_dry_const_multi.ipp:46-82 *)
Definition rd3_const_multi (o : icfg) (f : R -> R) (lo hi : R) (d : draws) (k c : nat) : R :=
  exp (3 * (lo + INR (upper_bound_from (cdf f lo hi (ic_bin o)) (d_r d k) 0 (cdf_points lo hi (ic_bin o))) * ic_bin o)).

(** init_SD_with_distros_const_multi.ipp:14-42 and init_SD_with_distros_tail.ipp:14-45 (there with multiplicity 1) *)
Definition init_const_multi (o : icfg) (D : distro) (multi : N) (d : draws) : option (list csd) :=
  let lo := ln (di_min D) in let hi := ln (di_max D) in
  if Rleb hi lo then None
  else Some (make_group o (counts_const_multi o (integrate (di_f D) lo hi (ic_bin o)) multi) (di_kappa D)
                        (rd3_const_multi o (di_f D) lo hi d) (fun _ _ _ => multi) d).

(** ** given dry sizes *)
(** init_n_dry_sizes, init_n.ipp:149-163 *)
Definition n_dry_sizes (o : icfg) (conc : R) (count : nat) (c : nat) : N :=
  truncN (conc_to_number o conc c / INR count + 5 / 10).
(** init_SD_with_sizes.ipp:30-98, for one size *)
Definition init_dry_size (o : icfg) (kappa radius conc : R) (count : nat) (d : draws) : list csd :=
  make_group o (repeat count (ic_n_cell o)) kappa (fun _ _ => radius * radius * radius) (fun _ c _ => n_dry_sizes o conc count c) d.

(** ** sources *)
Record box := { s_x0 : R; s_x1 : R; s_y0 : R; s_y1 : R; s_z0 : R; s_z1 : R }.
(** init_count_num_src, init_count_num.ipp:118-176, in 2D and 3D *)
Definition edge (s d : R) : nat := N.to_nat (truncN (s / d + 5 / 10)).
Definition between_edges (i a b : nat) : bool := (i <? b)%nat && (a <=? i)%nat.
Definition in_source (o : icfg) (b : box) (c : nat) : bool :=
  let zz := between_edges (c mod ic_nz o) (edge (s_z0 b) (ic_dz o)) (edge (s_z1 b) (ic_dz o)) in
  if Nat.eqb (ic_dims o) 3 then
    zz && between_edges (c / (ic_nz o * ic_ny o)) (edge (s_x0 b) (ic_dx o)) (edge (s_x1 b) (ic_dx o))
       && between_edges ((c / ic_nz o) mod ic_ny o) (edge (s_y0 b) (ic_dy o)) (edge (s_y1 b) (ic_dy o))
  else zz && between_edges (c / ic_nz o) (edge (s_x0 b) (ic_dx o)) (edge (s_x1 b) (ic_dx o)).
Definition counts_src (o : icfg) (b : box) (number : nat) : list nat :=
  map (fun c => if in_source o b c then number else 0%nat) (seq 0 (ic_n_cell o)).

(** src_dry_distros_simple.ipp:18-84 in a step in which the source is due; [sup_dt] = supstp * opts_init.dt *)
Definition src_simple (o : icfg) (b : box) (D : distro) (number : nat) (sup_dt : R) (d : draws) : list csd :=
  let m := analysis_multiplier o (N.of_nat number) sup_dt (di_min D) (di_max D) in
  let counts := counts_src o b number in
  make_group o counts (di_kappa D) (rd3_sd_conc (ln (di_min D)) (ln (di_max D)) counts d)
             (fun _ c r => n_sd_conc o (di_f D) m c r) d.
(** src_dry_sizes.ipp:28-96 for one size in a step in which it is due *)
Definition src_size (o : icfg) (b : box) (kappa radius rate : R) (number : nat) (sup_dt : R) (d : draws) : list csd :=
  make_group o (counts_src o b number) kappa (fun _ _ => radius * radius * radius)
             (fun _ c _ => n_dry_sizes o (rate * sup_dt) number c) d.

(** ** when sources act *)
(** particles_step.ipp:455-479 and src_dry_sizes.ipp:28-33 for one size: step by step, whether opts.src is set and the current
    timestep (which the source does not use); [sup]: number of steps between additions; [dt0]: opts_init.dt; [ctr]: src_stp_ctr;
    result: the super-droplets added. Simplification: src_x0 = src_x1 = 0, which switches the source off, is left out. *)
Fixpoint src_run (o : icfg) (b : box) (kappa radius rate : R) (number : nat) (dt0 : R) (sup ctr : nat)
         (l : list (bool * R)) (d : nat -> draws) : list csd :=
  match l with
  | [] => []
  | (on, _) :: r =>
    (if on && Nat.eqb (ctr mod sup) 0 then src_size o b kappa radius rate number (INR sup * dt0) (d 0%nat) else []) ++
    src_run o b kappa radius rate number dt0 sup (if on then S ctr else 0%nat) r (fun i => d (S i))
  end.
