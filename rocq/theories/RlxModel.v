(** * Relaxation of aerosol towards given distributions
    Models src/impl/sources_and_relaxation_of_SDs/particles_impl_rlx_dry_distros.ipp and its place in step_async
    (src/particles_step.ipp:460-479).
    Simplifications: real arithmetic; no overflow of multiplicities and of the numbers of super-droplets; of a super-droplet only its
    cell, dry size, kappa and multiplicity, as others are set later (init_SD_with_distros_finalize: KoehlerModel, InitModel.position). *)
From Coq Require Import List Arith NArith ZArith Reals Bool.
From Verif Require Import Base ThermoModel SpaceModel InitModel MomsModel.
Import ListNotations.
Open Scope R_scope.

Record rsd := { s_cell : nat; s_rd3 : R; s_kpa : R; s_n : N }.
Definition no_rsd : rsd := {| s_cell := 0; s_rd3 := 0; s_kpa := 0; s_n := 0 |}.

(** opts_init.hpp:165-185 and config.hpp:33 *)
Record rcfg := { x_bins : N; x_per_bin : R; x_timescale : R; x_tolerance : R }.
Record rdistro := {
  x_kappa : R; x_f : R -> R; x_lo : R; x_hi : R;         (* kappa, n_of_lnrd_stp, ln of the range found by init_dist_analysis *)
  x_kmin : R; x_kmax : R; x_zmin : R; x_zmax : R         (* range of kappa of existing aerosol, range of altitudes *)
}.

(** calc_n_sd_to_create, lines 33-51 *)
Definition n_sd_per_bin (x : rcfg) : nat := N.to_nat (N.max 1 (truncN (x_per_bin x + 1 / 2))).
Definition n_sd_to_create (x : rcfg) (missing expected : R) : nat :=
  if Rltb 0 expected then if Rltb (x_tolerance x) (missing / expected) then n_sd_per_bin x else 0%nat else 0%nat.

(** hor_dv_eval, lines 54-83 *)
Definition hor_dv (o : icfg) (k : nat) : R :=
  cmax 0 ((ic_x1 o - ic_x0 o) * (ic_y1 o - ic_y0 o) * (cmin ((INR k + 1) * ic_dz o) (ic_z1 o) - cmax (INR k * ic_dz o) (ic_z0 o))).

Section Relaxation.
  Variables (o : icfg) (x : rcfg) (dt : R).
  (** super-droplets before the relaxation *)
  Variable pop : list rsd.
  Definition at_ (i : nat) : rsd := nth i pop no_rsd.

  (** lines 96-105: sum of ranges *)
  Definition tot_rng (l : list rdistro) : R := fold_left (fun s D => s + (x_hi D - x_lo D)) l 0.

  Section Distribution.
    Variables (D : rdistro) (tot : R).
    (** lines 128-133: number and size of bins, edges in rd3 *)
    Definition n_bins : nat := N.to_nat (truncN (N2R (x_bins x) * (x_hi D - x_lo D) / tot)).
    Definition bin_size : R := (x_hi D - x_lo D) / INR n_bins.
    Definition edge (b : nat) : R := exp (3 * (x_lo D + INR b * bin_size)).
    (** lines 136-137: levels *)
    Definition z_min_index : nat := N.to_nat (truncN (x_zmin D / ic_dz o)).
    Definition z_max_index : nat := N.to_nat (truncN (x_zmax D / ic_dz o)).

    Section Bin.
      Variable b : nat.
      (** lines 155-161: selection and number in each cell; [sijk], [sid]: super-droplets sorted by cells *)
      Definition selected (i : nat) : R :=
        range_filter (edge b) (edge (S b)) (range_filter (x_kmin D) (x_kmax D) (N2R (s_n (at_ i))) (s_kpa (at_ i))) (s_rd3 (at_ i)).
      Definition per_cell (sijk sid : list nat) : list (nat * R) :=
        moms_calc false (ic_dv o) (ic_rhod o) sijk sid selected (fun i => s_rd3 (at_ i)) 0.
      (** lines 163-179: horizontal sums; [ks], [vs]: the result of sorting by levels *)
      Definition levels (cm : list (nat * R)) : list nat := map (fun kv => (fst kv mod ic_nz o)%nat) cm.
      Definition hor_sum (ks : list nat) (vs : list R) : nat -> R := scatter (fun _ v => v) (run_sums ks vs) (fun _ => 0).
      (** lines 183-207: expected number in each level *)
      Definition expected (k : nat) : R :=
        let center := x_lo D + (INR b + 1 / 2) * bin_size in
        let e := x_f D center * bin_size * hor_dv o k in
        let e := if ic_indep o then e else e * ic_rhod o k / rho_stp in
        if Nat.ltb k z_min_index || Nat.leb z_max_index k then 0 else e.
      (** lines 210-211: missing number *)
      Definition missing (hs : nat -> R) (k : nat) : R :=
        let m := expected k - hs k in if Rltb m 0 then 0 else m.
      (** lines 213-221: super-droplets to create *)
      Definition to_create (hs : nat -> R) : list nat :=
        map (fun k => n_sd_to_create x (missing hs k) (expected k)) (seq 0 (ic_nz o)).
      (** lines 240-251: multiplicity *)
      Definition multiplicity (hs : nat -> R) (k : nat) : N :=
        truncN (missing hs k / x_per_bin x * cmin (dt / x_timescale x) 1 + 1 / 2).
      (** lines 226-300: new super-droplets; [u]: the vector of random numbers *)
      Definition new_in_bin (hs : nat -> R) (u : nat -> R) : list rsd :=
        let n := list_sum (to_create hs) in
        let lev := init_ijk (to_create hs) (fun _ => 0%nat) in
        map (fun p =>
          let k := lev p in
          let i := N.to_nat (truncN (u p * INR (ic_nx o))) in
          let j := if Nat.eqb (ic_dims o) 3 then N.to_nat (truncN (u (2 * n + p)%nat * INR (ic_ny o))) else 0%nat in
          {| s_cell := ravel (ic_dims o) (ic_ny o) (ic_nz o) i j k;
             s_rd3 := exp (3 * (ln (ThermoModel.cpow (edge b) (1 / 3)) + u (n + p)%nat * bin_size));
             s_kpa := x_kappa D; s_n := multiplicity hs k |}) (seq 0 n).
      (** line 271: how many random numbers are drawn *)
      Definition random_numbers (hs : nat -> R) : nat := (list_sum (to_create hs) * ic_dims o)%nat.
    End Bin.

    (** the loop over bins, lines 146-301; [hs b]: horizontal sums of the bin, [u b]: random numbers *)
    Definition new_of_distro (hs : nat -> nat -> R) (u : nat -> nat -> R) : list rsd :=
      flat_map (fun b => new_in_bin b (hs b) (u b)) (seq 0 n_bins).
  End Distribution.

  (** the loop over distributions, lines 110-310 *)
  Fixpoint new_of_all (tot : R) (l : list rdistro) (hs : nat -> nat -> nat -> R) (u : nat -> nat -> nat -> R) : list rsd :=
    match l with
    | [] => []
    | D :: r => new_of_distro D tot (hs 0%nat) (u 0%nat) ++ new_of_all tot r (fun i => hs (S i)) (fun i => u (S i))
    end.
End Relaxation.

(** distmem_opts.hpp:49: the options of one of [size] processes or devices *)
Definition distmem_rlx (size : nat) (x : rcfg) : rcfg :=
  {| x_bins := x_bins x; x_per_bin := x_per_bin x / INR size; x_timescale := x_timescale x; x_tolerance := x_tolerance x |}.

(** particles_step.ipp:463-479: the counter and the steps with relaxation (whose argument is supstp_rlx * dt) *)
Definition rlx_step (supstp : nat) (on : bool) (ctr : nat) : bool * nat :=
  if on then (Nat.eqb (ctr mod supstp) 0, S ctr) else (false, 0%nat).
Fixpoint rlx_steps (supstp ctr : nat) (on : list bool) : list bool :=
  match on with [] => [] | b :: r => let '(now, c) := rlx_step supstp b ctr in now :: rlx_steps supstp c r end.

(** The order of super-droplets by cells as relaxation finds it, if super-droplets were added by the source in the same step and they had
    been sorted before (by coalescence, with the Euler or implicit advection scheme): the vectors are only extended, with zeros, by
    hskpng_resize_npart (hskpng_resize.ipp:30), and hskpng_sort returns at once (hskpng_sort.ipp:62), as the call of post_adding_SD, which
    resets the flag, is commented out (src.ipp:23). *)
Definition order_after_source (sijk sid : list nat) (added : nat) : list nat * list nat :=
  (sijk ++ repeat 0%nat added, sid ++ repeat 0%nat added).
