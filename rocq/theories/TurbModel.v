(** Subgrid-scale turbulence: include/libcloudph++/common/GA17_turbulence.hpp, src/impl/housekeeping/particles_impl_hskpng_tke.ipp,
    hskpng_turb_vel.ipp, hskpng_turb_ss.ipp, the part of src/particles_step.ipp: step_async that uses them.
    Real arithmetic; division by zero gives zero here and infinity in the code: where turbulent energy or the moment of radii is zero the results
    are the same (exp(-dt/tau) = 1, ssp/tau_rlx = 0). *)
From Coq Require Import List Arith NArith ZArith Reals Bool.
From Verif Require Import Base ThermoModel MomsModel.
Import ListNotations.
Local Open Scope R_scope.

(** GA17_turbulence.hpp:17-34 *)
Definition C_E : R := 845 / 1000.
Definition C_tau : R := 3 / 2.
Definition cube_root_of_two_pi : R := cpow (2 * PI) (1 / 3).
Definition a_1 : R := 3 / 10000.
Definition a_2 : R := 28 / 100000.
(** GA17_turbulence.hpp:61-71 *)
Definition tke (diss L : R) : R := let r := cbrt (L * diss / C_E) in r * r.
(** GA17_turbulence.hpp:73-81 *)
Definition tau (e L : R) : R := L / cube_root_of_two_pi * sqrt (C_tau / e).
(** GA17_turbulence.hpp:83-95 *)
Definition update_turb_vel (wp tau dt e r : R) : R :=
  let x := exp (- dt / tau) in wp * x + sqrt ((1 - x * x) * (2 / 3) * e) * r.
(** GA17_turbulence.hpp:97-104 *)
Definition tau_relax (mom1_over_vol : R) : R := 1 / (a_2 * mom1_over_vol).
(** GA17_turbulence.hpp:106-115 *)
Definition dot_turb_ss (ssp wp tau_rlx : R) : R := a_1 * wp - ssp / tau_rlx.

(** attributes of super-droplets; [u_diss]: diss_rate, overwritten by hskpng_tke *)
Record ust := mk_ust {
  u_np : nat; u_ijk : nat -> nat; u_n : nat -> N; u_rw2 : nat -> R;
  u_up : nat -> R; u_vp : nat -> R; u_wp : nat -> R; u_ssp : nat -> R; u_dssp : nat -> R; u_diss : nat -> R }.
Definition set_diss (s : ust) (d : nat -> R) : ust :=
  mk_ust (u_np s) (u_ijk s) (u_n s) (u_rw2 s) (u_up s) (u_vp s) (u_wp s) (u_ssp s) (u_dssp s) d.
Definition set_vel (s : ust) (u v w : nat -> R) : ust :=
  mk_ust (u_np s) (u_ijk s) (u_n s) (u_rw2 s) u v w (u_ssp s) (u_dssp s) (u_diss s).
Definition set_dssp (s : ust) (d : nat -> R) : ust :=
  mk_ust (u_np s) (u_ijk s) (u_n s) (u_rw2 s) (u_up s) (u_vp s) (u_wp s) (u_ssp s) d (u_diss s).

(** hskpng_tke.ipp:28-47; [mix]: SGS_mix_len *)
Definition hskpng_tke (nz : nat) (mix : nat -> R) (s : ust) : ust :=
  set_diss s (fun c => tke (u_diss s c) (mix (c mod nz)%nat)).
(** hskpng_turb_vel.ipp:44-92; the loop goes over {up, wp, vp}; [r i p]: normal random number of super-droplet p in turn i of the loop *)
Definition turb_component (nz : nat) (mix : nat -> R) (dt : R) (r : nat -> R) (s : ust) (v : nat -> R) : nat -> R := fun p =>
  if (p <? u_np s)%nat then
    update_turb_vel (v p) (tau (u_diss s (u_ijk s p)) (mix (u_ijk s p mod nz)%nat)) dt (u_diss s (u_ijk s p)) (r p)
  else v p.
Definition hskpng_turb_vel (n_dims nz : nat) (mix : nat -> R) (only_vertical : bool) (dt : R) (r : nat -> nat -> R) (s : ust) : ust :=
  let turn i := if only_vertical then (i =? 1)%nat else (i <? n_dims)%nat in
  let c i v := if turn i then turb_component nz mix dt (r i) s v else v in
  set_vel s (c 0%nat (u_up s)) (c 2%nat (u_vp s)) (c 1%nat (u_wp s)).
(** hskpng_turb_ss.ipp:44-101; [garbage]: previous contents of the temporary array *)
Definition hskpng_turb_dot_ss (dv garbage : nat -> R) (sijk sid : list nat) (s : ust) : ust :=
  let moms := moms_calc false dv dv sijk sid (fun i => N2R (u_n s i)) (u_rw2 s) (1 / 2) in
  let tau_rlx := scatter (fun _ v => v) (map (fun kv => (fst kv, tau_relax (snd kv / dv (fst kv)))) moms) garbage in
  set_dssp s (fun p => if (p <? u_np s)%nat then dot_turb_ss (u_ssp s p) (u_wp s p) (tau_rlx (u_ijk s p)) else u_dssp s p).
(** particles_step.ipp:406-426 *)
Definition turb_async (n_dims nz : nat) (mix : nat -> R) (turb_adve turb_cond : bool) (dt : R) (r : nat -> nat -> R)
    (dv garbage : nat -> R) (sijk sid : list nat) (s : ust) : ust :=
  let s := if turb_adve || turb_cond then hskpng_tke nz mix s else s in
  let s := if turb_adve then hskpng_turb_vel n_dims nz mix false dt r s
           else if turb_cond then hskpng_turb_vel n_dims nz mix true dt r s else s in
  if turb_cond then hskpng_turb_dot_ss dv garbage sijk sid s else s.

(** lengths of subgrid eddies, include/libcloudph++/common/SGS_length_scale.hpp *)
Definition sgs_vertical1 (dx : R) : R := dx.
Definition sgs_vertical2 (dx dz : R) : R := dz.
Definition sgs_vertical3 (dx dy dz : R) : R := dz.
Definition sgs_geometric1 (dx : R) : R := dx.
Definition sgs_geometric2 (dx dz : R) : R := sqrt (dx * dz).
Definition sgs_geometric3 (dx dy dz : R) : R := cbrt (dx * dy * dz).
Definition sgs_arithmetic1 (dx : R) : R := dx.
Definition sgs_arithmetic2 (dx dz : R) : R := (dx + dz) / 2.
Definition sgs_arithmetic3 (dx dy dz : R) : R := (dx + dy + dz) / 3.
