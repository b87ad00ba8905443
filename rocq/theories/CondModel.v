(** Diffusional growth of droplets and ice crystals: the growth rates and the update of a single
    super-droplet in a substep.  Reals, SI units. *)
From Coq Require Import Reals List NArith ZArith Bool.
From Verif Require Import Base ThermoModel TomsModel.
Local Open Scope R_scope.

(** moist_air.hpp:91, 112: molecular diffusivity and thermal conductivity *)
Definition D_0 : R := 226 / 10000000.
Definition K_0 : R := 24 / 1000.

(** ventil.hpp:15-25 *)
Definition Reyn (v_term r_w rho eta : R) : R := v_term * (2 * r_w) * rho / eta.
(** ventil.hpp:29-46.  For a negative Reynolds number [pow] is NaN and [std::max(1, NaN)] is 1;
    [cpow] gives 0 there, with the same maximum. *)
Definition Nu (Pr Re : R) : R := 1 + cbrt (1 + Re * Pr) * cmax 1 (cpow Re (77 / 1000)).
(** ventil.hpp:50-58 *)
Definition Sh (Sc Re : R) : R := Nu Sc Re.
(** ventil.hpp:61-80 *)
Definition Schm (eta rho D : R) : R := eta / rho / D.
Definition Prandtl (eta c_p K : R) : R := c_p * eta / K.

(** kelvin_term.hpp:24-31 *)
Definition sg_surf (T : R) : R := 7275 / 100000 * (1 - 2 / 1000 * (T - 291)).
(** kelvin_term.hpp:34-41 *)
Definition kelvin_A (T : R) : R := 2 * sg_surf T / R_v / T / rho_w.
(** kelvin_term.hpp:44-52 *)
Definition klvntrm (r T : R) : R := exp (kelvin_A T / r).

(** transition_regime.hpp:12-19 *)
Definition beta (Kn : R) : R := (1 + Kn) / (1 + 171 / 100 * Kn + 133 / 100 * Kn * Kn).

(** mean_free_path.hpp:14-29, 33-50 *)
Definition lambda_D (T : R) : R := 2 * D_0 / sqrt (2 * (R_v * T)).
Definition lambda_K (T p : R) : R := 8 / 10 * (K_0 * T / p) / sqrt (2 * (R_d * T)).

(** kappa_koehler.hpp:42-52 (the assertion kappa>0 is not modelled) *)
Definition a_w (rw3 rd3 kappa : R) : R := (rw3 - rd3) / (rw3 - rd3 * (1 - kappa)).

(** maxwell-mason.hpp:13-47 (the pressure argument is not used) *)
Definition rdrdt (D K rho_v T RH aw klv : R) : R :=
  (1 - aw * klv / RH) / rho_w
  / (1 / D / rho_v + l_v T / K / RH / T * (l_v T / R_v / T - 1)).
(** maxwell-mason.hpp:53-83 *)
Definition rdrdt_i (D K rho_v T RH_i : R) : R :=
  (1 - 1 / RH_i) / rho_i
  / (1 / D / rho_v + l_s T / K / RH_i / T * (l_s T / R_v / T - 1)).

(** particles_impl_cond_common.ipp:77-116, 340-382: the ambient state and the attributes of the
    particle that the functors advance_rw2_minfun and advance_rw2_minfun_ice hold *)
Record cenv := {
  c_rhod : R; c_rv : R; c_T : R; c_eta : R; c_rd3 : R; c_kpa : R; c_vt : R;
  c_p : R; c_RH : R; c_RH_max : R; c_lambda_D : R; c_lambda_K : R }.

(** particles_impl_cond_common.ipp:134-151, 397-411: diffusivity and conductivity corrected for the
    transition regime and for ventilation *)
Definition eff_D (e : cenv) (rw : R) : R :=
  let Re := Reyn (c_vt e) rw (c_rhod e) (c_eta e) in
  D_0 * beta (c_lambda_D e / rw) * (Sh (Schm (c_eta e) (c_rhod e) D_0) Re / 2).
Definition eff_K (e : cenv) (rw : R) : R :=
  let Re := Reyn (c_vt e) rw (c_rhod e) (c_eta e) in
  K_0 * beta (c_lambda_K e / rw) * (Nu (Prandtl (c_eta e) c_pd K_0) Re / 2).
(** particles_impl_cond_common.ipp:159, 419: RH limited to RH_max *)
Definition RH_lim (e : cenv) : R := if Rltb (c_RH_max e) (c_RH e) then c_RH_max e else c_RH e.

(** particles_impl_cond_common.ipp:117-163: advance_rw2_minfun::drw2_dt *)
Definition drw2_dt (e : cenv) (rw2 : R) : R :=
  let rw := sqrt rw2 in
  let rw3 := rw * rw * rw in
  2 * rdrdt (eff_D e rw) (eff_K e rw) (c_rhod e * c_rv e) (c_T e) (RH_lim e)
            (a_w rw3 (c_rd3 e) (c_kpa e)) (klvntrm rw (c_T e)).

(** particles_impl_cond_common.ipp:383-421: advance_rw2_minfun_ice::drw2_dt *)
Definition drw2_dt_ice (e : cenv) (rw2 : R) : R :=
  let rw := sqrt rw2 in
  2 * rdrdt_i (eff_D e rw) (eff_K e rw) (c_rhod e * c_rv e) (c_T e) (RH_lim e).

(** constants of the root finding: config.hpp:15-37 (n_iter, eps_tolerance(sizeof*8/4), cond_mlt)
    and the floating-point type *)
Record ccfg := { k_fp : fptype; k_bits : nat; k_mlt : R; k_niter : N }.

(** particles_impl_cond_common.ipp:168-173: backward Euler scheme, for a growth rate [rate] *)
Definition minfun (rate : R -> R) (dt rw2_old rw2 : R) : R := rw2_old + dt * rate rw2 - rw2.

(** particles_impl_cond_common.ipp:176-335: advance_rw2<real_t, apply>::operator() for an arbitrary
    growth rate.  The debug printouts are not modelled; the value for a root finder that does not
    return ([None]) is irrelevant, since it always returns (C19). *)
Definition advance_rw2_rate (k : ccfg) (apply : bool) (rate : R -> R) (rd3 dt rw2_old : R) : R :=
  if Rleb rw2_old 0 then rw2_old
  else
    let f := minfun rate dt rw2_old in
    let drw2 := dt * rate rw2_old in
    let same := if apply then rw2_old else 0 in
    if Reqb drw2 0 then same
    else
      let rd := cbrt rd3 in
      let rd2 := rd * rd in
      let a := cmax rd2 (rw2_old + cmin 0 (k_mlt k * drw2)) in
      let b := rw2_old + cmax 0 (k_mlt k * drw2) in
      if Reqb a b then same
      else
        let grow := Rltb 0 drw2 in
        let fa := if grow then drw2 else f a in
        let fb := if grow then f b else drw2 in
        let rw2_new :=
          if Rltb 0 (fa * fb) then rw2_old + drw2
          else match toms748_solve (k_fp k) f a b fa fb (eps_tolerance (k_fp k) (k_bits k)) (k_niter k)
               with Some (r, _, _) => r | None => 0 end in
        let rw2_new := if Rltb rw2_new rd2 then rd2 else rw2_new in
        if apply then rw2_new else rw2_new - rw2_old.

(** the functor as used: the growth rate is drw2_dt of the ambient state *)
Definition advance_rw2 (k : ccfg) (apply : bool) (e : cenv) (dt rw2_old : R) : R :=
  advance_rw2_rate k apply (drw2_dt e) (c_rd3 e) dt rw2_old.

(** particles_impl_cond_common.ipp:433-484: advance_ice_ac::operator() *)
Definition advance_ice_ac (e : cenv) (dt : R) (ac : R * R) : R * R :=
  let (a, c) := ac in
  if Rleb a 0 || Rleb c 0 then (a, c)
  else
    let da_dt := drw2_dt_ice e (a * a) / (2 * a) in
    let dc_dt := drw2_dt_ice e (c * c) / (2 * c) in
    (cmax (a + dt * da_dt) (1 / 1000000000), cmax (c + dt * dc_dt) (1 / 1000000000)).
