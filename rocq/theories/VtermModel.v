(** * The formulae of fall speed and the table of sea-level fall speeds
    Models include/libcloudph++/common/vterm.hpp, src/impl/initialization/particles_impl_init_vterm.ipp and the formulae selected
    in src/impl/housekeeping/particles_impl_hskpng_vterm.ipp.
    Simplifications: real arithmetic (in particular [exp], [log], [sqrt] and [pow] are exact); quantities are numbers in SI units. *)
From Coq Require Import List Reals Arith ZArith.
From Verif Require Import Base ThermoModel.
From Verif Require CondModel InitModel MotionModel.
Import ListNotations.
Local Open Scope R_scope.

(** include/libcloudph++/common/earth.hpp:16 *)
Definition g : R := 981 / 100.
(** earth.hpp:19-22 *)
Definition p_stp : R := InitModel.p_stp.
Definition rho_stp : R := InitModel.rho_stp.

(** the loops over coefficients, y += m[i] * pow(x, double(i)) (vterm.hpp:128-132, 202-203, 215-216) *)
Fixpoint poly_from (i : nat) (m : list R) (x : R) (y : R) : R :=
  match m with [] => y | c :: m' => poly_from (S i) m' x (y + c * x ^ i) end.
Definition poly (m : list R) (x : R) : R := poly_from 0 m x 0.

(** vterm.hpp:119-122: coefficients below and above 20 um *)
Definition m_s : list R := [105035 / 10000; 108750 / 100000; - (133245 / 1000000); - (659969 / 100000000)].
Definition m_l : list R := [65639 / 10000; - (10391 / 10000); - (14001 / 10000); - (82736 / 100000); - (34277 / 100000);
                            - (83072 / 1000000); - (10583 / 1000000); - (54208 / 100000000)].
(** vterm.hpp:110-135 *)
Definition vt_beard77_v0 (r : R) : R :=
  let x := ln (2 * 100 * r) in
  let y := if Rleb r (20 / 1000000) then poly m_s x else poly m_l x in
  exp y / 100.

(** vterm.hpp:151: dynamic viscosity at sea level *)
Definition eta_0 : R := 1818 / 100000000.
(** vterm.hpp:156, 137-166 *)
Definition l_0 : R := 662 / 10000000000.
Definition vt_beard77_fact (r p rhoa eta : R) : R :=
  if Rleb r (20 / 1000000) then
    let l := l_0 * (eta / eta_0) * sqrt (p_stp / p * rho_stp / rhoa) in
    eta_0 / eta * (1 + 1255 / 1000 * (l / r)) / (1 + 1255 / 1000 * (l_0 / r))
  else
    let eps_s := eta_0 / eta - 1 in
    let eps_c := sqrt (rho_stp / rhoa) - 1 in
    1104 / 1000 * eps_s
    + ((1058 / 1000 * eps_c - 1104 / 1000 * eps_s) * (552 / 100 + ln (2 * 100 * r)) / (501 / 100)) + 1.

(** vterm.hpp:168-220: coefficients 197, 210; slip correction (a common subexpression of 190-191 and 198-199); fall speed *)
Definition b_mid : list R := [- (318657 / 100000); 992696 / 1000000; - (153193 / 100000000); - (987059 / 1000000000);
                              - (578878 / 1000000000); 855176 / 10000000000; - (327815 / 100000000000)].
Definition b_big : list R := [- (500015 / 100000); 523778 / 100000; - (204914 / 100000); 475294 / 1000000;
                              - (542819 / 10000000); 238449 / 100000000].
Definition slip (r T p eta : R) : R :=
  let l := 662 / 10000000000 * (eta / (1818 / 100000000)) * (p_stp / p) * sqrt (T / (29315 / 100)) in
  1 + 1255 / 1000 * l / r.
Definition vt_beard76 (r T p rhoa eta : R) : R :=
  if Rleb r (95 / 10000000) then
    (rho_w - rhoa) * g / (45 / 10 * eta) * slip r T p eta * r * r
  else if Rleb r (5035 / 10000000) then
    let log_N_Da := ln (32 / 3 * r * r * r * rhoa * (rho_w - rhoa) * g / eta / eta) in
    let N_Re := slip r T p eta * exp (poly b_mid log_N_Da) in
    eta * N_Re / rhoa / 2 / r
  else
    let sg := CondModel.sg_surf T in
    let Bo := 16 / 3 * r * r * (rho_w - rhoa) * g / sg in
    let N_p := sg * sg * sg * rhoa * rhoa / eta / eta / eta / eta / g / (rho_w - rhoa) in
    let X := ln (Bo * cpow N_p (1 / 6)) in
    let N_Re := cpow N_p (1 / 6) * exp (poly b_big X) in
    eta * N_Re / rhoa / 2 / r.

(** vterm.hpp:36-106 (the temperature argument is not used); [s] is the constant [spherical] *)
Definition best (r rhoa eta : R) : R := 32 / 3 * (rho_w - rhoa) / rhoa * g * r * r * r / eta / eta * rhoa * rhoa.
Definition khv_b (X : R) : R :=
  902 / 10000 / 2 * sqrt X / ((sqrt (1 + 902 / 10000 * sqrt X) - 1) * sqrt (1 + 902 / 10000 * sqrt X)).
Definition khv_a (X : R) : R :=
  let h := sqrt (1 + 902 / 10000 * sqrt X) - 1 in 906 / 100 * (906 / 100) / 4 * h * h / cpow X (khv_b X).
Definition vt_khvorostyanov (r rhoa eta : R) (s : bool) : R :=
  let X := best r rhoa eta in
  let b := khv_b X in
  let a := khv_a X in
  let Av :=
    if s then a * cpow (eta / rhoa * 10000) (1 - 2 * b) * cpow (4 / 3 * rho_w / rhoa * g * 100) b
    else
      let lh := 235 / 100000 in
      let ksi := exp (- r / lh) + (1 - exp (- r / lh)) / (1 + r / lh) in
      let alfa := PI / 6 * rho_w * ksi in
      a * cpow (eta / rhoa * 10000) (1 - 2 * b) * cpow (2546479 / 1000000 * alfa / rhoa * g * 100) b in
  let Bv := 3 * b - 1 in
  Av * cpow (2 * 100 * r) Bv / 100.

(** temperature, pressure, density of dry air and viscosity of a cell (hskpng_vterm.ipp:52-59, 305-310) *)
Record air := { a_T : R; a_p : R; a_rhod : R; a_eta : R }.
(** config.vt0_n_bin, vt0_ln_r_min, vt0_ln_r_max (src/detail/config.hpp:27, 37-38) *)
Definition n_bin : nat := Z.to_nat 10000.
Definition ln_r_min : R := ln (5 / 10000000).
Definition ln_r_max : R := ln (3 / 1000).
(** bin_mid (init_vterm.ipp:10-25) *)
Definition bin_mid (lo hi : R) (n it : nat) : R := exp (lo + (INR it + 5 / 10) * ((hi - lo) / INR n)).
(** init_vterm (init_vterm.ipp:37-63) *)
Definition vt_0 (it : nat) : R := vt_beard77_v0 (bin_mid ln_r_min ln_r_max n_bin it).

(** common__vterm__vt, common__vterm__vt__cached, common__vterm__ice (hskpng_vterm.ipp:37-157), with these formulae *)
Definition liquid (eq : MotionModel.vt_eq) (env : nat -> air) (cell : nat) (w : R) : R :=
  MotionModel.vt_liquid eq
    (fun c r => vt_beard76 r (a_T (env c)) (a_p (env c)) (a_rhod (env c)) (a_eta (env c)))
    (fun c r => vt_khvorostyanov r (a_rhod (env c)) (a_eta (env c)) true)
    (fun c r => vt_khvorostyanov r (a_rhod (env c)) (a_eta (env c)) false)
    (fun c r => vt_beard77_fact r (a_p (env c)) (a_rhod (env c)) (a_eta (env c)))
    vt_beard77_v0 vt_0 ln_r_min ln_r_max n_bin cell w.
Definition ice (env : nat -> air) (cell : nat) (a : R) : R :=
  MotionModel.vt_ice (fun c r => vt_beard76 r (a_T (env c)) (a_p (env c)) (a_rhod (env c)) (a_eta (env c)))
    (rho_i / rho_w) cell a.
