(** Moist-air thermodynamics: constants, latent heats, saturation vapour pressures, potential
    temperatures.  Real-number model of include/libcloudph++/common/{molar_mass,moist_air,
    const_cp,theta_std,theta_dry}.hpp; quantities are plain numbers in SI units. *)
From Coq Require Import Reals.
From Verif Require Import Base.
Local Open Scope R_scope.

(** [std::pow].  For a positive base the real power; [pow(0,y)] is 0 for y>0 and 1 for y=0.
    Simplification: [pow(0,y)] with y<0 (infinity in C++) and a negative base (NaN) are given the
    value 0; no theorem depends on those two cases unless its comment says so. *)
Definition cpow (x y : R) : R :=
  if Rlt_dec 0 x then Rpower x y else if Req_EM_T y 0 then 1 else 0.

(** [std::log10] *)
Definition log10 (x : R) : R := ln x / ln 10.

(** moist_air.hpp:27-30: specific heats of dry air, vapour, liquid water, ice *)
Definition c_pd : R := 1005.
Definition c_pv : R := 1850.
Definition c_pw : R := 4218.
Definition c_pi : R := 2114.
(** molar_mass.hpp:24-25, moist_air.hpp:33-35: molar masses *)
Definition M_H : R := 1 / 1000.
Definition M_OH : R := 17 / 1000.
Definition M_d : R := 2897 / 100000.
Definition M_v : R := M_H + M_OH.
Definition eps : R := M_v / M_d.
(** moist_air.hpp:41: universal gas constant *)
Definition kaBoNA : R := 83144621 / 10000000.
(** moist_air.hpp:44-45: gas constants of dry air and vapour *)
Definition R_d : R := kaBoNA / M_d.
Definition R_v : R := kaBoNA / M_v.
(** moist_air.hpp:51-53 *)
Definition rho_w : R := 1000.
Definition rho_i : R := 910.

(** moist_air.hpp:83-90: vapour pressure *)
Definition p_v (p r : R) : R := p * r / (r + eps).

(** const_cp.hpp:22-26: triple point *)
Definition p_tri : R := 61173 / 100.
Definition T_tri : R := 27316 / 100.
Definition l_tri : R := 2500000.
Definition ls_tri : R := 2834000.
Definition lf_tri : R := 334000.

(** const_cp.hpp:32-43 *)
Definition p_vs (T : R) : R :=
  p_tri * exp ((l_tri + (c_pw - c_pv) * T_tri) / R_v * (1 / T_tri - 1 / T)
               - (c_pw - c_pv) / R_v * ln (T / T_tri)).
(** const_cp.hpp:47-57 *)
Definition p_vsi (T : R) : R :=
  p_tri * exp ((ls_tri + (c_pi - c_pv) * T_tri) / R_v * (1 / T_tri - 1 / T)
               - (c_pi - c_pv) / R_v * ln (T / T_tri)).
(** const_cp.hpp:60-77 *)
Definition r_vs (T p : R) : R := eps / (p / p_vs T - 1).
Definition r_vsi (T p : R) : R := eps / (p / p_vsi T - 1).
(** const_cp.hpp:80-104 *)
Definition l_v (T : R) : R := l_tri + (c_pv - c_pw) * (T - T_tri).
Definition l_s (T : R) : R := ls_tri + (c_pv - c_pi) * (T - T_tri).
Definition l_f (T : R) : R := lf_tri + (c_pw - c_pi) * (T - T_tri).

(** theta_std.hpp:20, 34-41 *)
Definition p_1000 : R := 100000.
Definition exner (p : R) : R := cpow (p / p_1000) (R_d / c_pd).
(** theta_std.hpp:23-32 *)
Definition std_rhod (p th_std rv : R) : R :=
  (p - p_v p rv) / (cpow (p / p_1000) (R_d / c_pd) * R_d * th_std).

(** theta_dry.hpp:22-43 *)
Definition dry_T (th rhod : R) : R :=
  cpow (th * cpow (rhod * R_d / p_1000) (R_d / c_pd)) (c_pd / (c_pd - R_d)).
(** theta_dry.hpp:45-55 *)
Definition dry_p (rhod r T : R) : R := rhod * (R_d + r * R_v) * T.
(** theta_dry.hpp:58-85 *)
Definition d_th_d_rv (T th : R) : R := - th / T * l_v T / c_pd.
Definition d_th_d_rv_dep (T th : R) : R := - th / T * l_s T / c_pd.
Definition d_th_d_rw_freeze (T th : R) : R := - th / T * l_f T / c_pd.
(** theta_dry.hpp:87-115 *)
Definition std2dry (th_std r : R) : R := th_std * cpow (1 + r * R_v / R_d) (R_d / c_pd).
Definition dry2std (th_dry r : R) : R := th_dry / cpow (1 + r * R_v / R_d) (R_d / c_pd).

(** vterm.hpp:20-31: dynamic viscosity of air *)
Definition visc (T : R) : R :=
  (172 / 100 / 100000) * (393 / (T + 120)) * (T / T_tri * sqrt (T / T_tri)).
