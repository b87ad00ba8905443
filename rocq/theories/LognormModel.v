(** Lognormal size distributions and the hydrostatic pressure profile given to users:
    include/libcloudph++/common/lognormal.hpp and hydrostatic.hpp (used by set-ups and Python bindings).  Reals; lengths in metres. *)
From Coq Require Import Reals.
From Verif Require Import Base ThermoModel.
Local Open Scope R_scope.

(** n_e (lognormal.hpp:23-36): as a function of ln(r) *)
Definition n_e (mean_r stdev n_tot lnr : R) : R :=
  n_tot * exp (- (lnr - ln (mean_r / 1)) ^ 2 / 2 / ln stdev ^ 2) / ln stdev / sqrt (2 * PI).
(** n (lognormal.hpp:38-52): as a function of r *)
Definition n_r (mean_r stdev n_tot r : R) : R :=
  n_tot / r * exp (- (ln (r / mean_r)) ^ 2 / 2 / ln stdev ^ 2) / ln stdev / sqrt (2 * PI).

(** earth.hpp:17 *)
Definition g_earth : R := 981 / 100.
(** mix (moist_air.hpp:55-61) and R (63-70) *)
Definition mix (d v r : R) : R := (d + r * v) / (1 + r).
Definition R_moist (r : R) : R := mix R_d R_v r.
(** p (hydrostatic.hpp:22-38) *)
Definition hydro_p (z th_0 r_0 z_0 p_0 : R) : R :=
  p_1000 * cpow (cpow (p_0 / p_1000) (R_d / c_pd) - R_d / c_pd * g_earth / th_0 / R_moist r_0 * (z - z_0)) (c_pd / R_d).
