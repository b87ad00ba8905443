(** kappa-Koehler equilibrium and critical radii, include/libcloudph++/common/kappa_koehler.hpp,
    and the initial wet radius, src/impl/initialization/particles_impl_init_wet.ipp.
    Reals, SI units; the assertions (debug builds only) are not modelled. *)
From Coq Require Import Reals NArith.
From Verif Require Import Base ThermoModel TomsModel CondModel.
Local Open Scope R_scope.

(** kappa_koehler.hpp:28-40 *)
Definition rw3_eq_nokelvin (rd3 kappa RH : R) : R := rd3 * (1 - RH * (1 - kappa)) / (1 - RH).

(** kappa_koehler.hpp:75-85 *)
Definition rw3_eq_minfun (RH rd3 kappa T rw3 : R) : R :=
  RH - a_w rw3 rd3 kappa * klvntrm (cbrt rw3) T.

(** kappa_koehler.hpp:104-117 *)
Definition rw3_cr_minfun (rd3 kappa T rw3 : R) : R :=
  kelvin_A T * (rd3 - rw3) * ((kappa - 1) * rd3 + rw3) + 3 * kappa * rd3 * rw3 * cbrt rw3.

(** result of a root finding; [None] does not occur (C19) *)
Definition root_of (o : option (R * N * list R)) : R :=
  match o with Some (r, _, _) => r | None => 0 end.

(** kappa_koehler.hpp:126-146 *)
Definition rw3_eq (p : fptype) (size : nat) (rd3 kappa RH T : R) : R :=
  if Reqb kappa 0 then rd3
  else root_of (toms748_default p size (rw3_eq_minfun RH rd3 kappa T) rd3 (rw3_eq_nokelvin rd3 kappa RH)).

(** kappa_koehler.hpp:151-169; always in double precision [p] *)
Definition rw3_cr (p : fptype) (rd3 kappa T : R) : R :=
  root_of (toms748_default p 8 (rw3_cr_minfun rd3 kappa T) (1 * rd3) (100000000 * rd3)).

(** kappa_koehler.hpp:172-191 *)
Definition S_cr (p : fptype) (rd3 kappa T : R) : R :=
  let rw3 := rw3_cr p rd3 kappa T in a_w rw3 rd3 kappa * klvntrm (cbrt rw3) T.

(** particles_impl_init_wet.ipp:18-40: initial wet radius squared *)
Definition rw2_eq (p : fptype) (size : nat) (RH_max rd3 kpa RH T : R) : R :=
  cpow (rw3_eq p size rd3 kpa (cmin RH RH_max) T) (2 / 3).

(** particles_diag.ipp:40-61: critical radius squared *)
Definition rc2_of (p : fptype) (rd3 kpa T : R) : R := cpow (rw3_cr p rd3 kpa T) (2 / 3).
