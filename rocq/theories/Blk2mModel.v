(** * The double-moment bulk scheme
    Models include/libcloudph++/blk_2m: all formulae, rhs_cellwise and rhs_columnwise.
    Simplifications: real numbers; [assert]s are not executed (NDEBUG); all containers have the same length (the code zips an empty one when
    the pressure is not given, rhs_cellwise.hpp:71); std::tgamma, std::erfc, std::erf and the machine epsilon are parameters. *)
From Coq Require Import List Arith NArith ZArith Reals Bool.
From Verif Require Import Base ThermoModel CondModel InitModel.
Import ListNotations.
Open Scope R_scope.
Local Notation cpow := ThermoModel.cpow.

(** options.hpp:17-52 *)
Record mode := { md_rd : R; md_sd : R; md_N : R; md_b : R }.
Record opts2 := {
  b_acti : bool; b_cond : bool; b_acnv : bool; b_accr : bool; b_sedi : bool;
  b_RH_max : R; b_A : R; b_b : R; b_c : R; b_modes : list mode; b_th_dry : bool; b_const_p : bool }.
(** one cell: inputs and tendencies, rhs_cellwise.hpp:57-88 *)
Record cell2 := { rhod : R; pres : R; th : R; rv : R; rc : R; nc : R; rr : R; nr : R }.
Record dots2 := { dth : R; drv : R; drc : R; dnc : R; drr : R; dnr : R }.

(** moist_air.hpp:56-78 *)
Definition c_p (r : R) : R := (c_pd + r * c_pv) / (1 + r).

Section Formulae.
  Variables (tgamma erfc erf : R -> R) (num_eps : R).

  (** ** common_formulae.hpp *)
  (** lines 25-28 *)
  Definition rc_eps : R := 1 / 1000 * num_eps.
  Definition rr_eps : R := 1 / 10000 * num_eps.
  Definition nc_eps : R := 10000000 * num_eps.
  Definition nr_eps : R := 1000000 * num_eps.
  (** lines 31-36 *)
  Definition eta (n : R) : R := 5714 / 10000000 / 1000000 * n + 2714 / 10000.
  (** lines 40-41 *)
  Definition c_md : R := PI / 6 * rho_w.
  Definition d_md : R := 3.
  (** lines 47-54 *)
  Definition miu_c (n : R) : R := 1 / (eta n * eta n) - 1.
  (** lines 57-72 *)
  Definition lambda_c (n rc rhod : R) : R :=
    cpow (c_md * n * tgamma (miu_c (n * rhod) + d_md + 1) / (rc * tgamma (miu_c (n * rhod) + 1))) (1 / d_md).
  (** lines 96-107 *)
  Definition lambda_r (nr rr : R) : R := cpow (c_md * nr * tgamma (d_md + 1) / rr) (1 / d_md).
  (** lines 110-121 *)
  Definition N0_r (n rr : R) : R := n * lambda_r n rr.
  (** lines 124-136 *)
  Definition r_drop_c (rc nc rhod : R) : R :=
    if Rltb 0 rc && Rltb 0 nc then (miu_c (nc * rhod) + 1) / lambda_c nc rc rhod / 2 else 0.
  (** lines 139-148 *)
  Definition r_drop_r (rr nr : R) : R := if Rltb 0 rr && Rltb 0 nr then 1 / lambda_r nr rr / 2 else 0.

  (** ** accretion_formulae.hpp:19-26 *)
  Definition accretion_rate (rc rr : R) : R := 67 * cpow (rc * rr) (115 / 100).
  (** ** autoconversion_formulae.hpp:22-43 *)
  Definition drizzle_radius : R := 25 / 1000000.
  Definition autoconv_rate (rc nc rhod A b c : R) : R := A * cpow rc b * cpow (rhod * nc * (1 / 1000000)) c.
  (** ** collision_sink_formulae.hpp:21-28 *)
  Definition collision_sink_rate (drr r : R) : R := drr / (4 / 3 * PI * (r * r * r) * rho_w).

  (** ** terminal_vel_formulae.hpp *)
  (** lines 27-29 *)
  Definition d1 : R := 13443 / 100 / 1000000.
  Definition d2 : R := 151164 / 100 / 1000000.
  Definition d3 : R := 347784 / 100 / 1000000.
  (** lines 31-42 *)
  Definition alpha_fall (r : R) : R :=
    if Reqb (2 * r) 0 then 0 else if Rltb (2 * r) d1 then 457950 else if Rltb (2 * r) d2 then 4962
    else if Rltb (2 * r) d3 then 1732 else 917.
  (** lines 44-54 *)
  Definition beta_fall (r : R) : R :=
    if Rltb (2 * r) d1 then 2 / 3 else if Rltb (2 * r) d2 then 1 / 3 else if Rltb (2 * r) d3 then 1 / 6 else 0.
  (** lines 56-108 *)
  Definition mint_1 (l D : R) : R :=
    - / l ^ 6 * exp (- l * D) * ((l * D) ^ 5 + 5 * (l * D) ^ 4 + 20 * (l * D) ^ 3 + 60 * (l * D) ^ 2 + 120 * (l * D) + 120).
  Definition mint_2 (l D : R) : R :=
    - / l ^ 5 * exp (- l * D) * ((l * D) ^ 4 + 4 * (l * D) ^ 3 + 12 * (l * D) ^ 2 + 24 * (l * D) + 24).
  Definition mint_3 (l D : R) : R :=
    1 / 16 / cpow l (9 / 2) * (105 * sqrt PI * erf (sqrt (l * D)) -
      2 * sqrt (l * D) * exp (- l * D) * (8 * (l * D) ^ 3 + 28 * (l * D) ^ 2 + 70 * (l * D) + 105)).
  Definition mint_4 (l D : R) : R := - / l ^ 4 * exp (- l * D) * ((l * D) ^ 3 + 3 * (l * D) ^ 2 + 6 * (l * D) + 6).
  (** lines 112-158 *)
  Definition nint_1 (l D : R) : R := / l ^ 3 * exp (- l * D) * (- (l * D) * (l * D + 2) - 2).
  Definition nint_2 (l D : R) : R := - / l ^ 2 * exp (- l * D) * (l * D + 1).
  Definition nint_3 (l D : R) : R := sqrt PI * erf (sqrt (l * D)) / 2 / cpow l (3 / 2) - sqrt D * exp (- l * D) / l.
  Definition nint_4 (l D : R) : R := - / l * exp (- l * D).
  (** lines 160-193 *)
  Definition fall_coeff (r : R) : R := alpha_fall r * cpow (c_md * 1000) (beta_fall r).
  Definition v_term_m (rhod rr nr : R) : R :=
    if Rltb rr rr_eps || Rltb nr nr_eps then 0
    else
      let l := lambda_r nr rr in
      rho_stp / rhod * l ^ 4 / 6 *
      (fall_coeff (d1 / 4) * (mint_1 l d1 - mint_1 l 0) + fall_coeff ((d1 + d2) / 4) * (mint_2 l d2 - mint_2 l d1) +
       fall_coeff ((d2 + d3) / 4) * (mint_3 l d3 - mint_3 l d2) + alpha_fall d3 * (0 - mint_4 l d3)) * (1 / 100).
  (** lines 195-229 *)
  Definition v_term_n (rhod rr nr : R) : R :=
    if Rltb rr rr_eps || Rltb nr nr_eps then 0
    else
      let l := lambda_r nr rr in
      rho_stp / rhod * l *
      (fall_coeff (d1 / 4) * (nint_1 l d1 - nint_1 l 0) + fall_coeff ((d1 + d2) / 4) * (nint_2 l d2 - nint_2 l d1) +
       fall_coeff ((d2 + d3) / 4) * (nint_3 l d3 - nint_3 l d2) + alpha_fall d3 * (0 - nint_4 l d3)) * (1 / 100).

  (** ** cond_evap_formulae.hpp *)
  (** lines 32-40 *)
  Definition tau_relax_c (r N : R) : R := 1 / (4 * PI * D_0 * N * r).
  (** lines 45-71 *)
  Definition f1 : R := 78 / 100.
  Definition f2 : R := 308 / 1000.
  Definition a_fall (rr nr : R) : R :=
    alpha_fall (r_drop_r rr nr) * cpow (c_md * 1000) (beta_fall (r_drop_r rr nr)) * cpow (1 / 1000000) (d_md * beta_fall (r_drop_r rr nr)).
  Definition b_fall (rr nr : R) : R := d_md * beta_fall (r_drop_r rr nr).
  (** lines 75-106 *)
  Definition tau_relax_r (T rhod rr nr : R) : R :=
    1 / (2 * PI * D_0 * (rhod * N0_r nr rr) * tgamma 2 *
         (f1 / cpow (lambda_r nr rr) 2 +
          f2 * sqrt (a_fall rr nr * rhod / visc T) * cpow (Schm (visc T) rhod D_0) (1 / 3) * tgamma ((b_fall rr nr + 5) / 2) *
          cpow (lambda_r nr rr) (- (b_fall rr nr + 5) / 2))).
  (** lines 108-128 *)
  Definition drv_s_dT (T rvs : R) : R := l_v T * rvs / R_v / (T * T).
  Definition cond_evap_rate (T p rv tau : R) : R :=
    (rv - r_vs T p) / tau / (1 + drv_s_dT T (r_vs T p) * l_v T / c_p rv).

  (** ** activation_formulae.hpp *)
  (** lines 28-29 *)
  Definition ccnmass : R := 4 / 3 * PI * cpow (1 / 1000000) 3 * rho_w.
  (** lines 31-77; beta is always beta_default = 1/2 *)
  Definition s_0 (T rd b : R) : R := cpow rd (- (1 + 1 / 2)) * sqrt (4 * cpow (kelvin_A T) 3 / 27 / b).
  Definition supersat (p T rv : R) : R := rv / r_vs T p - 1.
  Definition sdev_rd_s (sd : R) : R := cpow sd (1 + 1 / 2).
  Definition u_ (p T rv : R) (m : mode) (RH_max : R) : R :=
    ln (s_0 T (md_rd m) (md_b m) / cmin (supersat p T rv) (RH_max - 1)) / sqrt 2 / ln (sdev_rd_s (md_sd m)).
  (** lines 80-92 *)
  Definition n_c_p (p T rv RH_max : R) (m : mode) : R := md_N m / rho_stp / 2 * erfc (u_ p T rv m RH_max).
  (** lines 96-106 *)
  Definition activation_rate (n_ccn nc dt : R) : R := cmax 0 ((n_ccn - nc) / dt).

  (** ** rhs_cellwise.hpp *)
  Section Cell.
    Variables (o : opts2) (dt : R) (c : cell2).

    (** lines 99-109: temperature and pressure; None: std::runtime_error *)
    Definition Tp : option (R * R) :=
      if negb (b_const_p o) && b_th_dry o then let T := dry_T (th c) (rhod c) in Some (T, dry_p (rhod c) (rv c) T)
      else if b_const_p o && negb (b_th_dry o) then Some (th c * exner (pres c), pres c)
      else None.

    Variables (T p : R).
    (** lines 122-150: activation *)
    Definition n_ccn : R := fold_left (fun s m => s + n_c_p p T (rv c) (b_RH_max o) m) (b_modes o) 0.
    Definition act_rate : R := if b_acti o then if Rltb (r_vs T p) (rv c) then activation_rate n_ccn (nc c) dt else 0 else 0.
    (** lines 152-165: condensation and evaporation of cloud water *)
    Definition cloud_rate : R :=
      if b_cond o then
        if Rltb rc_eps (rc c) && Rltb nc_eps (nc c)
        then cond_evap_rate T p (rv c) (tau_relax_c (r_drop_c (rc c) (nc c) (rhod c)) (rhod c * nc c)) else 0
      else 0.
    (** lines 167-181: evaporation of rain *)
    Definition rain_rate : R :=
      if b_cond o then
        if Rltb rr_eps (rr c) && Rltb nr_eps (nr c)
        then cmin (cond_evap_rate T p (rv c) (tau_relax_r T (rhod c) (rr c) (nr c))) 0 else 0
      else 0.
    Definition rain_number_rate : R :=
      if b_cond o then
        if Rltb rr_eps (rr c) && Rltb nr_eps (nr c) then rain_rate * nr c / rr c else 0
      else 0.
    (** lines 111-199: the first part, with its limiters; results: tendencies of rc, rr, nc, nr and the two flags *)
    Definition first_rc : R := cmax (act_rate * ccnmass + cloud_rate) (- rc c / dt).
    Definition first_rr : R := cmax rain_rate (- rr c / dt).
    Definition cloud_limiter : bool := Reqb first_rc (- rc c / dt).
    Definition rain_limiter : bool := Reqb first_rr (- rr c / dt).
    Definition first_nc : R := if cloud_limiter then - nc c / dt else act_rate.
    Definition first_nr : R := if rain_limiter then - nr c / dt else cmax rain_number_rate (- nr c / dt).
    (** lines 216-244: autoconversion *)
    Definition acnv_on : bool := b_acnv o && (Rltb rc_eps (rc c) && Rltb nc_eps (nc c)).
    Definition acnv_rate : R := if acnv_on then cmin (autoconv_rate (rc c) (nc c) (rhod c) (b_A o) (b_b o) (b_c o)) (rc c / dt) else 0.
    Definition all_converted : bool := acnv_on && Reqb acnv_rate (rc c / dt).
    (** lines 246-267: accretion *)
    Definition accr_on : bool :=
      b_accr o && negb all_converted && negb rain_limiter && (Rltb rc_eps (rc c) && Rltb nc_eps (nc c) && Rltb rr_eps (rr c)).
    Definition accr_rate : R := if accr_on then accretion_rate (rc c) (rr c) else 0.
    Definition second_rc : R := if accr_on then cmax (- acnv_rate - accr_rate) (- rc c / dt) else - acnv_rate.
    Definition second_rr : R := acnv_rate + accr_rate.
    Definition all_collected : bool := all_converted || (accr_on && Reqb second_rc (- rc c / dt)).
    Definition second_nr : R :=
      if acnv_on then acnv_rate / (4 / 3 * PI * rho_w * drizzle_radius * drizzle_radius * drizzle_radius) else 0.
    (** lines 269-290: sink of the number of droplets *)
    Definition second_nc : R :=
      if b_acnv o || b_accr o then
        if all_collected then - nc c / dt
        else if Rltb nc_eps (nc c) && Rltb rr_eps second_rr
        then - cmin (collision_sink_rate second_rr (r_drop_c (rc c) (nc c) (rhod c))) (nc c / dt)
        else 0
      else 0.
    (** lines 201-206 and 292-295 *)
    Definition dots_of (d : dots2) : dots2 :=
      let d1 := {| dth := dth d - (first_rc + first_rr) * d_th_d_rv T (th c); drv := drv d - (first_rc + first_rr);
                   drc := drc d + first_rc; dnc := dnc d + first_nc; drr := drr d + first_rr; dnr := dnr d + first_nr |} in
      if cloud_limiter then d1
      else {| dth := dth d1; drv := drv d1; drc := drc d1 + second_rc; dnc := dnc d1 + second_nc;
              drr := drr d1 + second_rr; dnr := dnr d1 + second_nr |}.
  End Cell.
  (** lines 20-300: all cells in order; an exception leaves the remaining ones as they are *)
  Fixpoint rhs_cellwise2 (o : opts2) (dt : R) (l : list (cell2 * dots2)) : bool * list (cell2 * dots2) :=
    match l with
    | [] => (true, [])
    | (c, d) :: r =>
      match Tp o c with
      | None => (false, (c, d) :: r)
      | Some (T, p) => let '(ok, r') := rhs_cellwise2 o dt r in (ok, (c, dots_of o dt c T p d) :: r')
      end
    end.

  (** ** rhs_columnwise.hpp, for one of the two quantities: [q] is rr or nr, [v] the profile of its fall speed; level 0 is the lowest *)
  Record colst2 := { k_dot : nat -> R; k_in : R; k_above : option nat }.
  (** lines 58-108; the flux out of the cell above *)
  Definition flux_out (rhod q : nat -> R) (dt dz mom : R) (dot : nat -> R) (k : nat) : R :=
    let f := mom * q k / dz in - cmin (- f) (rhod k * (q k + dt * dot k) / dt).
  Definition col_body2 (rhod q v : nat -> R) (dt dz : R) (below : nat) (s : colst2) : colst2 :=
    match k_above s with
    | None => {| k_dot := k_dot s; k_in := k_in s; k_above := Some below |}
    | Some k =>
      let out := flux_out rhod q dt dz (- (1 / 2) * (rhod below * v below + rhod k * v k)) (k_dot s) k in
      {| k_dot := upd (k_dot s) k (k_dot s k - (k_in s - out) / rhod k); k_in := out; k_above := Some below |}
    end.
  Fixpoint col_loop2 (rhod q v : nat -> R) (dt dz : R) (m : nat) (s : colst2) : colst2 :=
    match m with O => s | S j => col_loop2 rhod q v dt dz j (col_body2 rhod q v dt dz j s) end.
  (** lines 33-142 *)
  Definition column2 (sedi : bool) (n : nat) (rhod q v : nat -> R) (dt dz : R) (dot : nat -> R) : R * (nat -> R) :=
    if negb sedi then (0, dot)
    else
      let s := col_loop2 rhod q v dt dz n {| k_dot := dot; k_in := 0; k_above := None |} in
      match k_above s with
      | None => (0, dot)
      | Some k =>
        let out := flux_out rhod q dt dz (- (rhod k * v k)) (k_dot s) k in
        (out, upd (k_dot s) k (k_dot s k - (k_in s - out) / rhod k))
      end.
  (** lines 19-145: the flux of rain out of the domain and the new tendencies of rr and nr *)
  Definition rhs_columnwise2 (o : opts2) (n : nat) (dot_rr dot_nr rhod rr nr : nat -> R) (dt dz : R) : R * (nat -> R) * (nat -> R) :=
    let '(out, drr') := column2 (b_sedi o) n rhod rr (fun k => v_term_m (rhod k) (rr k) (nr k)) dt dz dot_rr in
    let '(_, dnr') := column2 (b_sedi o) n rhod nr (fun k => v_term_n (rhod k) (rr k) (nr k)) dt dz dot_nr in
    (out, drr', dnr').
End Formulae.
