(** Diagnostics: src/particles_diag.ipp, src/impl/diagnose_SD_attributes/*, outbuf of src/particles_ctor.ipp (78-92).
    Vectors are total functions; only indices below the number of super-droplets (cells) are meaningful.  The assertions (debug builds
    only) are not modelled. *)
From Coq Require Import List Arith NArith ZArith Reals Bool.
From Verif Require Import Base ThermoModel TomsModel CondModel KoehlerModel MomsModel CondPassModel.
Import ListNotations.
Local Open Scope R_scope.

(** attributes that are not in [parts]: turbulent velocities, in-cloud time, masses of dissolved compounds (of compound s in super-droplet i: chem_bgn[s][i]) *)
Record xattr := { x_up : nat -> R; x_vp : nat -> R; x_wp : nat -> R; x_ict : nat -> R; x_chem : nat -> nat -> R }.
(** options: those of the condensation part (n_dims == 0, ice_switch, ...), opts_init.diag_incloud_time, precision, opts_init.chem_switch *)
Record dopts := { d_o : copts; d_ict : bool; d_fp : fptype; d_chem : bool }.

(** n_filtered, count_ijk, count_mom, count_num, count_n, and the population and cells *)
Record dst := mk_dst {
  g_P : parts; g_E : cells; g_sel : nat -> R; g_cijk : nat -> nat; g_cmom : nat -> R; g_cnum : nat -> R; g_cn : nat }.

Inductive rng_attr := r_dry | r_wet | r_ice_a | r_ice_c | r_kappa.
Inductive mom_attr := m_dry | m_wet | m_ice_a | m_ice_c | m_kappa | m_up | m_vp | m_wp | m_ict.
(** calls of the programming interface: diag_all, diag_X_rng, diag_X_rng_cons, diag_ice, diag_water (and _cons), diag_RH_ge_Sc,
    diag_rw_ge_rc, diag_X_mom, diag_ice_mix_ratio, diag_sd_conc, diag_max_rw, diag_precip_rate, diag_precip_rate_ice_mass,
    diag_wet_mass_dens, diag_pressure, diag_temperature, diag_RH, diag_chem *)
Inductive call :=
| c_all | c_rng (a : rng_attr) (further : bool) (lo hi : R) | c_ice (further : bool) | c_water (further : bool)
| c_RH_ge_Sc | c_rw_ge_rc
| c_mom (a : mom_attr) (k : nat) | c_ice_mix_ratio | c_sd_conc | c_max_rw | c_precip | c_precip_ice
| c_mass_dens (rad sig0 : R) | c_pressure | c_temperature | c_RH | c_chem (s : nat).

Section Diag.
  Variables (o : dopts) (X : xattr).
  (** hskpng_vterm_all: fall speeds of all super-droplets in the present state of cells (MotionModel; here any function) *)
  Variable fall : parts -> cells -> nat -> R.
  (** the index of super-droplets sorted by cells *)
  Variables (sijk sid : list nat).

  Definition set_vt (P : parts) (v : nat -> R) : parts :=
    mk_parts (p_np P) (p_ijk P) (p_n P) (p_rw2 P) (p_rd3 P) (p_kpa P) v (p_ia P) (p_ic P) (p_irho P) (p_ssp P) (p_dssp P) (p_rc2 P).
  Definition set_sel (st : dst) (s : nat -> R) : dst :=
    mk_dst (g_P st) (g_E st) s (g_cijk st) (g_cmom st) (g_cnum st) (g_cn st).
  (** output of reduce_by_key into (count_ijk, count_mom): the first entries of both arrays, and count_n *)
  Definition put {A} (l : list A) (old : nat -> A) : nat -> A := fun k => match nth_error l k with Some v => v | None => old k end.
  Definition set_mom (st : dst) (kvs : list (nat * R)) : dst :=
    mk_dst (g_P st) (g_E st) (g_sel st) (put (map fst kvs) (g_cijk st)) (put (map snd kvs) (g_cmom st)) (g_cnum st) (length kvs).
  (** hskpng_count (hskpng_count.ipp:16-29) *)
  Definition hskpng_count (st : dst) : dst :=
    let kvs := run_sums sijk (map (fun _ => 1) sid) in
    mk_dst (g_P st) (g_E st) (g_sel st) (put (map fst kvs) (g_cijk st)) (g_cmom st) (put (map snd kvs) (g_cnum st)) (length kvs).
  (** fields of cells: hskpng_Tpr, copy to count_mom, count_n = n_cell, count_ijk = 0, 1, ... (particles_diag.ipp:146-192).
      diag_pressure and others copy the vector of n_cell elements *)
  Definition diag_field (f : cells -> nat -> R) (st : dst) : dst :=
    let E := hskpng_Tpr (d_o o) (g_E st) in
    mk_dst (g_P st) E (g_sel st) (fun k => k) (fun k => if (k <? e_nc E)%nat then f E k else g_cmom st k) (g_cnum st) (e_nc E).

  Definition rng_vec (P : parts) (a : rng_attr) : nat -> R :=
    match a with r_dry => p_rd3 P | r_wet => p_rw2 P | r_ice_a => p_ia P | r_ice_c => p_ic P | r_kappa => p_kpa P end.
  Definition needs_ice (a : rng_attr) : bool := match a with r_ice_a | r_ice_c => true | _ => false end.
  (** particles_diag.ipp:232-283, 304-355: pow(r, 3), pow(r, 2), or the bound itself *)
  Definition rng_bound (a : rng_attr) (r : R) : R := match a with r_dry => r ^ 3 | r_wet => r ^ 2 | _ => r end.
  Definition mom_vec (P : parts) (a : mom_attr) : nat -> R :=
    match a with
    | m_dry => p_rd3 P | m_wet => p_rw2 P | m_ice_a => p_ia P | m_ice_c => p_ic P | m_kappa => p_kpa P
    | m_up => x_up X | m_vp => x_vp X | m_wp => x_wp X | m_ict => x_ict X
    end.
  (** 438-510: n/3., n/2., n *)
  Definition mom_power (a : mom_attr) (k : nat) : R := match a with m_dry => INR k / 3 | m_wet => INR k / 2 | _ => INR k end.

  (** moms_all, moms_rng, moms_gt0, moms_cmp, moms_ge0 (particles_impl_moms.ipp:47-201); [further] filters n_filtered instead of n *)
  Definition base_sel (further : bool) (st : dst) : nat -> R := if further then g_sel st else n_real (g_P st).
  (** moms_calc into the arrays; [sp] = specific *)
  Definition calc (sp : bool) (st : dst) (x : nat -> R) (xp : R) : dst :=
    set_mom st (moms_calc (sp && negb (o_parcel (d_o o))) (e_dv (g_E st)) (e_rhod (g_E st)) sijk sid (g_sel st) x xp).
  (** reduce_by_key with the maximum (diag_max_rw, 645-683) *)
  Fixpoint run_max (keys : list nat) (vals : list R) : list (nat * R) :=
    match keys, vals with
    | k :: ks, v :: vs =>
      match run_max ks vs with
      | (k', s) :: rest => if Nat.eqb k k' then (k', cmax v s) :: rest else (k, v) :: (k', s) :: rest
      | [] => [(k, v)]
      end
    | _, _ => []
    end.
  (** mass_dens_estimator and mass_dens_estim (particles_impl_mass_dens.ipp:9-100), power 1/2.  The numbers of super-droplets come from
      the array count_num, at the position given by the cell number. *)
  Definition mass_dens_estimator (rad sig0 n x cnt : R) : R :=
    let sig := sig0 / cpow cnt (1 / 5) in
    n / sig * cpow x (3 * (1 / 2)) * exp (- (((ln (cpow x (1 / 2)) - ln rad) / sig) ^ 2) / 2).
  Definition mass_dens (rad sig0 : R) (st0 : dst) : dst :=
    let st := hskpng_count st0 in
    let P := g_P st in
    let w id := mass_dens_estimator rad sig0 (g_sel st id) (p_rw2 P id) (g_cnum st (p_ijk P id)) in
    let pref := 4 / 3 * rho_w * sqrt (PI / 2) in
    set_mom st (map (fun kv => (fst kv, pref * snd kv / e_dv (g_E st) (fst kv))) (run_sums sijk (map w sid))).

  (** one call; None when it throws *)
  Definition diag (c : call) (st : dst) : option dst :=
    let P := g_P st in let E := g_E st in let ice := o_ice (d_o o) in
    match c with
    | c_all => Some (set_sel st (n_real P))
    | c_rng a further lo hi =>
      if needs_ice a && negb ice then None
      else Some (set_sel st (fun i => range_filter (rng_bound a lo) (rng_bound a hi) (base_sel further st i) (rng_vec P a i)))
    | c_ice further => if ice then Some (set_sel st (fun i => gt0_filter (base_sel further st i) (p_ia P i))) else None
    | c_water further => Some (set_sel st (fun i => gt0_filter (base_sel further st i) (p_rw2 P i)))
    (* 357-388, 89-107 *)
    | c_RH_ge_Sc => Some (set_sel st (fun i => ge0_filter (n_real P i) (e_RH E (p_ijk P i) - S_cr (d_fp o) (p_rd3 P i) (p_kpa P i) (e_T E (p_ijk P i)))))
    (* 390-417 *)
    | c_rw_ge_rc => Some (set_sel st (fun i => comp_filter (n_real P i) (p_rw2 P i) (rc2_of (d_fp o) (p_rd3 P i) (p_kpa P i) (e_T E (p_ijk P i)))))
    | c_mom a k =>
      match a with
      | m_ice_a | m_ice_c => if ice then Some (calc true st (mom_vec P a) (mom_power a k)) else None
      | m_ict => if d_ict o then Some (calc true st (mom_vec P a) (mom_power a k)) else Some st
      | _ => Some (calc true st (mom_vec P a) (mom_power a k))
      end
    | c_ice_mix_ratio =>
      if ice then Some (calc true st (fun i => ice_mass (p_ia P i) (p_ic P i) (p_irho P i)) 1) else None
    (* 195-218 *)
    | c_sd_conc => Some (set_mom st (run_sums sijk (map (fun i => if Rltb 0 (g_sel st i) then 1 else 0) sid)))
    | c_max_rw => Some (set_mom st (run_max sijk (map (fun i => sqrt (p_rw2 P i)) sid)))
    (* 587-620, 60-73; vt is restored after the computation *)
    | c_precip =>
      let P' := set_vt P (fall P E) in
      let st' := mk_dst P' E (g_sel st) (g_cijk st) (g_cmom st) (g_cnum st) (g_cn st) in
      Some (calc false st' (fun i => cpow (p_rw2 P' i) (3 / 2) * p_vt P' i) 1)
    (* 622-642, 75-87 *)
    | c_precip_ice =>
      if ice then
        let P' := set_vt P (fall P E) in
        let st' := mk_dst P' E (n_real P') (g_cijk st) (g_cmom st) (g_cnum st) (g_cn st) in
        Some (calc false st' (fun i => 4 / 3 * PI * p_ia P' i * p_ia P' i * p_ic P' i * p_irho P' i * p_vt P' i) 1)
      else None
    | c_mass_dens rad sig0 => Some (mass_dens rad sig0 st)
    | c_pressure => Some (diag_field e_p st)
    | c_temperature => Some (diag_field e_T st)
    | c_RH => Some (diag_field e_RH st)
    (* 645-650 *)
    | c_chem s => if d_chem o then Some (calc true st (x_chem X s) 1) else None
    end.

  (** fill_outbuf (fill_outbuf.ipp:12-37) and outbuf (particles_ctor.ipp:82-92): the array returned and the state left *)
  Definition fill_outbuf (st : dst) : nat -> R :=
    scatter (fun _ v => v) (map (fun k => (g_cijk st k, g_cmom st k)) (seq 0 (g_cn st))) (fun _ => 0).
  Definition outbuf (st : dst) : (nat -> R) * dst := (fill_outbuf st, hskpng_count st).

  Fixpoint diags (cs : list call) (st : dst) : option dst :=
    match cs with [] => Some st | c :: r => match diag c st with Some st' => diags r st' | None => None end end.
End Diag.
