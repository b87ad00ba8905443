(** Condensation of the whole population in step_cond: per-cell substeps, per-particle substeps with and without
    mixing, adaptive per-particle substeps; freezing and melting.
    Vectors are total functions; only indices below the number of super-droplets (cells) are meaningful. *)
From Coq Require Import List Arith NArith ZArith Reals Bool.
From Verif Require Import Base ThermoModel TomsModel CondModel MomsModel.
Import ListNotations.
Local Open Scope R_scope.

(** RH_formula.hpp *)
Inductive RH_formula := pv_cc | rv_cc | pv_tet | rv_tet.
(** tetens.hpp:13-38 (the assertions T > 0 degrees Celsius are not modelled) *)
Definition tet_p_vs (T : R) : R :=
  61078 / 100 * exp (1727 / 100 * (T - 27315 / 100) / (T - 27315 / 100 + 2373 / 10)).
Definition tet_r_vs (T p : R) : R :=
  380 / (p * exp (- (172693882 / 10000000) * (T - 27315 / 100) / (T - 3586 / 100)) - 6109 / 10).
(** hskpng_Tpr.ipp:69-179: RH *)
Definition RH_fun (f : RH_formula) (p rv T : R) : R :=
  match f with
  | pv_cc => p_v p rv / p_vs T
  | rv_cc => rv / r_vs T p
  | pv_tet => p_v p rv / tet_p_vs T
  | rv_tet => rv / tet_r_vs T p
  end.
(** hskpng_Tpr.ipp:105-121, 181-205, 277-281: RH_i *)
Definition RHi_fun (f : RH_formula) (p rv T : R) : R :=
  match f with
  | pv_cc | pv_tet => p_v p rv / p_vsi T
  | rv_cc | rv_tet => rv / r_vsi T p
  end.

(** options used in this part: opts_init (n_dims == 0, th_dry, const_p, ice_switch, exact_sstp_cond, sstp_cond_mix, adaptive_sstp_cond,
    RH_formula, sstp_cond_adapt_drw2_eps, _max), opts (turb_cond, RH_max), var_rho, the current dt, sstp_cond, sstp_cond_act, and
    the configuration of the root finder *)
Record copts := {
  o_parcel : bool; o_th_dry : bool; o_const_p : bool; o_ice : bool; o_exact : bool; o_mix : bool; o_adaptive : bool;
  o_RH : RH_formula; o_adapt_eps : R; o_adapt_max : R;
  o_turb : bool; o_RH_max : R; o_var_rho : bool; o_dt : R; o_sstp : nat; o_act : nat; o_k : ccfg }.

(** attributes of super-droplets (particles_impl.ipp: n_part, ijk, n, rw2, rd3, kpa, vt, ice_a, ice_c, ice_rho, ssp, dot_ssp, rc2) *)
Record parts := mk_parts {
  p_np : nat; p_ijk : nat -> nat; p_n : nat -> N; p_rw2 : nat -> R; p_rd3 : nat -> R; p_kpa : nat -> R; p_vt : nat -> R;
  p_ia : nat -> R; p_ic : nat -> R; p_irho : nat -> R; p_ssp : nat -> R; p_dssp : nat -> R; p_rc2 : nat -> R }.
(** fields in cells (n_cell, rv, th, rhod, p, T, RH, RH_i, eta, dv) *)
Record cells := mk_cells {
  e_nc : nat; e_rv : nat -> R; e_th : nat -> R; e_rhod : nat -> R; e_p : nat -> R; e_T : nat -> R; e_RH : nat -> R;
  e_RHi : nat -> R; e_eta : nat -> R; e_dv : nat -> R }.
(** sstp_tmp_rv, sstp_tmp_th, sstp_tmp_rh, sstp_tmp_p: indexed by cell, or by super-droplet with exact_sstp_cond *)
Record tmps := mk_tmps { t_rv : nat -> R; t_th : nat -> R; t_rh : nat -> R; t_p : nat -> R }.
Record cst := mk_cst { s_P : parts; s_E : cells; s_S : tmps }.

Definition set_rw2 (P : parts) (w : nat -> R) : parts :=
  mk_parts (p_np P) (p_ijk P) (p_n P) w (p_rd3 P) (p_kpa P) (p_vt P) (p_ia P) (p_ic P) (p_irho P) (p_ssp P) (p_dssp P) (p_rc2 P).
Definition set_ice (P : parts) (a c rho : nat -> R) : parts :=
  mk_parts (p_np P) (p_ijk P) (p_n P) (p_rw2 P) (p_rd3 P) (p_kpa P) (p_vt P) a c rho (p_ssp P) (p_dssp P) (p_rc2 P).
Definition set_ssp (P : parts) (s : nat -> R) : parts :=
  mk_parts (p_np P) (p_ijk P) (p_n P) (p_rw2 P) (p_rd3 P) (p_kpa P) (p_vt P) (p_ia P) (p_ic P) (p_irho P) s (p_dssp P) (p_rc2 P).
Definition set_rvth (E : cells) (rv th : nat -> R) : cells :=
  mk_cells (e_nc E) rv th (e_rhod E) (e_p E) (e_T E) (e_RH E) (e_RHi E) (e_eta E) (e_dv E).

(** hskpng_Tpr.ipp:218-305, for one cell / super-droplet: temperature and pressure *)
Definition T_of (o : copts) (th rhod p : R) : R := if o_th_dry o then dry_T th rhod else th * exner p.
Definition p_of (o : copts) (p rhod rv T : R) : R := if o_const_p o then p else dry_p rhod rv T.
Definition hskpng_Tpr (o : copts) (E : cells) : cells :=
  let T c := T_of o (e_th E c) (e_rhod E c) (e_p E c) in
  let p c := p_of o (e_p E c) (e_rhod E c) (e_rv E c) (T c) in
  mk_cells (e_nc E) (e_rv E) (e_th E) (e_rhod E) p T
    (fun c => RH_fun (o_RH o) (p c) (e_rv E c) (T c))
    (if o_ice o then fun c => RHi_fun (o_RH o) (p c) (e_rv E c) (T c) else e_RHi E)
    (fun c => visc (T c))
    (if o_parcel o then fun c => 1 / e_rhod E c else e_dv E).

(** detail::ice_mass (particles_diag.ipp:126-142) *)
Definition ice_mass (a c rho : R) : R := 4 / 3 * PI * a * a * c * rho.
Definition n_real (P : parts) (i : nat) : R := N2R (p_n P i).

(** specific third moment of wet radius (moms_all; moms_calc(rw2, 3/2)), specific ice mass (moms_gt0(ice_a); moms_calc(ice_mass, 1)) *)
Definition wet_mom3 (o : copts) (sijk sid : list nat) (P : parts) (E : cells) : list (nat * R) :=
  moms_calc (negb (o_parcel o)) (e_dv E) (e_rhod E) sijk sid (n_real P) (p_rw2 P) (3 / 2).
Definition ice_mom (o : copts) (sijk sid : list nat) (P : parts) (E : cells) : list (nat * R) :=
  moms_calc (negb (o_parcel o)) (e_dv E) (e_rhod E) sijk sid
    (fun i => gt0_filter (n_real P i) (p_ia P i)) (fun i => ice_mass (p_ia P i) (p_ic P i) (p_irho P i)) 1.

(** initial contents of a temporary cell array that is filled with zeros unless all cells have super-droplets; [g] is what the array
    contained (save_liq_ice_content_before_change.ipp:26-27, 52-55, cond.ipp:33-34, ice_dep.ipp:34-35) *)
Definition blank (nc : nat) (kvs : list (nat * R)) (g : nat -> R) : nat -> R :=
  if (length kvs =? nc)%nat then g else fun _ => 0.
Definition neg_store (_ v : R) : R := - v.
Definition store (_ v : R) : R := v.

(** save_liq_ice_content_before_change (12-65): minus the liquid (ice) content in each cell; [g] the previous contents of the array *)
Definition save_liq (o : copts) sijk sid (P : parts) (E : cells) (g : nat -> R) : nat -> R :=
  let m := wet_mom3 o sijk sid P E in scatter neg_store m (blank (e_nc E) m g).
Definition save_ice (o : copts) sijk sid (P : parts) (E : cells) (g : nat -> R) : nat -> R :=
  let m := ice_mom o sijk sid P E in scatter neg_store m (blank (e_nc E) m g).
(** calc_liq_ice_content_change (13-50) *)
Definition add_liq (o : copts) sijk sid (P : parts) (E : cells) (d : nat -> R) : nat -> R :=
  scatter Rplus (wet_mom3 o sijk sid P E) d.
Definition add_ice (o : copts) sijk sid (P : parts) (E : cells) (d : nat -> R) : nat -> R :=
  scatter Rplus (ice_mom o sijk sid P E) d.

(** update_th_rv (particles_impl_update_th_rv.ipp:73-187); the exception for an unsorted set cannot occur here, as the set is sorted
    at the beginning of the condensation part and not reordered in it *)
Definition drop_mlt : R := rho_w * (4 / 3) * PI.
Definition update_th_rv (o : copts) (drw dice : nat -> R) (E : cells) : cells :=
  let drv c := drw c * drop_mlt in
  let rv1 c := e_rv E c - drv c in
  let rv2 := if o_ice o then fun c => rv1 c - dice c else rv1 in
  let th1 c := e_th E c - drv c * d_th_d_rv (e_T E c) (e_th E c) in
  let th2 := if o_ice o then fun c => th1 c - dice c * d_th_d_rv_dep (e_T E c) (th1 c) else th1 in
  set_rvth E rv2 th2.

(** ** per-cell substeps *)

(** sstp_percell_step (5-49) for one variable of one cell: the variable and its temporary *)
Definition sstp_var (s step : nat) (vt : R * R) : R * R :=
  let (v, t) := vt in
  if (step =? 0)%nat then let t' := v - t in (v - (INR s - 1) * t' / INR s, t')
  else (v + t / INR s, t).
Definition sstp_percell_step (o : copts) (step : nat) (st : cst) : cst :=
  if (o_sstp o =? 1)%nat then st
  else
    let E := s_E st in let S := s_S st in
    let f v t c := sstp_var (o_sstp o) step (v c, t c) in
    let rh c := if o_var_rho o then f (e_rhod E) (t_rh S) c else (e_rhod E c, t_rh S c) in
    mk_cst (s_P st)
      (mk_cells (e_nc E) (fun c => fst (f (e_rv E) (t_rv S) c)) (fun c => fst (f (e_th E) (t_th S) c)) (fun c => fst (rh c))
         (e_p E) (e_T E) (e_RH E) (e_RHi E) (e_eta E) (e_dv E))
      (mk_tmps (fun c => snd (f (e_rv E) (t_rv S) c)) (fun c => snd (f (e_th E) (t_th S) c)) (fun c => snd (rh c)) (t_p S)).

(** apply_perparticle_sgs_supersat.ipp:5-17 *)
Definition apply_sgs_supersat (o : copts) (P : parts) : parts :=
  if o_turb o then set_ssp P (fun i => p_ssp P i + o_dt o / INR (o_sstp o) * p_dssp P i) else P.

(** the ambient state of super-droplet [i] in per-cell substeps (cond.ipp:47-57, 78-99; ice_dep.ipp:49-82); [lD], [lK] are the mean
    free paths of cells *)
Definition cell_env (o : copts) (lD lK : nat -> R) (P : parts) (E : cells) (RH : nat -> R) (i : nat) : cenv :=
  let c := p_ijk P i in
  {| c_rhod := e_rhod E c; c_rv := e_rv E c; c_T := e_T E c; c_eta := e_eta E c; c_rd3 := p_rd3 P i; c_kpa := p_kpa P i;
     c_vt := p_vt P i; c_p := e_p E c; c_RH := RH i; c_RH_max := o_RH_max o; c_lambda_D := lD c; c_lambda_K := lK c |}.
Definition sub_dt (o : copts) : R := o_dt o / INR (o_sstp o).

(** growth of droplets in cond() (cond.ipp:59-103) *)
Definition grow_liq (o : copts) lD lK (P : parts) (E : cells) : parts :=
  let RH i := if o_turb o then p_ssp P i + e_RH E (p_ijk P i) else e_RH E (p_ijk P i) in
  set_rw2 P (fun i => advance_rw2 (o_k o) true (cell_env o lD lK P E RH i) (sub_dt o) (p_rw2 P i)).
(** growth of ice in ice_dep() (ice_dep.ipp:62-91) *)
Definition grow_ice (o : copts) lD lK (P : parts) (E : cells) : parts :=
  let ac i := advance_ice_ac (cell_env o lD lK P E (fun i => e_RHi E (p_ijk P i)) i) (sub_dt o) (p_ia P i, p_ic P i) in
  set_ice P (fun i => fst (ac i)) (fun i => snd (ac i)) (p_irho P).

(** the state of the per-cell loop: rw_mom3 and ice_mass of the previous substep *)
Record pcst := mk_pcst { l_st : cst; l_rw : nat -> R; l_ice : nat -> R }.
(** previous contents of the temporary arrays drw_mom3, rw_mom3, d_ice_mass, ice_mass *)
Record junk := mk_junk { g_drw : nat -> R; g_rw : nat -> R; g_dice : nat -> R; g_ice : nat -> R }.

(** one pass of the loop in step_cond (particles_step.ipp:238-256) with cond (cond.ipp:12-137) and ice_dep (ice_dep.ipp:13-131).
    [count_n] is the number of occupied cells found by the last moms_calc. *)
Definition percell_substep (o : copts) (g : junk) (lD lK : nat -> R) (sijk sid : list nat) (step : nat) (l : pcst) : pcst :=
  let st1 := sstp_percell_step o step (l_st l) in
  let P1 := apply_sgs_supersat o (s_P st1) in
  let E1 := hskpng_Tpr o (s_E st1) in
  let first := (step =? 0)%nat in
  let last := (S step =? o_sstp o)%nat in
  (* drw_mom3, d_ice_mass: minus the contents before growth *)
  let drw0 := if first then save_liq o sijk sid P1 E1 (g_drw g) else fun c => - l_rw l c in
  let rw0 := if first then blank (e_nc E1) (wet_mom3 o sijk sid P1 E1) (g_rw g) else l_rw l in
  let dice0 := if first then save_ice o sijk sid P1 E1 (g_dice g) else fun c => - l_ice l c in
  (* cond *)
  let P2 := grow_liq o lD lK P1 E1 in
  let m := wet_mom3 o sijk sid P2 E1 in
  let rw1 := if last then rw0 else scatter store m rw0 in
  let drw1 := if last then scatter Rplus m drw0 else fun c => rw1 c + drw0 c in
  (* ice_dep *)
  let ice0 := if first then blank (e_nc E1) m (g_ice g) else l_ice l in
  let P3 := if o_ice o then grow_ice o lD lK P2 E1 else P2 in
  let mi := ice_mom o sijk sid P3 E1 in
  let ice1 := if last then ice0 else scatter store mi ice0 in
  let dice1 := if last then scatter Rplus mi dice0 else fun c => ice1 c + dice0 c in
  mk_pcst (mk_cst P3 (update_th_rv o drw1 dice1 E1) (s_S st1)) rw1 ice1.

Fixpoint percell_loop (o : copts) g lD lK sijk sid (k : nat) (l : pcst) : pcst :=
  match k with
  | O => l
  | S k' => percell_substep o g lD lK sijk sid k' (percell_loop o g lD lK sijk sid k' l)
  end.

(** hskpng_mfp.ipp:41-51: mean free paths, computed once *)
Definition mfp_D (E : cells) (c : nat) : R := lambda_D (e_T E c).
Definition mfp_K (E : cells) (c : nat) : R := lambda_K (e_T E c) (e_p E c).

(** sstp_save.ipp:5-33; [allow] is allow_sstp_cond *)
Definition sstp_save (o : copts) (allow : bool) (st : cst) : cst :=
  if allow then
    let E := s_E st in
    let cp f := if o_exact o then fun i => f (p_ijk (s_P st) i) else f in
    mk_cst (s_P st) E (mk_tmps (cp (e_rv E)) (cp (e_th E)) (cp (e_rhod E))
      (if o_const_p o && o_exact o then cp (e_p E) else t_p (s_S st)))
  else st.

(** ** per-particle substeps *)

(** rw2torwX<3> (cond_common.ipp:56-67), rw3diff2drv (23-41) *)
Definition rw2torw3 (w : R) : R := w * sqrt w.
Definition rw3diff2drv (o : copts) (mlt d n rhod dv : R) : R :=
  if o_parcel o then mlt * d * n else mlt * d * n / rhod / dv.

(** calculate_noncond_perparticle_sstp_delta.ipp:7-34: [dlt] of one variable *)
Definition noncond_delta (P : parts) (scl tmp : nat -> R) (i : nat) : R := scl (p_ijk P i) - tmp i.
Definition deltas (o : copts) (st : cst) : tmps :=
  let P := s_P st in let E := s_E st in let S := s_S st in
  mk_tmps (noncond_delta P (e_rv E) (t_rv S)) (noncond_delta P (e_th E) (t_th S)) (noncond_delta P (e_rhod E) (t_rh S))
    (noncond_delta P (e_p E) (t_p S)).
(** apply_noncond_perparticle_sstp_delta.ipp:7-33 *)
Definition apply_noncond (o : copts) (d S : tmps) : tmps :=
  let f t dl i := t i + dl i / INR (o_sstp o) in
  mk_tmps (f (t_rv S) (t_rv d)) (f (t_th S) (t_th d)) (f (t_rh S) (t_rh d)) (if o_const_p o then f (t_p S) (t_p d) else t_p S).

(** cond_perparticle_advance_rw2.ipp:27-126, perparticle_advance_rw2.ipp:7-44: the ambient state of a super-droplet *)
Definition Tp_of (o : copts) (S : tmps) (i : nat) : R := T_of o (t_th S i) (t_rh S i) (t_p S i).
Definition part_env (o : copts) lD lK (P : parts) (S : tmps) (i : nat) : cenv :=
  let T := Tp_of o S i in
  let p := p_of o (t_p S i) (t_rh S i) (t_rv S i) T in
  let RH := RH_fun (o_RH o) p (t_rv S i) T in
  {| c_rhod := t_rh S i; c_rv := t_rv S i; c_T := T; c_eta := visc T; c_rd3 := p_rd3 P i; c_kpa := p_kpa P i; c_vt := p_vt P i;
     c_p := p; c_RH := if o_turb o then RH + p_ssp P i else RH; c_RH_max := o_RH_max o;
     c_lambda_D := lD (p_ijk P i); c_lambda_K := lK (p_ijk P i) |}.

(** update_pstate (particles_impl_update_th_rv.ipp:236-276): the changes are summed per cell and the sum is added to every super-droplet
    of the cell *)
Definition update_pstate (sijk sid : list nat) (P : parts) (pstate pd : nat -> R) : nat -> R :=
  let dstate := scatter Rplus (run_sums sijk (map pd sid)) (fun _ => 0) in
  fun i => pstate i + dstate (p_ijk P i).

(** one pass of the loop over substeps (particles_step.ipp:219-228): set_perparticle_drwX_to_minus_rwX, cond_perparticle_advance_rw2,
    add_perparticle_rwX_to_drwX, apply_perparticle_drw3_to_perparticle_rv_and_th (6-60).  The stored third powers of radii equal those of
    the current radii, so storing them is not modelled. *)
Definition perparticle_substep (o : copts) (lD lK dv : nat -> R) (sijk sid : list nat) (d : tmps) (PS : parts * tmps) : parts * tmps :=
  let (P, S) := PS in
  let S1 := apply_noncond o d S in
  let P1 := apply_sgs_supersat o P in
  let P2 := set_rw2 P1 (fun i => advance_rw2 (o_k o) true (part_env o lD lK P1 S1 i) (sub_dt o) (p_rw2 P1 i)) in
  let drw3 i := - rw2torw3 (p_rw2 P1 i) + rw2torw3 (p_rw2 P2 i) in
  let drv i := rw3diff2drv o (- drop_mlt) (drw3 i) (n_real P i) (t_rh S1 i) (dv (p_ijk P i)) in
  let add := if o_mix o then update_pstate sijk sid P else fun s ds i => s i + ds i in
  let dth i := drv i * d_th_d_rv (Tp_of o S1 i) (t_th S1 i) in
  (P2, mk_tmps (add (t_rv S1) drv) (add (t_th S1) dth) (t_rh S1) (t_p S1)).
Fixpoint perparticle_loop (o : copts) lD lK dv sijk sid d (k : nat) (PS : parts * tmps) : parts * tmps :=
  match k with
  | O => PS
  | S k' => perparticle_substep o lD lK dv sijk sid d (perparticle_loop o lD lK dv sijk sid d k' PS)
  end.

(** update_state (278-296): every super-droplet writes its value to its cell; the order of writing is not determined *)
Definition update_state (P : parts) (pstate state state' : nat -> R) : Prop :=
  forall c, (exists i, (i < p_np P)%nat /\ p_ijk P i = c /\ state' c = pstate i) \/
            ((forall i, (i < p_np P)%nat -> p_ijk P i <> c) /\ state' c = state c).

(** ** adaptive per-particle substeps *)

(** perparticle_nomixing_adaptive_sstp_cond.ipp:44-275 for super-droplet [i]: local variables *)
Record ast := mk_ast { a_rv : R; a_th : R; a_rh : R; a_p : R; a_ssp : R; a_rw2 : R; a_Tp : R }.
(** _apply_noncond_perparticle_sstp_delta (80-89) *)
Definition ad_apply (o : copts) (d : tmps) (dssp : R) (i : nat) (m : R) (a : ast) : ast :=
  mk_ast (a_rv a + t_rv d i * m) (a_th a + t_th d i * m) (a_rh a + t_rh d i * m)
    (if o_const_p o then a_p a + t_p d i * m else a_p a)
    (if o_turb o then a_ssp a + dssp * o_dt o * m else a_ssp a) (a_rw2 a) (a_Tp a).
(** _calc_Tp, _calc_sstp_tmp_p, _calc_RH (91-118) *)
Definition ad_calc (o : copts) (a : ast) : ast :=
  let T := T_of o (a_th a) (a_rh a) (a_p a) in
  mk_ast (a_rv a) (a_th a) (a_rh a) (p_of o (a_p a) (a_rh a) (a_rv a) T) (a_ssp a) (a_rw2 a) T.
Definition ad_env (o : copts) lD lK (P : parts) (i : nat) (a : ast) : cenv :=
  {| c_rhod := a_rh a; c_rv := a_rv a; c_T := a_Tp a; c_eta := visc (a_Tp a); c_rd3 := p_rd3 P i; c_kpa := p_kpa P i; c_vt := p_vt P i;
     c_p := a_p a; c_RH := (let RH := RH_fun (o_RH o) (a_p a) (a_rv a) (a_Tp a) in if o_turb o then RH + a_ssp a else RH);
     c_RH_max := o_RH_max o; c_lambda_D := lD (p_ijk P i); c_lambda_K := lK (p_ijk P i) |}.

(** outcome of the search for the number of substeps *)
Record adres := mk_adres { r_a : ast; r_sstp : nat; r_done : bool; r_drw2 : R; r_frac : R }.
(** the search (135-178): [try] = current number of substeps, [fuel] bounds the number of doublings; try <= max is the loop condition *)
Fixpoint ad_search (o : copts) lD lK (P : parts) (d : tmps) (i : nat) (fuel try : nat) (r : adres) : adres :=
  match fuel with
  | O => r
  | S f =>
    if (try <=? o_sstp o)%nat then
      let frac := if (try =? 1)%nat then 1 else - 1 / INR try in
      let a1 := ad_calc o (ad_apply o d (p_dssp P i) i frac (r_a r)) in
      let new := advance_rw2 (o_k o) false (ad_env o lD lK P i a1) (o_dt o / INR try) (a_rw2 a1) in
      if (try =? 1)%nat then ad_search o lD lK P d i f (try * 2) (mk_adres a1 (r_sstp r) (r_done r) new frac)
      else if Rleb (Rabs (new * 2 - r_drw2 r)) (o_adapt_eps o * a_rw2 a1) && Rltb (Rabs (r_drw2 r)) (o_adapt_max o * a_rw2 a1)
      then mk_adres (ad_apply o d (p_dssp P i) i (- frac) a1) (try / 2) true (r_drw2 r) frac
      else ad_search o lD lK P d i f (try * 2) (mk_adres a1 (r_sstp r) (r_done r) new frac)
    else r
  end.
(** the rest of the first part (180-195): activation, return to the initial state *)
Definition ad_choose (o : copts) (P : parts) (d : tmps) (i : nat) (r : adres) : adres :=
  let w := a_rw2 (r_a r) in
  let w' := w + INR (r_sstp r) * r_drw2 r in
  let r1 := if (1 <? o_act o)%nat && ((Rltb w (p_rc2 P i) && Rltb (p_rc2 P i) w') || (Rltb (p_rc2 P i) w && Rltb w' (p_rc2 P i)))
            then mk_adres (r_a r) (o_act o) false (r_drw2 r) (r_frac r) else r in
  if r_done r1 then r1
  else mk_adres (ad_apply o d (p_dssp P i) i (if (o_sstp o =? 1)%nat then - r_frac r1 else r_frac r1) (r_a r1))
         (r_sstp r1) false (r_drw2 r1) (r_frac r1).
(** one substep of the second part (206-263); [s] substeps in total *)
Definition ad_substep (o : copts) lD lK (dv : R) (P : parts) (d : tmps) (i s : nat) (done : bool) (drw2 : R) (step : nat) (a : ast) : ast :=
  let a1 := if done && (step =? 0)%nat then mk_ast (a_rv a) (a_th a) (a_rh a) (a_p a) (a_ssp a) (a_rw2 a + drw2) (a_Tp a)
            else
              let b := ad_calc o (ad_apply o d (p_dssp P i) i (1 / INR s) a) in
              mk_ast (a_rv b) (a_th b) (a_rh b) (a_p b) (a_ssp b)
                (advance_rw2 (o_k o) true (ad_env o lD lK P i b) (o_dt o / INR s) (a_rw2 b)) (a_Tp b) in
  let drw3 := - rw2torw3 (a_rw2 a) + rw2torw3 (a_rw2 a1) in
  let drv := rw3diff2drv o (- drop_mlt) drw3 (n_real P i) (a_rh a1) dv in
  let rv' := a_rv a1 + drv in
  let dth := drv * d_th_d_rv (a_Tp a1) (a_th a1) in
  mk_ast rv' (a_th a1 + dth) (a_rh a1) (a_p a1) (a_ssp a1) (a_rw2 a1) (a_Tp a1).
Fixpoint ad_loop (o : copts) lD lK dv P d i s done drw2 (k : nat) (a : ast) : ast :=
  match k with
  | O => a
  | S k' => ad_substep o lD lK dv P d i s done drw2 k' (ad_loop o lD lK dv P d i s done drw2 k' a)
  end.
(** the functor (44-275).  The number of tries never exceeds sstp_cond_max, so that [fuel] is enough. *)
Definition ad_particle (o : copts) lD lK (dv : nat -> R) (P : parts) (S d : tmps) (i : nat) : ast * nat :=
  let a0 := mk_ast (t_rv S i) (t_th S i) (t_rh S i) (if o_const_p o then t_p S i else 0) (if o_turb o then p_ssp P i else 0) (p_rw2 P i) 0 in
  let r0 := mk_adres a0 (o_sstp o) (o_sstp o =? 1)%nat 0 0 in
  let r := ad_choose o P d i (ad_search o lD lK P d i (o_sstp o + 1) 1 r0) in
  (ad_loop o lD lK (dv (p_ijk P i)) P d i (r_sstp r) (r_done r) (r_drw2 r) (r_sstp r) (r_a r), r_sstp r).
Definition adaptive_pass (o : copts) lD lK dv (d : tmps) (PS : parts * tmps) : parts * tmps :=
  let (P, S) := PS in
  let f i := fst (ad_particle o lD lK dv P S d i) in
  (set_ssp (set_rw2 P (fun i => a_rw2 (f i))) (if o_turb o then fun i => a_ssp (f i) else p_ssp P),
   mk_tmps (fun i => a_rv (f i)) (fun i => a_th (f i)) (fun i => a_rh (f i)) (if o_const_p o then fun i => a_p (f i) else t_p S)).

(** ** the condensation part of step_cond (particles_step.ipp:188-272) *)
Definition use_perparticle (o : copts) : bool := o_exact o && ((1 <? o_sstp o)%nat || (1 <? o_act o)%nat).

Inductive cond_part (o : copts) (allow : bool) (g : junk) (sijk sid : list nat) : cst -> cst -> Prop :=
| cp_percell st :
    use_perparticle o = false ->
    let lD := mfp_D (s_E st) in let lK := mfp_K (s_E st) in
    cond_part o allow g sijk sid st
      (sstp_save o allow (l_st (percell_loop o g lD lK sijk sid (o_sstp o) (mk_pcst st (g_rw g) (g_ice g)))))
| cp_nomix st P S :
    use_perparticle o = true -> o_mix o = false ->
    let lD := mfp_D (s_E st) in let lK := mfp_K (s_E st) in
    (P, S) = (if o_adaptive o then adaptive_pass o lD lK (e_dv (s_E st)) (deltas o st) (s_P st, s_S st)
              else perparticle_loop o lD lK (e_dv (s_E st)) sijk sid (deltas o st) (o_sstp o) (s_P st, s_S st)) ->
    let drw := add_liq o sijk sid P (s_E st) (save_liq o sijk sid (s_P st) (s_E st) (g_drw g)) in
    let dice := add_ice o sijk sid P (s_E st) (save_ice o sijk sid (s_P st) (s_E st) (g_dice g)) in
    cond_part o allow g sijk sid st (sstp_save o allow (mk_cst P (update_th_rv o drw dice (s_E st)) S))
| cp_mix st P S rv' th' :
    use_perparticle o = true -> o_mix o = true ->
    let lD := mfp_D (s_E st) in let lK := mfp_K (s_E st) in
    (P, S) = (if o_adaptive o then adaptive_pass o lD lK (e_dv (s_E st)) (deltas o st) (s_P st, s_S st)
              else perparticle_loop o lD lK (e_dv (s_E st)) sijk sid (deltas o st) (o_sstp o) (s_P st, s_S st)) ->
    update_state P (t_rv S) (e_rv (s_E st)) rv' -> update_state P (t_th S) (e_th (s_E st)) th' ->
    cond_part o allow g sijk sid st (sstp_save o allow (mk_cst P (set_rvth (s_E st) rv' th') S)).

(** ** freezing and melting (ice/particles_impl_ice_nucl_melt.ipp) *)
(** attributes that change: rw2, a, c, rho_i *)
Definition iatt := (R * R * R * R)%type.
(** the body shared by singular_freeze (38-44) and time_dep_freeze (77-83) *)
Definition freeze (x : iatt) : iatt :=
  let '(rw2, a, c, rho) := x in
  let r := cpow rw2 (1 / 2) * cpow (rho_w / rho_i) (1 / 3) in (0, r, r, rho_i).
(** singular_freeze (19-46) *)
Definition singular_freeze (T_freeze T RH : R) (x : iatt) : iatt :=
  let '(rw2, a, c, rho) := x in if Rltb 0 rw2 && Rleb T T_freeze && Rleb 1 RH then freeze x else x.
(** ice_nucleation.hpp:66-115: p_freeze, mineral particles *)
Definition p_freeze (rd2_insol rw2 T dt : R) : R :=
  if Rltb 0 rd2_insol then
    let A := 4 * PI * rd2_insol in
    let d_aw := 1 - p_vsi T / p_vs T in
    1 - exp (- (Rpower 10 (- (135 / 100) + 2262 / 100 * d_aw) * 10000) * A * dt)
  else
    let V := 4 / 3 * PI * cpow rw2 (3 / 2) in
    let dT := T - 27315 / 100 in
    let x := - (3020684 / 1000) - 425921 / 1000 * dT - 259779 / 10000 * dT ^ 2 - 868451 / 1000000 * dT ^ 3
             - 166203 / 10000000 * dT ^ 4 - 171736 / 1000000000 * dT ^ 5 - 746953 / 1000000000000 * dT ^ 6 in
    1 - exp (- (Rpower 10 x * 1000000) * V * dt).
(** time_dep_freeze (48-85) *)
Definition time_dep_freeze (rd2_insol u01 T dt : R) (x : iatt) : iatt :=
  let '(rw2, a, c, rho) := x in if Rltb 0 rw2 && Rltb u01 (p_freeze rd2_insol rw2 T dt) then freeze x else x.
(** melt (87-111) *)
Definition melt (T : R) (x : iatt) : iatt :=
  let '(rw2, a, c, rho) := x in
  if Rltb 0 (a * c) && Rltb (27315 / 100) T
  then (cpow (rho_i / rho_w * c) (2 / 3) * cpow a (4 / 3), 0, 0, 0) else x.

(** third moment of wet radius of liquid particles: moms_eq0(ice_a); moms_calc(rw2, 1.5) *)
Definition liq_mom3 (o : copts) (sijk sid : list nat) (P : parts) (E : cells) : list (nat * R) :=
  moms_calc (negb (o_parcel o)) (e_dv E) (e_rhod E) sijk sid
    (fun i => eq0_filter (n_real P i) (p_ia P i)) (p_rw2 P) (3 / 2).
Record iopts := { i_time_dep : bool; i_T_freeze : nat -> R; i_rd2_insol : nat -> R; i_u01 : nat -> R }.
Definition ice_attr (P : parts) (i : nat) : iatt := (p_rw2 P i, p_ia P i, p_ic P i, p_irho P i).
Definition nucl_melt_one (o : copts) (io : iopts) (P : parts) (E : cells) (i : nat) : iatt :=
  let c := p_ijk P i in
  melt (e_T E c)
    (if i_time_dep io then time_dep_freeze (i_rd2_insol io i) (i_u01 io i) (e_T E c) (o_dt o) (ice_attr P i)
     else singular_freeze (i_T_freeze io i) (e_T E c) (e_RH E c) (ice_attr P i)).
(** ice_nucl_melt (115-226) and update_th_freezing (particles_impl_update_th_rv.ipp:191-231) *)
Definition ice_nucl_melt (o : copts) (io : iopts) (g : nat -> R) (sijk sid : list nat) (st : cst) : cst :=
  let P := s_P st in let E := s_E st in
  let f := nucl_melt_one o io P E in
  let m := liq_mom3 o sijk sid P E in
  let drw0 := scatter neg_store m (blank (e_nc E) m g) in
  let P' := set_ice (set_rw2 P (fun i => fst (fst (fst (f i))))) (fun i => snd (fst (fst (f i)))) (fun i => snd (fst (f i)))
              (fun i => snd (f i)) in
  let drw := scatter Rplus (liq_mom3 o sijk sid P' E) drw0 in
  let th c := e_th E c + drw c * drop_mlt * d_th_d_rw_freeze (e_T E c) (e_th E c) in
  mk_cst P' (set_rvth E (e_rv E) th) (s_S st).
