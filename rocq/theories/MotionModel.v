(** Everything that moves super-droplets within step_async, and the terminal velocities:
    src/impl/advection/particles_impl_adve.ipp, particles_impl_turb_adve.ipp,
    src/impl/sedimentation/particles_impl_sedi.ipp, src/impl/subsidence/particles_impl_subs.ipp,
    src/impl/housekeeping/particles_impl_hskpng_vterm.ipp, src/particles_step.ipp.
    Real arithmetic replaces floating point. *)
From Coq Require Import List Arith NArith ZArith Reals Bool.
From Verif Require Import Base SpaceModel CoalModel.
Import ListNotations.
Local Open Scope R_scope.

(** as_t (include/libcloudph++/lgrngn/advection_scheme.hpp) *)
Inductive scheme := Euler | Implicit | PredCorr.

Record aopts := mk_aopts {
  a_dims : nat;                       (* n_dims *)
  a_nx : nat; a_ny : nat; a_nz : nat; (* opts_init.nx, ny, nz; zero in unused directions *)
  a_dx : R; a_dy : R; a_dz : R;
  a_y0 : R; a_y1 : R; a_z0 : R; a_z1 : R;
  a_cfg : scheme                      (* opts_init.adve_scheme *)
}.

(** halo_size, halo_x (particles_impl.ipp:361-366) *)
Definition halo_size (o : aopts) : nat := match a_cfg o with PredCorr => 2 | _ => 0 end.
Definition halo_x (o : aopts) : nat :=
  match a_dims o with
  | 1 => halo_size o
  | 2 => halo_size o * a_nz o
  | _ => halo_size o * a_nz o * a_ny o
  end.

(** position of a super-droplet, with the cell number and the i, j, k stored by the last hskpng_ijk *)
Record part := mk_part { px : R; py : R; pz : R; pijk : nat; pi : nat; pj : nat; pk : nat }.
(** hskpng_ijk (particles_impl_hskpng_ijk.ipp:159-201) *)
Definition re_index (o : aopts) (p : part) : part :=
  mk_part (px p) (py p) (pz p)
    (hskpng_ijk (a_dims o) (a_ny o) (a_nz o) (a_dx o) (a_dy o) (a_dz o) (px p) (py p) (pz p))
    (cell_coord (a_dx o) (px p)) (cell_coord (a_dy o) (py p)) (cell_coord (a_dz o) (pz p)).

(** adve_helper_impl (27-61) and adve_helper_expl (63-93); [d] is the cell size, [i] the stored cell coordinate *)
Definition adve_helper_impl (d : R) (apply : bool) (x : R) (i : nat) (C_l C_r : R) : R :=
  (x + d * (C_l - INR i * (C_r - C_l))) / (1 - (C_r - C_l)).
Definition adve_helper_expl (d : R) (apply : bool) (x : R) (i : nat) (C_l C_r : R) : R :=
  (if apply then 1 else 0) * x + (C_r - C_l) * (x - d * INR i) + d * C_l.

Section Adve.
  Variable o : aopts.
  Variables cx cy cz : nat -> R.   (* courant_x, courant_y, courant_z including the halo *)

  (** adve_calc (96-165) *)
  Definition adve_calc (h : R -> bool -> R -> nat -> R -> R -> R) (apply : bool) (offset : nat) (p : part) : part :=
    let c := (pijk p + offset)%nat in
    match a_dims o with
    | O => p
    | _ =>
      mk_part
        (h (a_dx o) apply (px p) (pi p) (cx (lft_ix c)) (cx (rgt_ix (a_dims o) (a_ny o) (a_nz o) c)))
        (if (2 <? a_dims o)%nat then
           h (a_dy o) apply (py p) (pj p) (cy (fre_ix (a_ny o) (a_nz o) c)) (cy (hnd_ix (a_ny o) (a_nz o) c))
         else py p)
        (if (1 <? a_dims o)%nat then
           h (a_dz o) apply (pz p) (pk p) (cz (blw_ix (a_dims o) (a_ny o) (a_nz o) c)) (cz (abv_ix (a_dims o) (a_ny o) (a_nz o) c))
         else pz p)
        (pijk p) (pi p) (pj p) (pk p)
    end.

  Definition with_pos (p : part) (x y z : R) : part := mk_part x y z (pijk p) (pi p) (pj p) (pk p).

  (** moving back into the domain in z after the predictor (212-224): two replace_if *)
  Definition z_back (z : R) : R :=
    let z' := if Rleb (a_z1 o) z then a_z1 o - 1 / 100000000 * a_dz o else z in
    if Rleb z' (a_z0 o) then a_z0 o + 1 / 100000000 * a_dz o else z'.
  (** adjusting y_old (229-244) *)
  Definition y_old_adjusted (y y_old : R) : R :=
    let y' := if Rleb (a_y1 o) y then y_old + (a_y1 o - a_y0 o) else y_old in
    if Rltb y (a_y0 o) then y' - (a_y1 o - a_y0 o) else y'.

  (** the predictor-corrector branch of adve (185-304) for one super-droplet *)
  Definition adve_pred_corr (p : part) : part :=
    let p1 := re_index o (with_pos p (px p + INR (halo_size o) * a_dx o) (py p) (pz p)) in
    let x_old := px p1 in let y_old := py p1 in let z_old := pz p1 in
    let p2 := adve_calc adve_helper_expl true 0 p1 in
    let z2 := if (1 <? a_dims o)%nat then z_back (pz p2) else pz p2 in
    let y_old2 := if (a_dims o =? 3)%nat then y_old_adjusted (py p2) y_old else y_old in
    let y2 := if (a_dims o =? 3)%nat then periodic (a_y0 o) (a_y1 o) (py p2) else py p2 in
    let p3 := re_index o (with_pos p2 (px p2) y2 z2) in
    let x_sum := px p3 + x_old in
    let y_sum := py p3 + y_old2 in
    let z_sum := pz p3 + z_old in
    let p4 := adve_calc adve_helper_expl false 0 p3 in
    with_pos p4
      ((px p4 + x_sum) / 2 - INR (halo_size o) * a_dx o)
      (if (2 <? a_dims o)%nat then (py p4 + y_sum) / 2 else py p4)
      (if (1 <? a_dims o)%nat then (pz p4 + z_sum) / 2 else pz p4).

  (** adve (168-304); [s] is the scheme of this step *)
  Definition adve (s : scheme) (p : part) : part :=
    match a_dims o with
    | O => p
    | _ =>
      match s with
      | Euler => adve_calc adve_helper_expl true (halo_x o) p
      | Implicit => adve_calc adve_helper_impl true (halo_x o) p
      | PredCorr => adve_pred_corr p
      end
    end.
End Adve.

(** turb_adve (particles_impl_turb_adve.ipp:14-36): x, z, y in this order, as many as there are dimensions *)
Definition turb_adve (dims : nat) (dt up vp wp : R) (p : part) : part :=
  with_pos p
    (if (1 <=? dims)%nat then px p + up * dt else px p)
    (if (3 <=? dims)%nat then py p + vp * dt else py p)
    (if (2 <=? dims)%nat then pz p + wp * dt else pz p).
(** sedi (particles_impl_sedi.ipp:13-24) *)
Definition sedi (dt vt : R) (p : part) : part := with_pos p (px p) (py p) (pz p - dt * vt).
(** subs (particles_impl_subs.ipp:12-25): the rate is looked up with the stored k *)
Definition subs (dt : R) (w_LS : nat -> R) (p : part) : part := with_pos p (px p) (py p) (pz p - dt * w_LS (pk p)).

(** the part of step_async that moves particles (particles_step.ipp:428-447) for one super-droplet with fall
    speed [vt] and turbulent velocity (up, vp, wp) *)
Record mopts := mk_mopts { m_adve : bool; m_turb : bool; m_sedi : bool; m_subs : bool }.
Definition move (o : aopts) (cx cy cz : nat -> R) (s : scheme) (m : mopts) (dt : R) (w_LS : nat -> R)
    (up vp wp vt : R) (p : part) : part :=
  let p1 := if m_adve m then adve o cx cy cz s p else p in
  let p2 := if m_turb m then turb_adve (a_dims o) dt up vp wp p1 else p1 in
  let p3 := if m_sedi m then sedi dt vt p2 else p2 in
  if m_subs m then subs dt w_LS p3 else p3.

(** ** terminal velocity *)
Definition set_vt (s : sd) (v : R) : sd :=
  mk_sd (n s) (rw2 s) (rd3 s) v (kpa s) (chem s) (ict s) (rc2 s) (pos s).

(** get_vt0_bin (hskpng_vterm.ipp:17-36) *)
Definition get_vt0_bin (ln_r_min ln_r_max : R) (n_bin : nat) (rw2 : R) : nat :=
  let lnr := / 2 * ln rw2 in
  if Rleb lnr ln_r_min then 0%nat
  else if Rleb ln_r_max lnr then (n_bin - 1)%nat
  else Z.to_nat (truncZ ((lnr - ln_r_min) / ((ln_r_max - ln_r_min) / INR n_bin))).

(** vt_t (include/libcloudph++/lgrngn/terminal_velocity.hpp) *)
Inductive vt_eq := Beard76 | Beard77 | Beard77fast | Khvorostyanov_spherical | Khvorostyanov_nonspherical.

Section Vterm.
  Variable eq : vt_eq.
  Variable ice_switch : bool.
  (** formulae of include/libcloudph++/common/vterm.hpp as functions of radius and of the cell
      (temperature, pressure, density, viscosity): vt_beard76, vt_khvorostyanov *)
  Variables beard76 khvorostyanov_s khvorostyanov_n : nat -> R -> R.
  Variable beard77_fact : nat -> R -> R.
  Variable beard77_v0 : R -> R.
  (** table of sea-level velocities and its range (init_vterm; config.vt0_ln_r_min, max, vt0_n_bin) *)
  Variable vt_0 : nat -> R.
  Variables ln_r_min ln_r_max : R.
  Variable n_bin : nat.
  Variable rho_i_over_rho_w : R.
  (** cell and ice equatorial radius of each super-droplet *)
  Variable ijk : nat -> nat.
  Variable ice_a : nat -> R.

  (** common__vterm__vt (37-96) and common__vterm__vt__cached (98-129) *)
  Definition vt_liquid (cell : nat) (w : R) : R :=
    match eq with
    | Beard76 => beard76 cell (sqrt w)
    | Beard77 => beard77_fact cell (sqrt w) * beard77_v0 (sqrt w)
    | Beard77fast => beard77_fact cell (sqrt w) * vt_0 (get_vt0_bin ln_r_min ln_r_max n_bin w)
    | Khvorostyanov_spherical => khvorostyanov_s cell (sqrt w)
    | Khvorostyanov_nonspherical => khvorostyanov_n cell (sqrt w)
    end.
  (** common__vterm__ice (131-157) *)
  Definition vt_ice (cell : nat) (a : R) : R := beard76 cell a * rho_i_over_rho_w.

  (** hskpng_vterm_invalid (184-262): liquid first, then ice (whose predicate sees the updated vt; it concerns other
      super-droplets) *)
  Definition vterm_invalid_liq (id : nat) (s : sd) : sd :=
    if Reqb (vt s) invalid && Rltb 0 (rw2 s) then set_vt s (vt_liquid (ijk id) (rw2 s)) else s.
  Definition vterm_invalid_ice (id : nat) (s : sd) : sd :=
    if ice_switch then
      if Reqb (vt s) invalid && Reqb (rw2 s) 0 then set_vt s (vt_ice (ijk id) (ice_a id)) else s
    else s.
  Definition hskpng_vterm_invalid (sds : nat -> sd) : nat -> sd :=
    fun id => vterm_invalid_ice id (vterm_invalid_liq id (sds id)).

  (** hskpng_vterm_all (264-342) *)
  Definition vterm_all_liq (id : nat) (s : sd) : sd :=
    if Rltb 0 (rw2 s) then set_vt s (vt_liquid (ijk id) (rw2 s)) else s.
  Definition vterm_all_ice (id : nat) (s : sd) : sd :=
    if ice_switch then if Reqb (rw2 s) 0 then set_vt s (vt_ice (ijk id) (ice_a id)) else s else s.
  Definition hskpng_vterm_all (sds : nat -> sd) : nat -> sd :=
    fun id => vterm_all_ice id (vterm_all_liq id (sds id)).

  (** the coalescence loop of step_async (particles_step.ipp:382-393); [pass k] is the k-th call of coal, a relation
      because the order of execution and the sorting are not determined *)
  Variable pass : nat -> (nat -> sd) -> (nat -> sd) -> Prop.
  Variable sstp_coal : nat.
  Inductive coal_loop : nat -> (nat -> sd) -> (nat -> sd) -> Prop :=
  | loop_done sds : coal_loop sstp_coal sds sds
  | loop_step step sds sds1 sds2 : (step < sstp_coal)%nat -> pass step sds sds1 ->
      coal_loop (S step) (if (step + 1 =? sstp_coal)%nat then sds1 else hskpng_vterm_invalid sds1) sds2 ->
      coal_loop step sds sds2.
  (** terminal velocities and coalescence in step_async (particles_step.ipp:377-393) *)
  Definition vterm_and_coal (coal_on sedi_on cond_on : bool) (sds sds' : nat -> sd) : Prop :=
    let sds0 := if sedi_on || coal_on || cond_on then hskpng_vterm_all sds else sds in
    if coal_on then coal_loop 0 sds0 sds' else sds' = sds0.
End Vterm.
