(** Whole time steps of the Lagrangian scheme on one device: what step_sync (sync_in, step_cond) and step_async do with the super-droplets,
    the fields in cells and the accumulated puddle, in the order of src/particles_step.ipp, for runs without chemistry.  The parts are the
    models of the processes (CondPassModel, CoalModel, SpaceModel, RcycModel); parts whose result does not matter for the budgets (fall
    speeds, velocities, positions, critical radii, turbulent perturbations, attributes of new super-droplets) are over-approximated: any
    result is allowed.  *)
From Coq Require Import List Arith NArith ZArith Reals Bool.
From Verif Require Import Base HskpngModel MomsProofs MomsModel CondPassModel CoalModel SpaceModel RcycModel.
Import ListNotations.
Local Open Scope R_scope.

(** the state between the parts of a step: super-droplets, fields in cells, substepping temporaries, positions, in-cloud time, puddle *)
Record world := mk_world {
  w_P : parts; w_E : cells; w_S : tmps; w_x : nat -> R; w_y : nat -> R; w_z : nat -> R; w_ict : nat -> R; w_pud : puddle }.

(** what does not change during a run (opts_init, grid) *)
Record setup := mk_setup {
  f_b : bopts; f_nx : nat; f_ny : nat; f_nz : nat; f_dx : R; f_dy : R; f_dz : R; f_ice : bool; f_exact : bool;
  f_co : CoalModel.copts; f_max : nat }.
Definition f_parcel (F : setup) : bool := (n_dims (f_b F) =? 0)%nat.
(** options of a step (opts) *)
Record sopts := mk_sopts {
  so_c : CondPassModel.copts; so_allow : bool; so_io : iopts;
  so_nucl : bool; so_cond : bool; so_coal : bool; so_sstp_coal : nat; so_rcyc : bool }.

Definition cst_of (W : world) : CondPassModel.cst := CondPassModel.mk_cst (w_P W) (w_E W) (w_S W).
Definition with_cst (W : world) (st : CondPassModel.cst) : world :=
  mk_world (s_P st) (s_E st) (s_S st) (w_x W) (w_y W) (w_z W) (w_ict W) (w_pud W).
Definition with_P (W : world) (P : parts) : world :=
  mk_world P (w_E W) (w_S W) (w_x W) (w_y W) (w_z W) (w_ict W) (w_pud W).
Definition with_E (W : world) (E : cells) : world :=
  mk_world (w_P W) E (w_S W) (w_x W) (w_y W) (w_z W) (w_ict W) (w_pud W).
Definition with_pos (W : world) (x y z : nat -> R) : world :=
  mk_world (w_P W) (w_E W) (w_S W) x y z (w_ict W) (w_pud W).
Definition set_vt (P : parts) (v : nat -> R) : parts :=
  mk_parts (p_np P) (p_ijk P) (p_n P) (p_rw2 P) (p_rd3 P) (p_kpa P) v (p_ia P) (p_ic P) (p_irho P) (p_ssp P) (p_dssp P) (p_rc2 P).
Definition set_rc2 (P : parts) (v : nat -> R) : parts :=
  mk_parts (p_np P) (p_ijk P) (p_n P) (p_rw2 P) (p_rd3 P) (p_kpa P) (p_vt P) (p_ia P) (p_ic P) (p_irho P) (p_ssp P) (p_dssp P) v.
Definition set_turb (P : parts) (s d : nat -> R) : parts :=
  mk_parts (p_np P) (p_ijk P) (p_n P) (p_rw2 P) (p_rd3 P) (p_kpa P) (p_vt P) (p_ia P) (p_ic P) (p_irho P) s d (p_rc2 P).
Definition set_mult (P : parts) (n : nat -> N) : parts :=
  mk_parts (p_np P) (p_ijk P) n (p_rw2 P) (p_rd3 P) (p_kpa P) (p_vt P) (p_ia P) (p_ic P) (p_irho P) (p_ssp P) (p_dssp P) (p_rc2 P).
Definition sorted (W : world) (sijk sid : list nat) : Prop := sorted_pop (p_np (w_P W)) (p_ijk (w_P W)) sijk sid.

(** ** step_sync *)
(** sync_in (particles_step.ipp:31-154): the host model sets rv, th and, if passed, rhod *)
Definition sync_in (so : sopts) (W W' : world) : Prop :=
  exists rv th rhod : nat -> R,
    (o_var_rho (so_c so) = false -> rhod = e_rhod (w_E W)) /\
    (forall c, (c < e_nc (w_E W))%nat -> 0 < rhod c) /\
    let E := w_E W in
    W' = with_E W (mk_cells (e_nc E) rv th rhod (e_p E) (e_T E) (e_RH E) (e_RHi E) (e_eta E) (e_dv E)).
(** ice nucleation and melting (particles_step.ipp:183-185) *)
Definition nucl (F : setup) (so : sopts) (W W' : world) : Prop :=
  if f_ice F && so_nucl so then
    exists g sijk sid, sorted W sijk sid /\ W' = with_cst W (ice_nucl_melt (so_c so) (so_io so) g sijk sid (cst_of W))
  else W' = W.
(** condensation (particles_step.ipp:188-272) *)
Definition cond (so : sopts) (W W' : world) : Prop :=
  if so_cond so then
    exists g sijk sid st', sorted W sijk sid /\ cond_part (so_c so) (so_allow so) g sijk sid (cst_of W) st' /\ W' = with_cst W st'
  else W' = W.

(** ** step_async *)
(** hskpng_Tpr and hskpng_vterm_all (particles_step.ipp:373-377) *)
Definition prepare (so : sopts) (W W' : world) : Prop :=
  exists vt, W' = with_P (with_E W (hskpng_Tpr (so_c so) (w_E W))) (set_vt (w_P W) vt).

(** the attributes as seen by coalescence, and back *)
Definition sd_of (W : world) (i : nat) : sd :=
  let P := w_P W in
  mk_sd (p_n P i) (p_rw2 P i) (p_rd3 P i) (p_vt P i) (p_kpa P i) (fun _ => 0) (w_ict W i) (p_rc2 P i) (w_x W i, w_y W i, w_z W i).
Definition with_sds (W : world) (a : nat -> sd) : world :=
  let P := w_P W in
  mk_world
    (mk_parts (p_np P) (p_ijk P) (fun i => CoalModel.n (a i)) (fun i => CoalModel.rw2 (a i)) (fun i => CoalModel.rd3 (a i))
       (fun i => CoalModel.kpa (a i)) (fun i => CoalModel.vt (a i)) (p_ia P) (p_ic P) (p_irho P) (p_ssp P) (p_dssp P)
       (fun i => CoalModel.rc2 (a i)))
    (w_E W) (w_S W) (w_x W) (w_y W) (w_z W) (fun i => CoalModel.ict (a i)) (w_pud W).
(** one pass (particles_step.ipp:384-388, CoalModel.coal), with a kernel and a time step that are not negative; then fall speeds are
    updated (389-390) *)
Definition coal_pass (F : setup) (W W' : world) : Prop :=
  exists kernel dt gn gr sijk sid sched u01 st vt,
    let ijk := map (p_ijk (w_P W)) (seq 0 (p_np (w_P W))) in
    (forall c a b, 0 <= kernel c a b) /\ 0 <= dt /\
    (forall k, Permutation.Permutation (sched k) (seq 0 (length ijk - 1))) /\
    sort_helper true ijk sijk sid /\
    coal kernel dt (e_dv (w_E W)) (f_co F) (e_nc (w_E W)) gn gr sid sijk (length ijk) sched u01 (sd_of W) = Some st /\
    W' = with_P (with_sds W (arr st)) (set_vt (w_P (with_sds W (arr st))) vt).
Fixpoint coal_passes (F : setup) (k : nat) (W W' : world) : Prop :=
  match k with O => W' = W | S k => exists V, coal_pass F W V /\ coal_passes F k V W' end.
(** coalescence (particles_step.ipp:380-403): the passes and the update of critical radii *)
Definition coalescence (F : setup) (so : sopts) (W W' : world) : Prop :=
  if so_coal so then exists V rc2, coal_passes F (so_sstp_coal so) W V /\ W' = with_P V (set_rc2 (w_P V) rc2) else W' = W.

(** turbulent perturbations, advection, sedimentation, subsidence (particles_step.ipp:405-449): new positions; in the direction of
    decreasing coordinates no farther than ten lengths of the domain from its edge (cf. C08) *)
Definition near (F : setup) (x y z : R) : Prop :=
  let o := f_b F in
  x0 o - 10 * (x1 o - x0 o) <= x /\ y0 o - 10 * (y1 o - y0 o) <= y /\ z0 o - 10 * (z1 o - z0 o) <= z.
Definition motion (F : setup) (W W' : world) : Prop :=
  exists ssp dssp x y z,
    (forall i, (i < p_np (w_P W))%nat -> near F (x i) (y i) (z i)) /\
    W' = with_pos (with_P W (set_turb (w_P W) ssp dssp)) x y z.

(** sources and relaxation (particles_step.ipp:451-484): super-droplets are appended, the multiplicity of existing ones may be increased;
    their other attributes do not change.  At most n_sd_max super-droplets (hskpng_resize_npart throws) *)
Definition sources (F : setup) (W W' : world) : Prop :=
  let P := w_P W in let P' := w_P W' in
  (p_np P <= p_np P' <= f_max F)%nat /\ w_E W' = w_E W /\ w_pud W' = w_pud W /\
  (forall i, (i < p_np P)%nat ->
     (p_n P i <= p_n P' i < 2 ^ 64)%N /\ p_rw2 P' i = p_rw2 P i /\ p_rd3 P' i = p_rd3 P i /\
     p_ia P' i = p_ia P i /\ p_ic P' i = p_ic P i /\ p_irho P' i = p_irho P i /\
     w_x W' i = w_x W i /\ w_y W' i = w_y W i /\ w_z W' i = w_z W i) /\
  (forall i, (p_np P <= i)%nat ->
     (p_n P' i < 2 ^ 64)%N /\ 0 <= p_rw2 P' i /\ 0 <= p_rd3 P' i /\ p_ia P' i = 0 /\ p_ic P' i = 0 /\ p_irho P' i = 0 /\
     near F (w_x W' i) (w_y W' i) (w_z W' i)) /\
  (forall i, (i < p_np P)%nat -> p_kpa P' i = p_kpa P i).

(** boundary conditions (particles_step.ipp:487, SpaceModel.bcnd) *)
Definition bsd_of (W : world) (i : nat) : bsd :=
  let P := w_P W in
  mk_bsd (p_n P i) (w_x W i) (w_y W i) (w_z W i) (p_rw2 P i) (p_rd3 P i) (p_ia P i) (p_ic P i) (p_irho P i) (fun _ => 0).
Definition walls (F : setup) (W : world) : world :=
  let np := p_np (w_P W) in
  let l := fst (bcnd (f_b F) (map (bsd_of W) (seq 0 np)) (w_pud W)) in
  let at_ i := nth i (fst l) (bsd_of W i) in
  mk_world (set_mult (w_P W) (fun i => b_n (at_ i))) (w_E W) (w_S W) (fun i => b_x (at_ i)) (fun i => b_y (at_ i)) (fun i => b_z (at_ i))
    (w_ict W) (snd l).

(** the vectors of distmem_real_vctrs (src/impl/particles_impl.ipp:440-491).  Vectors that are registered only with some option are not
    used without it and are carried along here; the substepping temporaries are indexed by super-droplet, and registered, only with
    exact_sstp_cond.  up, vp, wp, rd2_insol and T_freeze are not part of the state. *)
Definition n_vec (F : setup) : nat := if f_exact F then 18%nat else 14%nat.
Definition vec_of (W : world) (v : nat) : nat -> R :=
  let P := w_P W in
  match v with
  | 0 => p_rd3 P | 1 => p_rw2 P | 2 => p_kpa P | 3 => p_vt P | 4 => w_x W | 5 => w_y W | 6 => w_z W
  | 7 => p_ssp P | 8 => p_dssp P | 9 => w_ict W | 10 => p_ia P | 11 => p_ic P | 12 => p_irho P | 13 => p_rc2 P
  | 14 => t_rv (w_S W) | 15 => t_th (w_S W) | 16 => t_rh (w_S W) | _ => t_p (w_S W)
  end%nat.
Definition pop_of (W : world) : pop := mk_pop (p_np (w_P W)) (p_n (w_P W)) (vec_of W) (fun _ => 0).
(** back from these vectors, which end at n_part, with new cell numbers from the positions (hskpng_ijk) *)
Definition with_pop (F : setup) (W : world) (p : pop) : world :=
  let cut f i := if (i <? np p)%nat then f i else 0 in
  let o := f_b F in
  mk_world
    (mk_parts (np p) (fun i => hskpng_ijk (n_dims o) (f_ny F) (f_nz F) (f_dx F) (f_dy F) (f_dz F) (vec p 4 i) (vec p 5 i) (vec p 6 i))
       (fun i => if (i <? np p)%nat then mult p i else 0%N) (cut (vec p 1)) (cut (vec p 0)) (cut (vec p 2)) (cut (vec p 3)) (cut (vec p 10)) (cut (vec p 11)) (cut (vec p 12))
       (cut (vec p 7)) (cut (vec p 8)) (cut (vec p 13)))
    (w_E W) (mk_tmps (vec p 14) (vec p 15) (vec p 16) (vec p 17)) (vec p 4) (vec p 5) (vec p 6) (cut (vec p 9)) (w_pud W).
(** post_copy (particles_impl_post_copy.ipp:17-33) *)
Definition tidy (F : setup) (so : sopts) (W W' : world) : Prop :=
  exists gar garn tmp sid sched p',
    sort_by_key_result (map (fun i => N.to_nat (p_n (w_P W) i)) (seq 0 (p_np (w_P W)))) (seq 0 (p_np (w_P W))) tmp sid /\
    (forall l m, Permutation.Permutation (sched l m) (seq 0 m)) /\
    clean_up gar garn (f_max F) (n_vec F) 0 (CoalModel.pure_const_multi (f_co F)) tmp sid sched (so_rcyc so) (pop_of W) = Some p' /\
    W' = with_pop F W p'.

(** ** a time step: step_sync, then step_async.  The intermediate states are: after sync_in, before sources, after them *)
Record step_states := mk_ss { at_start : world; at_synced : world; at_moved : world; at_added : world; at_end : world }.
Definition step (F : setup) (so : sopts) (s : step_states) : Prop :=
  exists W2 W3 W4 W5,
    sync_in so (at_start s) (at_synced s) /\ nucl F so (at_synced s) W2 /\ cond so W2 W3 /\
    prepare so W3 W4 /\ coalescence F so W4 W5 /\ motion F W5 (at_moved s) /\
    sources F (at_moved s) (at_added s) /\ tidy F so (walls F (at_added s)) (at_end s).
(** a run: a sequence of steps, each starting where the previous one ended *)
Inductive run (F : setup) : world -> list (sopts * step_states) -> world -> Prop :=
| run_nil W : run F W [] W
| run_cons so s l W' : step F so s -> run F (at_end s) l W' -> run F (at_start s) ((so, s) :: l) W'.
