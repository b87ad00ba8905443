(** Whole time steps on one device in runs with chemistry: step_sync (sync_in, step_cond) and step_async in the order of
    src/particles_step.ipp.  Chemistry, coalescence, boundary conditions, recycling, removal and re-indexing are the models of these
    processes (ChemModel, CoalModel, SpaceModel, RcycModel).  What the other processes do that does not matter for amounts of chemical
    compounds is over-approximated: any result is allowed.  With chemistry there are neither sources nor relaxation nor MPI
    (init_sanity_check.ipp:57, 131, 142), nor more than one GPU (particles_multi_gpu_impl.ipp:46). *)
From Coq Require Import List Arith NArith ZArith Reals Bool.
From Verif Require Import Base HskpngModel MomsProofs ChemModel ChemHistory CoalModel SpaceModel RcycModel StepModel.
Import ListNotations.
Local Open Scope R_scope.

(** the state between the parts of a step: super-droplets and fields (chst: numbers, cells, multiplicities, sizes, masses of compounds,
    gases, density, volume, temperature), positions, puddle *)
Record kworld := mk_kw { k_h : chst; k_x : nat -> R; k_y : nat -> R; k_z : nat -> R; k_pud : puddle }.
Definition with_h (W : kworld) (h : chst) : kworld := mk_kw h (k_x W) (k_y W) (k_z W) (k_pud W).

(** options of a step (opts): those of chemistry (with dt and the number of substeps), coalescence, recycling *)
Record ksopts := mk_kso { ko_chem : chopts; ko_coal : bool; ko_sstp_coal : nat; ko_rcyc : bool }.

(** everything in step_sync before chemistry: sync_in of the gases (particles_step.ipp:146-155) and of density (122-144), condensation
    with its updates of temperature (188-272).  Volumes change only in a parcel (hskpng_Tpr). *)
Definition before (F : setup) (W W' : kworld) : Prop :=
  exists host rw2 rhod dv T,
    (forall c, 0 < rhod c /\ 0 < dv c) /\ (f_parcel F = false -> dv = h_dv (k_h W)) /\
    let h := gas_sync_in host (k_h W) in
    W' = with_h W (mk_chst (h_np h) (h_ijk h) (h_n h) rw2 (h_rd3 h) (h_m h) (h_amb h) (h_tmp h) rhod dv T).

(** chemistry (particles_step.ipp:272-308) and, in step_async, the saving of the gases (365-372); [sorts]: outcomes of hskpng_sort in
    the substeps *)
Definition chemistry (so : ksopts) (sorts : nat -> list nat * list nat) (W W' : kworld) : Prop :=
  exists h, chem_step (ko_chem so) sorts (k_h W) = Some h /\
            W' = with_h W (gas_async (ho_allow (ko_chem so)) (ho_dsl (ko_chem so)) h).

(** the attributes as seen by coalescence, and back; fall speeds, hygroscopicities, in-cloud times and critical radii are any *)
Definition ksd_of (W : kworld) (vt kpa ict rc2 : nat -> R) (i : nat) : sd :=
  let h := k_h W in
  mk_sd (h_n h i) (h_rw2 h i) (h_rd3 h i) (vt i) (kpa i) (fun k => h_m h k i) (ict i) (rc2 i) (k_x W i, k_y W i, k_z W i).
Definition with_ksds (W : kworld) (a : nat -> sd) : kworld :=
  let h := k_h W in
  with_h W (mk_chst (h_np h) (h_ijk h) (fun i => CoalModel.n (a i)) (fun i => CoalModel.rw2 (a i)) (fun i => CoalModel.rd3 (a i))
              (fun k i => CoalModel.chem (a i) k) (h_amb h) (h_tmp h) (h_rhod h) (h_dv h) (h_T h)).
(** one pass of coalescence (particles_step.ipp:384-388, CoalModel.coal), with a kernel and a time step that are not negative *)
Definition kcoal_pass (F : setup) (W W' : kworld) : Prop :=
  exists kernel dt gn gr sijk sid sched u01 st vt kpa ict rc2,
    let ijk := map (h_ijk (k_h W)) (seq 0 (h_np (k_h W))) in
    (forall c a b, 0 <= kernel c a b) /\ 0 <= dt /\
    (forall k, Permutation.Permutation (sched k) (seq 0 (length ijk - 1))) /\
    sort_helper true ijk sijk sid /\
    coal kernel dt (h_dv (k_h W)) (f_co F) (m1 (f_nx F) * m1 (f_ny F) * m1 (f_nz F)) gn gr sid sijk (length ijk) sched u01
      (ksd_of W vt kpa ict rc2) = Some st /\
    W' = with_ksds W (arr st).
Fixpoint kcoal_passes (F : setup) (k : nat) (W W' : kworld) : Prop :=
  match k with O => W' = W | S k => exists V, kcoal_pass F W V /\ kcoal_passes F k V W' end.
Definition kcoalescence (F : setup) (so : ksopts) (W W' : kworld) : Prop :=
  if ko_coal so then kcoal_passes F (ko_sstp_coal so) W W' else W' = W.

(** advection, sedimentation, subsidence, turbulence (particles_step.ipp:405-449): new positions, as in StepModel.motion *)
Definition kmotion (F : setup) (W W' : kworld) : Prop :=
  exists x y z, (forall i, (i < h_np (k_h W))%nat -> near F (x i) (y i) (z i)) /\ W' = mk_kw (k_h W) x y z (k_pud W).

(** boundary conditions (particles_step.ipp:487, SpaceModel.bcnd) *)
Definition kbsd_of (W : kworld) (i : nat) : bsd :=
  let h := k_h W in mk_bsd (h_n h i) (k_x W i) (k_y W i) (k_z W i) (h_rw2 h i) (h_rd3 h i) 0 0 0 (fun k => h_m h k i).
Definition set_n (h : chst) (n : nat -> N) : chst :=
  mk_chst (h_np h) (h_ijk h) n (h_rw2 h) (h_rd3 h) (h_m h) (h_amb h) (h_tmp h) (h_rhod h) (h_dv h) (h_T h).
Definition kwalls (F : setup) (W : kworld) : kworld :=
  let l := fst (bcnd (f_b F) (map (kbsd_of W) (seq 0 (h_np (k_h W)))) (k_pud W)) in
  let at_ i := nth i (fst l) (kbsd_of W i) in
  mk_kw (set_n (k_h W) (fun i => b_n (at_ i))) (fun i => b_x (at_ i)) (fun i => b_y (at_ i)) (fun i => b_z (at_ i)) (snd l).

(** post_copy (particles_impl_post_copy.ipp:17-33): recycling, removal, new cell numbers.  Real vectors as in StepModel.vec_of (those that
    are not part of this state are any), then the eight blocks of compounds (particles_impl_init_chem.ipp), each as long as there are
    super-droplets. *)
Definition kpop_of (W : kworld) (other : nat -> nat -> R) : pop :=
  let h := k_h W in
  mk_pop (h_np h) (h_n h)
    (fun v => match v with 0 => h_rd3 h | 1 => h_rw2 h | 4 => k_x W | 5 => k_y W | 6 => k_z W | _ => other v end%nat)
    (fun j => h_m h (j / h_np h) (j mod h_np h)).
Definition with_kpop (F : setup) (W : kworld) (p : pop) : kworld :=
  let cut f i := if (i <? np p)%nat then f i else 0 in
  let h := k_h W in
  mk_kw (mk_chst (np p)
           (fun i => hskpng_ijk (n_dims (f_b F)) (f_ny F) (f_nz F) (f_dx F) (f_dy F) (f_dz F) (vec p 4 i) (vec p 5 i) (vec p 6 i))
           (fun i => if (i <? np p)%nat then mult p i else 0%N) (cut (vec p 1%nat)) (cut (vec p 0%nat))
           (fun k => cut (fun i => chem_vec p (k * np p + i)%nat)) (h_amb h) (h_tmp h) (h_rhod h) (h_dv h) (h_T h))
    (vec p 4%nat) (vec p 5%nat) (vec p 6%nat) (k_pud W).
Definition ktidy (F : setup) (so : ksopts) (W W' : kworld) : Prop :=
  exists other gar garn tmp sid sched p',
    sort_by_key_result (map (fun i => N.to_nat (h_n (k_h W) i)) (seq 0 (h_np (k_h W)))) (seq 0 (h_np (k_h W))) tmp sid /\
    (forall l m, Permutation.Permutation (sched l m) (seq 0 m)) /\
    clean_up gar garn (f_max F) (n_vec F) chem_all (CoalModel.pure_const_multi (f_co F)) tmp sid sched (ko_rcyc so) (kpop_of W other) = Some p' /\
    W' = with_kpop F W p'.

(** ** a time step; the intermediate states are: before chemistry, before the boundary conditions *)
Record kstep_states := mk_kss {
  ka_start : kworld; ka_ready : kworld; ka_sorts : nat -> list nat * list nat; ka_moved : kworld; ka_end : kworld }.
Definition kstep (F : setup) (so : ksopts) (s : kstep_states) : Prop :=
  exists W1 W2,
    before F (ka_start s) (ka_ready s) /\ chemistry so (ka_sorts s) (ka_ready s) W1 /\ kcoalescence F so W1 W2 /\
    kmotion F W2 (ka_moved s) /\ ktidy F so (kwalls F (ka_moved s)) (ka_end s).
(** a run: a sequence of steps, each starting where the previous one ended *)
Inductive krun (F : setup) : kworld -> list (ksopts * kstep_states) -> kworld -> Prop :=
| krun_nil W : krun F W [] W
| krun_cons so s l W' : kstep F so s -> krun F (ka_end s) l W' -> krun F (ka_start s) ((so, s) :: l) W'.
