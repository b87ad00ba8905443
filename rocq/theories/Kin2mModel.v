(** * The kinematic model with double-moment bulk microphysics: models/kinematic_2D/src/kin_cloud_2d_blk_2m.hpp on top of kin_cloud_2d_common.hpp,
    with the settings of opts_blk_2m.hpp and icicle.cpp.
    The advection library (libmpdata++) is not in the repository.  Of it the following is used: with rhs_scheme = euler_b (icicle.cpp:86) a step is
    hook_ante_step, advection of all fields (an unknown function here), hook_post_step, and the library's own hook_post_step zeroes the
    tendencies, calls update_rhs and adds dt times the tendencies to the fields.  The ranks (threads) of the library are not modelled: one rank has the whole domain.
    Arithmetic is that of the real numbers. *)
From Coq Require Import List Arith ZArith Reals Bool.
From Verif Require Import Base Blk2mModel.
From Verif Require KinModel Kin1mModel.
Import ListNotations.
Local Open Scope R_scope.

(** the fields: G (the density of dry air, in [rhod]), th, rv, rc, nc, rr, nr at column i and level j; pres is not used *)
Definition grid2 := nat -> nat -> cell2.
Record run_params2 := { q_nx : nat; q_nz : nat; q_dt : R; q_dz : R; q_tau : R (* setup.tau_rlx *); q_z_rlx : R; q_opts : opts2; q_spinup : Z; q_relax : bool }.

(** opts_blk_2m.hpp:63-64: what the driver forces upon the options (the two modes of the aerosol are part of [q_opts] here) *)
Definition driver_opts2 (o : opts2) : opts2 :=
  {| b_acti := b_acti o; b_cond := b_cond o; b_acnv := b_acnv o; b_accr := b_accr o; b_sedi := b_sedi o; b_RH_max := b_RH_max o; b_A := b_A o; b_b := b_b o; b_c := b_c o;
     b_modes := b_modes o; b_th_dry := true; b_const_p := false |}.
(** the members acnv and RH_max of the options, which set_rain changes (kin_cloud_2d_blk_2m.hpp:97-101) *)
Definition with_micro (o : opts2) (m : KinModel.micro) : opts2 :=
  match m with
  | KinModel.Blk2m acnv rh =>
    {| b_acti := b_acti o; b_cond := b_cond o; b_acnv := acnv; b_accr := b_accr o; b_sedi := b_sedi o; b_RH_max := rh; b_A := b_A o; b_b := b_b o; b_c := b_c o;
       b_modes := b_modes o; b_th_dry := b_th_dry o; b_const_p := b_const_p o |}
  | _ => o
  end.

Section Driver.
  Variables (tgamma erfc erf : R -> R) (num_eps : R).

  (** kin_cloud_2d_common.hpp:81-116: relaxation terms; setup.tau_rlx * exp(j * dz / z_rlx) *)
  Definition common_rhs2 (P : run_params2) (relaxing : bool) (th_eq rv_eq : nat -> R) (g : grid2) : nat -> nat -> dots2 :=
    fun i j => if relaxing then
        {| dth := KinModel.relax_rhs (q_tau P) (q_z_rlx P) (INR j * q_dz P) (th_eq j) (th (g i j));
           drv := KinModel.relax_rhs (q_tau P) (q_z_rlx P) (INR j * q_dz P) (rv_eq j) (rv (g i j)); drc := 0; dnc := 0; drr := 0; dnr := 0 |}
      else {| dth := 0; drv := 0; drc := 0; dnc := 0; drr := 0; dnr := 0 |}.
  (** update_rhs (kin_cloud_2d_blk_2m.hpp:23-75): relaxation, cell-wise, then column by column; with the driver's options rhs_cellwise does not throw *)
  Definition update_rhs2 (P : run_params2) (o : opts2) (relaxing : bool) (th_eq rv_eq : nat -> R) (g : grid2) : nat -> nat -> dots2 :=
    let d0 := common_rhs2 P relaxing th_eq rv_eq g in
    let '(_, l) := rhs_cellwise2 tgamma erfc num_eps o (q_dt P) (Kin1mModel.flat (q_nx P) (q_nz P) (fun i j => (g i j, d0 i j))) in
    let d1 := fun i j => snd (Kin1mModel.unflat (q_nx P) (q_nz P) l (fun i j => (g i j, d0 i j)) i j) in
    fun i j => if (i <? q_nx P)%nat
      then
        let '(_, r, n) := rhs_columnwise2 tgamma erf num_eps o (q_nz P) (fun k => drr (d1 i k)) (fun k => dnr (d1 i k))
                            (fun k => rhod (g i k)) (fun k => rr (g i k)) (fun k => nr (g i k)) (q_dt P) (q_dz P) in
        {| dth := dth (d1 i j); drv := drv (d1 i j); drc := drc (d1 i j); dnc := dnc (d1 i j); drr := r j; dnr := n j |}
      else d1 i j.
  (** the library: state += dt * rhs *)
  Definition apply_rhs2 (dt : R) (d : nat -> nat -> dots2) (g : grid2) : grid2 := fun i j =>
    {| rhod := rhod (g i j); pres := pres (g i j); th := th (g i j) + dt * dth (d i j); rv := rv (g i j) + dt * drv (d i j);
       rc := rc (g i j) + dt * drc (d i j); nc := nc (g i j) + dt * dnc (d i j); rr := rr (g i j) + dt * drr (d i j); nr := nr (g i j) + dt * dnr (d i j) |}.

  (** the solver object *)
  Record world2 := { w2_g : grid2; w2_s : KinModel.solver; w2_th_eq : nat -> R; w2_rv_eq : nat -> R }.
  (** hook_ante_loop (kin_cloud_2d_blk_2m.hpp:17-21,83-92, kin_cloud_2d_common.hpp:33-51); th_eq and rv_eq are allocated, not set: [junk] *)
  Definition start_run2 (P : run_params2) (junk : nat -> R) (rhod0 th0 rv0 : nat -> nat -> R) (rc0 nc0 rr0 nr0 : option (nat -> nat -> R)) : world2 :=
    let fill (f : option (nat -> nat -> R)) i j := Kin1mModel.zero_if_uninitialised (option_map (fun f => f i j) f) in
    {| w2_g := fun i j => {| rhod := rhod0 i j; pres := 0; th := th0 i j; rv := rv0 i j; rc := fill rc0 i j; nc := fill nc0 i j; rr := fill rr0 i j; nr := fill nr0 i j |};
       w2_s := KinModel.hook_ante_loop (KinModel.fresh (KinModel.Blk2m (b_acnv (q_opts P)) (b_RH_max (q_opts P))) (q_spinup P) (q_relax P));
       w2_th_eq := junk; w2_rv_eq := junk |}.
  (** kin_cloud_2d_common.hpp:62-77: the mean over all columns *)
  Definition level_mean2 (P : run_params2) (f : cell2 -> R) (g : grid2) (j : nat) : R := sumR (q_nx P) (fun i => f (g i j)) / INR (q_nx P).
  (** one step with [timestep] = t and the given advection *)
  Definition step2 (P : run_params2) (advect : grid2 -> grid2) (t : nat) (w : world2) : world2 :=
    let s := KinModel.hook_ante_step (Z.of_nat t) (w2_s w) in
    let now := KinModel.relax (w2_s w) && (KinModel.spinup (w2_s w) =? Z.of_nat t)%Z in
    let th_eq := if now then level_mean2 P th (w2_g w) else w2_th_eq w in
    let rv_eq := if now then level_mean2 P rv (w2_g w) else w2_rv_eq w in
    let o := with_micro (driver_opts2 (q_opts P)) (KinModel.opts s) in
    let g := advect (w2_g w) in
    {| w2_g := apply_rhs2 (q_dt P) (update_rhs2 P o (KinModel.relaxing s) th_eq rv_eq g) g; w2_s := s; w2_th_eq := th_eq; w2_rv_eq := rv_eq |}.
  (** advance(nt) (icicle.cpp:77) *)
  Fixpoint steps2 (P : run_params2) (advect : nat -> grid2 -> grid2) (n : nat) (w : world2) : world2 :=
    match n with
    | O => w
    | S k => step2 P (advect k) k (steps2 P advect k w)
    end.
End Driver.
