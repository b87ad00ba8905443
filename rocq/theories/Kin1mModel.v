(** * The kinematic model with single-moment bulk microphysics: models/kinematic_2D/src/kin_cloud_2d_blk_1m.hpp on top of kin_cloud_2d_common.hpp,
    with the settings of opts_blk_1m.hpp and icicle.cpp.
    The advection library (libmpdata++) is not in the repository.  Of it the following is used: with rhs_scheme = euler_b (icicle.cpp:86) a step is
    hook_ante_step, advection of all fields (an unknown function here), hook_post_step, and the library's own hook_post_step zeroes the
    tendencies, calls update_rhs and adds dt times the tendencies to the fields.  The ranks (threads) of the library are not modelled: one rank has the whole domain.
    Arithmetic is that of the real numbers. *)
From Coq Require Import List Arith ZArith Reals Bool.
From Verif Require Import Base Blk1mModel.
From Verif Require KinModel.
Import ListNotations.
Local Open Scope R_scope.

(** the fields: G (the density of dry air, in [rhod]), th, rv, rc, rr at column i and level j; the other members of [cell] are not used *)
Definition grid := nat -> nat -> cell.
Record run_params := { p_nx : nat; p_nz : nat; p_dt : R; p_dz : R; p_tau : R (* setup.tau_rlx *); p_z_rlx : R; p_opts : opts; p_spinup : Z; p_relax : bool }.

(** opts_blk_1m.hpp:61-63: what the driver forces upon the options *)
Definition driver_opts (o : opts) : opts :=
  {| o_cond := o_cond o; o_cevp := o_cevp o; o_revp := o_revp o; o_conv := o_conv o; o_accr := o_accr o; o_sedi := o_sedi o;
     o_homA1 := o_homA1 o; o_homA2 := o_homA2 o; o_hetA := o_hetA o; o_hetB := o_hetB o; o_depA := o_depA o; o_depB := o_depB o;
     o_rimA := o_rimA o; o_rimB := o_rimB o; o_melA := o_melA o; o_melB := o_melB o; o_r_c0 := o_r_c0 o; o_k_acnv := o_k_acnv o; o_r_eps := o_r_eps o;
     o_adj_nwtrph := false; o_nwtrph_iters := o_nwtrph_iters o; o_th_dry := true; o_const_p := false |}.
(** set_rain (kin_cloud_2d_blk_1m.hpp:46) *)
Definition with_conv (o : opts) (v : bool) : opts :=
  {| o_cond := o_cond o; o_cevp := o_cevp o; o_revp := o_revp o; o_conv := v; o_accr := o_accr o; o_sedi := o_sedi o;
     o_homA1 := o_homA1 o; o_homA2 := o_homA2 o; o_hetA := o_hetA o; o_hetB := o_hetB o; o_depA := o_depA o; o_depB := o_depB o;
     o_rimA := o_rimA o; o_rimB := o_rimB o; o_melA := o_melA o; o_melB := o_melB o; o_r_c0 := o_r_c0 o; o_k_acnv := o_k_acnv o; o_r_eps := o_r_eps o;
     o_adj_nwtrph := o_adj_nwtrph o; o_nwtrph_iters := o_nwtrph_iters o; o_th_dry := o_th_dry o; o_const_p := o_const_p o |}.

(** the arrays in memory order, and back *)
Definition flat {A} (nx nz : nat) (g : nat -> nat -> A) : list A := map (fun k => g (k / nz)%nat (k mod nz)%nat) (seq 0 (nx * nz)).
Definition unflat {A} (nx nz : nat) (l : list A) (g : nat -> nat -> A) : nat -> nat -> A :=
  fun i j => if ((i <? nx) && (j <? nz))%nat%bool then nth (i * nz + j) l (g i j) else g i j.

(** condevap (kin_cloud_2d_blk_1m.hpp:21-35); the pressure argument is an empty array, which the scheme does not read here (const_p is off).
    None if the adjustment does not end or throws *)
Definition condevap (fuel : nat) (P : run_params) (o : opts) (g : grid) : option grid :=
  match adj_cellwise fuel o (p_dt P) (flat (p_nx P) (p_nz P) g) with
  | Ok l => Some (unflat (p_nx P) (p_nz P) l g)
  | _ => None
  end.

Definition no_rhs : dots := {| dth := 0; drv := 0; drc := 0; drr := 0; dria := 0; drib := 0 |}.
(** kin_cloud_2d_common.hpp:81-116: relaxation terms; setup.tau_rlx * exp(j * dz / z_rlx) *)
Definition common_rhs (P : run_params) (relaxing : bool) (th_eq rv_eq : nat -> R) (g : grid) : nat -> nat -> dots :=
  fun i j => if relaxing then
      {| dth := KinModel.relax_rhs (p_tau P) (p_z_rlx P) (INR j * p_dz P) (th_eq j) (th (g i j));
         drv := KinModel.relax_rhs (p_tau P) (p_z_rlx P) (INR j * p_dz P) (rv_eq j) (rv (g i j)); drc := 0; drr := 0; dria := 0; drib := 0 |}
    else no_rhs.
Definition set_drr (d : dots) (v : R) : dots := {| dth := dth d; drv := drv d; drc := drc d; drr := v; dria := dria d; drib := drib d |}.
(** update_rhs (kin_cloud_2d_blk_1m.hpp:62-90): relaxation, cell-wise, then column by column; rhs_cellwise cannot throw *)
Definition update_rhs (P : run_params) (o : opts) (relaxing : bool) (th_eq rv_eq : nat -> R) (g : grid) : nat -> nat -> dots :=
  let d0 := common_rhs P relaxing th_eq rv_eq g in
  let d1 := match rhs_cellwise o (flat (p_nx P) (p_nz P) (fun i j => (g i j, d0 i j))) with
            | Ok l => fun i j => snd (unflat (p_nx P) (p_nz P) l (fun i j => (g i j, d0 i j)) i j)
            | _ => d0 end in
  fun i j => if (i <? p_nx P)%nat
    then set_drr (d1 i j) (snd (rhs_columnwise o (p_nz P) (fun k => drr (d1 i k)) (fun k => rhod (g i k)) (fun k => rr (g i k)) (p_dz P)) j)
    else d1 i j.
(** the library: state += dt * rhs *)
Definition apply_rhs (dt : R) (d : nat -> nat -> dots) (g : grid) : grid := fun i j =>
  {| rhod := rhod (g i j); pres := pres (g i j); th := th (g i j) + dt * dth (d i j); rv := rv (g i j) + dt * drv (d i j);
     rc := rc (g i j) + dt * drc (d i j); rr := rr (g i j) + dt * drr (d i j); ria := ria (g i j); rib := rib (g i j) |}.

(** the solver object *)
Record world := { w_g : grid; w_s : KinModel.solver; w_th_eq : nat -> R; w_rv_eq : nat -> R }.
(** kin_cloud_2d_blk_1m.hpp:37-41, for an array given or left uninitialised (filled with NaN by the library) *)
Definition zero_if_uninitialised (x : option R) : R := match x with Some v => v | None => 0 end.
Definition get_conv (s : KinModel.solver) : bool := KinModel.get_rain (KinModel.opts s).
(** hook_ante_loop (kin_cloud_2d_blk_1m.hpp:49-59, kin_cloud_2d_common.hpp:33-51); th_eq and rv_eq are allocated, not set: [junk] *)
Definition start_run (fuel : nat) (P : run_params) (junk : nat -> R) (rhod0 th0 rv0 : nat -> nat -> R) (rc0 rr0 : option (nat -> nat -> R)) : option world :=
  let g := fun i j => {| rhod := rhod0 i j; pres := 0; th := th0 i j; rv := rv0 i j;
      rc := zero_if_uninitialised (option_map (fun f => f i j) rc0); rr := zero_if_uninitialised (option_map (fun f => f i j) rr0); ria := 0; rib := 0 |} in
  match condevap fuel P (driver_opts (p_opts P)) g with
  | Some g' => Some {| w_g := g'; w_s := KinModel.hook_ante_loop (KinModel.fresh (KinModel.Blk1m (o_conv (p_opts P))) (p_spinup P) (p_relax P));
                       w_th_eq := junk; w_rv_eq := junk |}
  | None => None
  end.
(** kin_cloud_2d_common.hpp:62-77: the mean over all columns *)
Definition level_mean (P : run_params) (f : cell -> R) (g : grid) (j : nat) : R := sumR (p_nx P) (fun i => f (g i j)) / INR (p_nx P).
(** one step with [timestep] = t and the given advection *)
Definition step (fuel : nat) (P : run_params) (advect : grid -> grid) (t : nat) (w : world) : option world :=
  let s := KinModel.hook_ante_step (Z.of_nat t) (w_s w) in
  let now := KinModel.relax (w_s w) && (KinModel.spinup (w_s w) =? Z.of_nat t)%Z in
  let th_eq := if now then level_mean P th (w_g w) else w_th_eq w in
  let rv_eq := if now then level_mean P rv (w_g w) else w_rv_eq w in
  let o := with_conv (driver_opts (p_opts P)) (get_conv s) in
  match condevap fuel P o (advect (w_g w)) with
  | Some g => Some {| w_g := apply_rhs (p_dt P) (update_rhs P o (KinModel.relaxing s) th_eq rv_eq g) g; w_s := s; w_th_eq := th_eq; w_rv_eq := rv_eq |}
  | None => None
  end.
(** advance(nt) (icicle.cpp:77) *)
Fixpoint steps (fuel : nat) (P : run_params) (advect : nat -> grid -> grid) (n : nat) (w : world) : option world :=
  match n with
  | O => Some w
  | S k => match steps fuel P advect k w with Some w' => step fuel P (advect k) k w' | None => None end
  end.
