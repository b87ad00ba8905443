(** Whole runs of the kinematic model with super-droplets (models/kinematic_2D): from the command line to the calls of the library.
    opts_lgrngn.hpp, kin_cloud_2d_lgrngn.hpp, kin_cloud_2d_lgrngn_chem.hpp, icicle.cpp, src/lib.cpp; the library itself as in ProtoModel and KernelModel,
    the spin-up as in KinModel. Diagnostics are not calls of this model; the multi_CUDA backend is left out. *)
From Coq Require Import String List Arith NArith ZArith Reals Bool.
From Verif Require Import Base ProtoModel.
From Verif Require KinModel KernelModel.
Import ListNotations.
Local Open Scope R_scope.

(** the command line: icicle.cpp:98-107 and opts_lgrngn.hpp:235-264, values after defaults were filled in *)
Record cmd := {
  lgrngn_chem : bool;                                 (* --micro=lgrngn_chem rather than --micro=lgrngn *)
  g_nx : Z; g_nz : Z; g_nt : nat; g_spinup : Z; g_relax : bool;
  backend : string; g_sd_conc : N;
  adve : bool; sedi : bool; cond : bool; coal : bool; rcyc : bool;
  chem_dsl : bool; chem_dsc : bool; chem_rct : bool; chem_switch : bool;
  g_sstp_cond : Z; g_sstp_coal : Z; g_sstp_chem : Z;
  kernel : string; terminal_velocity : string; adve_scheme : string
}.
(** what was compiled: CUDA_FOUND, _OPENMP (src/lib.cpp:15-38), USE_MPI; and whether assertions are on (no NDEBUG) *)
Record build := { with_CUDA : bool; with_OpenMP : bool; with_MPI : bool; asserts : bool }.

Local Open Scope string_scope.
(** the backend (opts_lgrngn.hpp:270-273); None: rt_params.backend stays -1 (kin_cloud_2d_lgrngn.hpp:301) *)
Definition backend_of (c : cmd) : option KinModel.backend :=
  if backend c =? "CUDA" then Some KinModel.CUDA
  else if backend c =? "OpenMP" then Some KinModel.OpenMP
  else if backend c =? "serial" then Some KinModel.Serial
  else if backend c =? "multi_CUDA" then Some KinModel.MultiCUDA
  else None.
(** factory (src/lib.cpp:12-40): whether it returns an object; multi_CUDA as not compiled *)
Definition factory (b : build) (k : option KinModel.backend) : bool :=
  match k with
  | Some KinModel.MultiCUDA => false
  | Some KinModel.CUDA => with_CUDA b
  | Some KinModel.OpenMP => with_OpenMP b
  | Some KinModel.Serial => true
  | None => false
  end.
(** the kernel and its parameters (opts_lgrngn.hpp:340-390); None: kernel_t::undefined without parameters *)
Definition kernel_of (c : cmd) : option (KernelModel.kernel_name * list R) :=
  let k := kernel c in
  if k =? "geometric" then Some (KernelModel.Geometric, [5 / 10])
  else if k =? "long" then Some (KernelModel.Long, [])
  else if k =? "hall" then Some (KernelModel.Hall, [])
  else if k =? "hall_davis_no_waals" then Some (KernelModel.HallDavis, [])
  else if k =? "golovin" then Some (KernelModel.Golovin, [1])
  else if k =? "onishi_hall" then Some (KernelModel.OnishiHall, [1 / 100; 100])
  else if k =? "onishi_hall_davis_no_waals" then Some (KernelModel.OnishiHallDavis, [1 / 100; 100])
  else if k =? "vohl_davis_no_waals" then Some (KernelModel.VohlDavis, [])
  else if k =? "hall_pinsky_cumulonimbus" then Some (KernelModel.HallPinskyCb, [])
  else if k =? "hall_pinsky_stratocumulus" then Some (KernelModel.HallPinskySc, [])
  else None.
(** the formula for terminal velocity (opts_lgrngn.hpp:393-416): whether it is one *)
Definition vt_known (c : cmd) : bool :=
  existsb (fun v => terminal_velocity c =? v) ["khvorostyanov_spherical"; "khvorostyanov_nonspherical"; "beard76"; "beard77"; "beard77fast"].
(** the advection scheme (opts_lgrngn.hpp:325-337); any other name leaves as_t::implicit (opts_init.hpp) *)
Inductive scheme := Implicit | Euler | PredCorr.
Definition scheme_of (c : cmd) : scheme :=
  if adve_scheme c =? "implicit" then Implicit else if adve_scheme c =? "euler" then Euler
  else if adve_scheme c =? "pred_corr" then PredCorr else Implicit.
Definition scheme_known (c : cmd) : bool := existsb (fun v => adve_scheme c =? v) ["implicit"; "euler"; "pred_corr"].
Local Close Scope string_scope.

(** opts_init handed to the library: the defaults of opts_init_t (opts_init.hpp:194-248) changed by opts_lgrngn.hpp:275-416 and by hook_ante_loop
    (kin_cloud_2d_lgrngn.hpp:161-170, kin_cloud_2d_lgrngn_chem.hpp:143-152); coal_switch and sedi_switch keep their defaults, true *)
Definition opts_init_of (b : build) (s : KinModel.setup) (c : cmd) : oinit :=
  {| nx := Z.to_nat (g_nx c); ny := 0; nz := Z.to_nat (g_nz c);
     dx := KinModel.dx s (g_nx c); dy := 1; dz := KinModel.dz s (g_nz c);
     x0 := KinModel.part_x0 s (g_nx c); x1 := KinModel.part_x1 s (g_nx c); y0 := 0; y1 := 1;
     z0 := KinModel.part_z0 s (g_nz c); z1 := KinModel.part_z1 s (g_nz c);
     dt0 := KinModel.dt_s s; sstp_cond0 := g_sstp_cond c; sstp_coal0 := g_sstp_coal c; sstp_chem0 := g_sstp_chem c; sstp_cond_act0 := 1;
     variable_dt := false;
     sd_conc := g_sd_conc c; sd_const_multi := 0; large_tail := false;
     n_dry_distros := 1; n_dry_sizes := 0;
     vt_undefined := negb (vt_known c); kernel_undefined := match kernel_of c with Some _ => false | None => true end;
     chem_sw := chem_switch c; coal_sw := true; sedi_sw := true; subs_sw := false; rlx_sw := false;
     turb_adve_sw := false; turb_cond_sw := false; turb_coal_sw := false; ice_sw := false;
     exact_sstp := false; sstp_mix := true; adaptive_sstp := false;
     n_w_LS := 0; SGS_mix_len := []; n_conc_factor := 0; indep_rhod := false;
     const_p := false; diag_incloud := false;
     src_type := src_off; src_x0 := 0; src_x1 := 0;
     rlx_bins := 0; rlx_sd_per_bin := 0; rlx_timescale := 1; supstp_rlx := 1;
     pred_corr := match scheme_of c with PredCorr => true | _ => false end; multi_spawn := false; mpi_build := with_MPI b |}.

(** arguments of init (kin_cloud_2d_lgrngn.hpp:198-206, chem: 206-215) and of step_sync (242-246, chem: 264-274); [big]: some x Courant number of the flow
    is outside [-2,2] *)
Definition gases (c : cmd) : nat := if lgrngn_chem c then 6 else 0.
Definition init_args (big : bool) (c : cmd) : args := mk_args true true true false true false true false (gases c) big.
Definition sync_args (c : cmd) : args := mk_args true true false false false false false false (gases c) false.

(** the solver with its spin-up (see KinModel) in step k *)
Definition solver_of (c : cmd) : KinModel.solver := KinModel.hook_ante_loop (KinModel.fresh (KinModel.Lgrngn (coal c) (sedi c) 44) (g_spinup c) (g_relax c)).
(** set_chem of the driver with chemistry (kin_cloud_2d_lgrngn_chem.hpp:89-99): set_rain(true), called by hook_ante_step (kin_cloud_2d_common.hpp:53-60),
    also sets chem_rct; set_rain(false) does not change it *)
Definition set_chem (c : cmd) (v rct : bool) : bool := if lgrngn_chem c then (if v && chem_switch c then v else rct) else rct.
Definition ends_spinup (c : cmd) (t : Z) : bool := let sp := KinModel.spinup (solver_of c) in negb (sp =? 0)%Z && (sp =? t)%Z.
Fixpoint rct_at (c : cmd) (k : nat) : bool :=
  let before := match k with O => set_chem c false (chem_rct c) (* hook_ante_loop *) | S k' => rct_at c k' end in
  if ends_spinup c (Z.of_nat k) then set_chem c true before else before.
(** opts of step k: opts_lgrngn.hpp:304-313, the rest by default (opts.hpp:42-49) *)
Definition opts_at (c : cmd) (k : nat) : opts :=
  let '(cl, sd) := match KinModel.opts (KinModel.solver_at (solver_of c) k) with KinModel.Lgrngn cl sd _ => (cl, sd) | _ => (false, false) end in
  {| o_adve := adve c; o_sedi := sd; o_subs := false; o_cond := cond c; o_coal := cl; o_src := false; o_rlx := false; o_rcyc := rcyc c;
     o_turb_adve := false; o_turb_cond := false; o_turb_coal := false; o_ice_nucl := false;
     o_chem_dsl := chem_dsl c; o_chem_dsc := chem_dsc c; o_chem_rct := rct_at c k; o_dt := -1 |}.

(** hook_ante_loop and then hook_post_step of every step; [raised k]: see ProtoModel.step_async *)
Definition step_calls (c : cmd) (raised : nat -> bool) (k : nat) : list call :=
  [StepSync (sync_args c) (opts_at c k); StepAsync (opts_at c k) (raised k)].
Definition calls_of (big : bool) (c : cmd) (raised : nat -> bool) : list call :=
  Init (init_args big c) :: flat_map (step_calls c raised) (seq 0 (g_nt c)).

(** init of the library: after the checks of ProtoModel.init, and after super-droplets were created, init_kernel may throw
    (particles_init.ipp:110, with coal_switch) *)
Definition kernel_fine (c : cmd) (o : oinit) (table : KernelModel.kernel_name -> list R) : bool :=
  negb (coal_sw o) ||
  match kernel_of c with
  | Some (k, ps) => match KernelModel.init_kernel k (turb_coal_sw o) ps table with Some _ => true | None => false end
  | None => true (* the switch of init_kernel has no case for it *)
  end.
Definition returns (o : oinit) (fine : bool) (x : call) (s : obj) : bool :=
  snd (exec o x s) && match x with Init _ => fine | _ => true end.
(** one call after another, up to the first that throws (n: how many returned before) *)
Fixpoint make (o : oinit) (fine : bool) (l : list call) (s : obj) (n : nat) : obj * option nat :=
  match l with
  | [] => (s, None)
  | x :: r => if returns o fine x s then make o fine r (fst (exec o x s)) (S n) else (fst (exec o x s), Some n)
  end.

(** the program *)
Inductive outcome :=
| Aborted               (* by an assertion, before init *)
| NoObject              (* factory threw *)
| Thrown (n : nat)      (* the call of this number threw; 0 is init *)
| Finished.
(** assertions: opts_lgrngn.hpp:336, 389, 415; kin_cloud_2d_lgrngn.hpp:155-156; with chemistry kin_cloud_2d_lgrngn_chem.hpp:137-138, 179 (evaluated after factory) *)
Definition run_program (b : build) (s : KinModel.setup) (table : KernelModel.kernel_name -> list R) (big : bool) (c : cmd) (raised : nat -> bool) : outcome :=
  if asserts b && negb (scheme_known c && vt_known c && match kernel_of c with Some _ => true | None => false end) then Aborted
  else if asserts b && (match backend_of c with None => true | _ => false end || Reqb (KinModel.dt_s s) 0) then Aborted
  else if negb (factory b (backend_of c)) then NoObject
  else if asserts b && lgrngn_chem c && negb (chem_switch c) then Aborted
  else
    let o := opts_init_of b s c in
    match snd (make o (kernel_fine c o table) (calls_of big c raised) (ProtoModel.fresh o) 0) with Some n => Thrown n | None => Finished end.
