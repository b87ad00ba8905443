(** The 2D kinematic model that comes with the library (models/kinematic_2D): the flow it prescribes, the Courant numbers it hands to the particles, and the
    order in which it drives the particles (with the asynchronous step run in a background thread) and switches rain on after the spin-up.
    The advection library (libmpdata++) is not in the repository: of it only the numbering of faces, the counting of timesteps and the order of hooks are used. *)
From Coq Require Import Reals ZArith List Bool.
From Verif Require Import Base ThermoModel LognormModel.
Import ListNotations.
Local Open Scope R_scope.

(** ** The flow (cases/icmw8_case1.hpp) *)
(** setup_t (27-57): the fields that define flow and density *)
Record setup := { th_0 : R; rv_0 : R; p_0 : R; w_max : R; z_0 : R; Z_dom : R; X_dom : R; dt_s : R }.
(** psi (84-88); sin_pi and cos_pi as sin and cos of pi times their argument *)
Definition psi (xX zZ : R) : R := - sin (PI * zZ) * cos (PI * (2 * xX)).
(** rhod (118-134) *)
Definition rhod (s : setup) (z : R) : R := std_rhod (hydro_p z (th_0 s) (rv_0 s) (z_0 s) (p_0 s)) (th_0 s) (rv_0 s).
(** setopts (163-169) and intcond (183-185): spacing of the grid *)
Definition dx (s : setup) (nx : Z) : R := X_dom s / (IZR nx - 1).
Definition dz (s : setup) (nz : Z) : R := Z_dom s / (IZR nz - 1).
(** intcond, A (186) *)
Definition amp (s : setup) (nx : Z) : R := w_max s * (IZR nx - 1) * dx s nx / PI / 2.
(** intcond, advector(x) (196-204); entry (i, j) belongs to the face between points i and i + 1 of row j *)
Definition adv_x (s : setup) (nx nz i j : Z) : R :=
  - amp s nx *
  (psi ((IZR i + /2) / (IZR nx - 1)) ((IZR j + /2) / (IZR nz - 1)) - psi ((IZR i + /2) / (IZR nx - 1)) ((IZR j - /2) / (IZR nz - 1))) / dz s nz
  * dt_s s / dx s nx.
(** intcond, advector(z) (206-214); entry (i, j) belongs to the face between points j and j + 1 of column i *)
Definition adv_z (s : setup) (nx nz i j : Z) : R :=
  amp s nx *
  (psi ((IZR i + /2) / (IZR nx - 1)) ((IZR j + /2) / (IZR nz - 1)) - psi ((IZR i - /2) / (IZR nx - 1)) ((IZR j + /2) / (IZR nz - 1))) / dx s nx
  * dt_s s / dz s nz.
(** kin_cloud_2d_lgrngn::hook_ante_loop (kin_cloud_2d_lgrngn.hpp:178-196; same in kin_cloud_2d_lgrngn_chem.hpp:160-177): the fields, of which the first entry is
    the face left of (below) the first point, divided by density at multiples of the member [dj] *)
Definition cour_x (s : setup) (dj : R) (nx nz i j : Z) : R := adv_x s nx nz (i - 1) j / rhod s (IZR j * dj).
Definition cour_z (s : setup) (dj : R) (nx nz i j : Z) : R := adv_z s nx nz i (j - 1) / rhod s ((IZR j - /2) * dj).
(** the region of the particles (kin_cloud_2d_lgrngn.hpp:159-166) *)
Definition part_x0 (s : setup) (nx : Z) : R := dx s nx / 2.
Definition part_z0 (s : setup) (nz : Z) : R := dz s nz / 2.
Definition part_x1 (s : setup) (nx : Z) : R := (IZR nx - /2) * dx s nx.
Definition part_z1 (s : setup) (nz : Z) : R := (IZR nz - /2) * dz s nz.

(** ** Driving the particles (kin_cloud_2d_lgrngn.hpp) *)
Inductive backend := Serial | OpenMP | CUDA | MultiCUDA.
(** what the main thread does, in terms of the future [ftr] and the particles object *)
Inductive instr :=
| Reset            (* prtcls.reset(factory(...)): the former object is destroyed, if any *)
| Init             (* prtcls->init *)
| Diag             (* diag(): calls of diag_* and outbuf *)
| Sync             (* prtcls->step_sync *)
| Async            (* prtcls->step_async in the main thread *)
| Launch           (* ftr = std::async(std::launch::async, step_async, ...) *)
| AssertValid      (* assert(ftr.valid()) *)
| AssertInvalid    (* assert(!ftr.valid()) *)
| Get.             (* ftr.get() *)

(** hook_ante_loop (155-212), rank 0: async dropped without a GPU (155-156) *)
Definition async_used (chem : bool) (b : backend) (async : bool) : bool :=
  match b with
  | CUDA => async
  | MultiCUDA => if chem then false (* kin_cloud_2d_lgrngn_chem.hpp:138 *) else async
  | _ => false
  end.
Definition ante_loop : list instr := [Reset; Init; Diag].
(** hook_post_step (220-298; chem: kin_cloud_2d_lgrngn_chem.hpp:233-319), rank 0, with [timestep] = t; int division truncates *)
Definition post_step (async : bool) (outfreq t : Z) : list instr :=
  (if async && negb (t =? 0)%Z && negb (Z.rem (t - 1) outfreq =? 0)%Z then [AssertValid; Get] else [AssertInvalid]) ++
  [Sync] ++
  (if async then [AssertInvalid; Launch; AssertValid] else [Async]) ++
  (if (Z.rem t outfreq =? 0)%Z then (if async then [AssertValid; Get] else []) ++ [Diag] else []).
(** advance (icicle.cpp:77): hook_ante_loop, then nt steps; [t] is the value of timestep in the first hook_post_step *)
Fixpoint steps (async : bool) (outfreq t : Z) (nt : nat) : list instr :=
  match nt with O => [] | S k => post_step async outfreq t ++ steps async outfreq (t + 1) k end.
Definition advance (async : bool) (outfreq t : Z) (nt : nat) : list instr := ante_loop ++ steps async outfreq t nt.

(** what the particles object goes through *)
Inductive event := EInit | EDiag | ESync | EAsyncBegin | EAsyncEnd.
(** the state of the two threads: what is left for the main thread, whether the future is valid, whether the background thread is still in step_async,
    whether something went wrong (a failed assertion, or use of the object while the background thread works on it), and the history of the object *)
Record run := { code : list instr; valid : bool; busy : bool; bad : bool; log : list event }.
Definition call (es : list event) (k : list instr) (r : run) : run :=
  {| code := k; valid := valid r; busy := busy r; bad := bad r || busy r; log := log r ++ es |}.
Inductive step : run -> run -> Prop :=
| s_reset r k : code r = Reset :: k -> step r (call [] k r)
| s_init r k : code r = Init :: k -> step r (call [EInit] k r)
| s_diag r k : code r = Diag :: k -> step r (call [EDiag] k r)
| s_sync r k : code r = Sync :: k -> step r (call [ESync] k r)
| s_async r k : code r = Async :: k -> step r (call [EAsyncBegin; EAsyncEnd] k r)
| s_launch r k : code r = Launch :: k -> step r {| code := k; valid := true; busy := true; bad := bad r || busy r; log := log r ++ [EAsyncBegin] |}
| s_valid r k : code r = AssertValid :: k -> step r {| code := k; valid := valid r; busy := busy r; bad := bad r || negb (valid r); log := log r |}
| s_invalid r k : code r = AssertInvalid :: k -> step r {| code := k; valid := valid r; busy := busy r; bad := bad r || valid r; log := log r |}
(* get() waits for the background thread *)
| s_get r k : code r = Get :: k -> busy r = false -> step r {| code := k; valid := false; busy := false; bad := bad r || negb (valid r); log := log r |}
(* the background thread may finish at any moment *)
| s_end r : busy r = true -> step r {| code := code r; valid := valid r; busy := false; bad := bad r; log := log r ++ [EAsyncEnd] |}.
Inductive runs : run -> run -> Prop :=
| runs_refl r : runs r r
| runs_step r1 r2 r3 : step r1 r2 -> runs r2 r3 -> runs r1 r3.
Definition start (c : list instr) : run := {| code := c; valid := false; busy := false; bad := false; log := [] |}.

(** ** Spin-up and relaxation (kin_cloud_2d_common.hpp) *)
(** the options that the spin-up changes, for the three kinds of microphysics *)
Inductive micro := Lgrngn (coal sedi : bool) (RH_max : R) | Blk1m (conv : bool) | Blk2m (acnv : bool) (RH_max : R).
(** get_rain (kin_cloud_2d_lgrngn.hpp:118, blk_1m.hpp:46, blk_2m.hpp:96) *)
Definition get_rain (m : micro) : bool :=
  match m with Lgrngn c s _ => c && s | Blk1m v => v | Blk2m a _ => a end.
(** set_rain (kin_cloud_2d_lgrngn.hpp:119-124, blk_1m.hpp:47, blk_2m.hpp:97-101); [saved] are the members coal and sedi *)
Definition set_rain (saved : bool * bool) (v : bool) (m : micro) : micro :=
  match m with
  | Lgrngn _ _ _ => Lgrngn (if v then fst saved else false) (if v then snd saved else false) (if v then 44 else 101 / 100)
  | Blk1m _ => Blk1m v
  | Blk2m _ _ => Blk2m v (if v then 44 else 101 / 100)
  end.
(** the solver: options, members coal and sedi, spinup, relax_th_rv, and the timestep at which the targets th_eq and rv_eq were taken, if they were *)
Record solver := { opts : micro; saved : bool * bool; spinup : Z; relax : bool; target : option Z }.
(** constructors: the members start from the parameters; th_eq and rv_eq are allocated, not set (kin_cloud_2d_common.hpp:127-142) *)
Definition fresh (m : micro) (spin : Z) (rlx : bool) : solver := {| opts := m; saved := (false, false); spinup := spin; relax := rlx; target := None |}.
(** hook_ante_loop (kin_cloud_2d_lgrngn.hpp:129-132 and kin_cloud_2d_common.hpp:35-44) *)
Definition hook_ante_loop (s : solver) : solver :=
  let sv := match opts s with Lgrngn c d _ => (c, d) | _ => saved s end in
  let off := negb (get_rain (opts s)) in
  let spin := if off then 0%Z else spinup s in
  let rlx := if off then false else relax s in
  {| opts := if (0 <? spin)%Z then set_rain sv false (opts s) else opts s; saved := sv; spinup := spin; relax := rlx; target := target s |}.
(** hook_ante_step (kin_cloud_2d_common.hpp:53-79) with [timestep] = t *)
Definition hook_ante_step (t : Z) (s : solver) : solver :=
  {| opts := if negb (spinup s =? 0)%Z && (spinup s =? t)%Z then set_rain (saved s) true (opts s) else opts s;
     saved := saved s; spinup := spinup s; relax := relax s;
     target := if relax s && (spinup s =? t)%Z then Some t else target s |}.
(** update_rhs (kin_cloud_2d_common.hpp:92): whether the relaxation terms are added *)
Definition relaxing (s : solver) : bool := relax s && get_rain (opts s).
(** the solver in its k-th step (from 0), i.e. after the hooks before that step *)
Fixpoint solver_at (s : solver) (k : nat) : solver :=
  match k with O => hook_ante_step 0 s | S k' => hook_ante_step (Z.of_nat k) (solver_at s k') end.
(** the relaxation terms (kin_cloud_2d_common.hpp:97-113) at height z, towards [eq] *)
Definition relax_rhs (tau_rlx z_rlx z eq v : R) : R := (eq - v) / (tau_rlx * exp (z / z_rlx)).
