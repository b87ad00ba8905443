(** What super-droplets remember between timesteps for condensation: the critical radius (rc2, used to give
    more substeps to those that activate) and the air seen at the previous condensation (sstp_tmp_rv, _th, _rh, _p, used
    in per-particle substepping).
    src/particles_init.ipp:60-135, src/particles_step.ipp:155-500, src/impl/housekeeping/particles_impl_hskpng_rc2.ipp,
    particles_impl_hskpng_resize.ipp, src/impl/condensation/common/sstp_save.ipp, src/impl/particles_impl_adjust_timesteps.ipp,
    src/impl/sources_and_relaxation_of_SDs/particles_impl_src.ipp, particles_impl_rlx.ipp.
    Simplification: everything that has no access to these attributes (what condensation makes of radii, temperature and
    humidity, what the host model does, motion, oxidation, the size of new super-droplets) is an arbitrary
    input of an event.  The population is that of all processes together, so that sending super-droplets to another
    process is a renumbering. *)
From Coq Require Import List Arith NArith ZArith Reals Bool.
From Verif Require Import Base CoalModel TomsModel KoehlerModel.
Import ListNotations.
Local Open Scope R_scope.

(** humidity, temperature, density, pressure *)
Definition air := (R * R * R * R)%type.
(** thrust vectors are value-initialised by resize(n_part) (particles_impl_hskpng_resize.ipp:17-18) *)
Definition blank_air : air := (0, 0, 0, 0).

(** settings from opts_init: sstp_cond, sstp_cond_act, exact_sstp_cond, const_p, dt, rc2_T; the rest is used by coalescence;
    prec: the floating-point format given to the root finder *)
Record mopts := { o_sstp_cond : nat; o_sstp_act : nat; o_exact_sstp : bool; o_isobaric : bool; o_dt0 : R; o_rc2_T : R;
  o_distros : nat; o_chem_on : bool; o_diag_ict : bool; o_prec : fptype }.
(** allow_sstp_cond (particles_impl.ipp:376) *)
Definition allow (o : mopts) : bool := (1 <? o_sstp_cond o)%nat || (1 <? o_sstp_act o)%nat.

Record mstate := { m_np : nat; m_sd : nat -> sd; m_cell : nat -> nat; m_mem : nat -> air; m_air : nat -> air }.

(** ceil for a non-negative argument *)
Definition ceilN (x : R) : nat := Z.to_nat (- Int_part (- x)).
(** adjust_timesteps (particles_impl_adjust_timesteps.ipp:13-21): the number of activation substeps in use; dt = opts.dt, not positive when not given *)
Definition act_now (o : mopts) (dt : R) : nat :=
  if Rltb 0 dt && (1 <? o_sstp_act o)%nat then ceilN (INR (o_sstp_act o) * dt / o_dt0 o) else o_sstp_act o.

(** hskpng_approximate_rc2_invalid (particles_impl_hskpng_rc2.ipp:14-32) with sstp_cond_act = act *)
Definition refresh_sd (o : mopts) (s : sd) : sd :=
  if Reqb (rc2 s) invalid then set_rc2 s (rc2_of (o_prec o) (rd3 s) (kpa s) (o_rc2_T o + 273.15)) else s.
Definition refresh (o : mopts) (act : nat) (st : mstate) : mstate :=
  if (act =? 1)%nat || negb (allow o) then st
  else {| m_np := m_np st; m_sd := (fun i => refresh_sd o (m_sd st i)); m_cell := m_cell st; m_mem := m_mem st; m_air := m_air st |}.

(** sstp_save (sstp_save.ipp:7-34), per-particle version; the pressure only with const_p.  The per-cell version has
    nothing to do with super-droplets. *)
Definition save_air (o : mopts) (old new : air) : air :=
  let '(rv, th, rh, p) := new in let '(_, _, _, p0) := old in (rv, th, rh, if o_isobaric o then p else p0).
Definition save (o : mopts) (st : mstate) : mstate :=
  if allow o && o_exact_sstp o
  then {| m_np := m_np st; m_sd := m_sd st; m_cell := m_cell st; m_mem := (fun i => save_air o (m_mem st i) (m_air st (m_cell st i))); m_air := m_air st |}
  else st.

(** a new super-droplet: multiplicity, wet radius, dry radius, kappa are given; terminal velocity and critical radius get the
    initial value -1 of particles_impl.ipp:445,490 *)
Definition newborn (s : sd) : sd := mk_sd (n s) (rw2 s) (rd3 s) invalid (kpa s) (chem s) (ict s) invalid (pos s).

(** particles_init.ipp:60-135 *)
Definition init (o : mopts) (np : nat) (s : nat -> sd) (cell : nat -> nat) (env : nat -> air) : mstate :=
  save o (refresh o (o_sstp_act o)
    {| m_np := np; m_sd := (fun i => newborn (s i)); m_cell := cell; m_mem := (fun _ => blank_air); m_air := env |}).

(** one pass of coalescence: the inputs of CoalModel.coal *)
Record pass_in := { i_kernel : nat -> sd -> sd -> R; i_dt : R; i_dv : nat -> R; i_ncell : nat; i_gn : nat -> nat; i_gr : nat -> R;
  i_sid : list nat; i_sijk : list nat; i_sched : nat -> list nat; i_u01 : nat -> R; i_vt : nat -> R }.
(** options seen by coal: rc2 is invalidated if opts_init.sstp_cond_act > 1 (particles_impl_coal.ipp:527-528) *)
Definition coal_opts (o : mopts) : CoalModel.copts :=
  {| chem_switch := o_chem_on o; n_dry_distros := o_distros o; n_dry_sizes := 0; n_added_kinds := 0;
     diag_incloud_time := o_diag_ict o; act_sstp := (1 <? o_sstp_act o)%nat && allow o; pure_const_multi := false |}.
(** a pass followed by new terminal velocities where they are invalid (particles_step.ipp:381-389); after the last pass the
    velocities stay invalid, here any values are allowed after each pass *)
Definition set_vt (s : sd) (v : R) : sd := mk_sd (n s) (rw2 s) (rd3 s) v (kpa s) (chem s) (ict s) (rc2 s) (pos s).
Definition one_pass (o : mopts) (p : pass_in) (np : nat) (s : nat -> sd) : option (nat -> sd) :=
  match coal (i_kernel p) (i_dt p) (i_dv p) (coal_opts o) (i_ncell p) (i_gn p) (i_gr p) (i_sid p) (i_sijk p) np (i_sched p) (i_u01 p) s with
  | Some c => Some (fun k => set_vt (arr c k) (i_vt p k))
  | None => None
  end.
Fixpoint passes (o : mopts) (l : list pass_in) (np : nat) (s : nat -> sd) : option (nat -> sd) :=
  match l with
  | [] => Some s
  | p :: l' => match one_pass o p np s with Some s' => passes o l' np s' | None => None end
  end.

Inductive event :=
| E_air (env : nat -> air)                         (* sync_in: new air *)
| E_cond (w : nat -> R) (env : nat -> air)         (* condensation in step_cond: new wet radii (squared), new air *)
| E_rct (d : nat -> R)                             (* oxidation in step_cond: increase of the dry volume (cubed radius) *)
| E_coal (dt : R) (l : list pass_in)               (* coalescence in step_async called with opts.dt = dt *)
| E_move (cell : nat -> nat) (p : nat -> R * R * R) (* motion and boundary conditions in step_async: positions and the cells they are in *)
| E_new (k : nat) (s : nat -> sd) (cell : nat -> nat) (* source or relaxation in step_async: k new super-droplets *)
| E_copy (src : nat -> nat) (np : nat) (mult : nat -> N). (* removal, recycling (post_copy): number i gets the attributes of number src i *)

Definition set_rw2 (s : sd) (w : R) : sd := mk_sd (n s) w (rd3 s) (vt s) (kpa s) (chem s) (ict s) (rc2 s) (pos s).
Definition set_rd3 (s : sd) (d : R) : sd := mk_sd (n s) (rw2 s) d (vt s) (kpa s) (chem s) (ict s) (rc2 s) (pos s).
Definition set_pos (s : sd) (p : R * R * R) : sd := mk_sd (n s) (rw2 s) (rd3 s) (vt s) (kpa s) (chem s) (ict s) (rc2 s) p.
Definition set_n (s : sd) (m : N) : sd := mk_sd m (rw2 s) (rd3 s) (vt s) (kpa s) (chem s) (ict s) (rc2 s) (pos s).

(** what each event does; None: undefined behaviour in coalescence *)
Definition happens (o : mopts) (e : event) (st : mstate) : option mstate :=
  match e with
  | E_air env =>                                   (* particles_step.ipp:100-104 *)
      Some {| m_np := m_np st; m_sd := m_sd st; m_cell := m_cell st; m_mem := m_mem st; m_air := env |}
  | E_cond w env =>                                (* particles_step.ipp:188-272 *)
      Some (save o {| m_np := m_np st; m_sd := (fun i => set_rw2 (m_sd st i) (w i)); m_cell := m_cell st; m_mem := m_mem st; m_air := env |})
  | E_rct d =>                                     (* particles_step.ipp:300-307, particles_impl_chem_react.ipp: no write to rc2 *)
      Some {| m_np := m_np st; m_sd := (fun i => set_rd3 (m_sd st i) (rd3 (m_sd st i) + d i)); m_cell := m_cell st; m_mem := m_mem st; m_air := m_air st |}
  | E_coal dt l =>                                 (* particles_step.ipp:379-404 *)
      match passes o l (m_np st) (m_sd st) with
      | Some s' => Some (refresh o (act_now o dt)
            {| m_np := m_np st; m_sd := s'; m_cell := m_cell st; m_mem := m_mem st; m_air := m_air st |})
      | None => None
      end
  | E_move cell p =>                               (* particles_step.ipp:425-449 *)
      Some {| m_np := m_np st; m_sd := (fun i => set_pos (m_sd st i) (p i)); m_cell := cell; m_mem := m_mem st; m_air := m_air st |}
  | E_new k s cell =>                              (* particles_step.ipp:455-477; post_adding_SD is commented out in src and rlx *)
      Some {| m_np := m_np st + k; m_sd := (fun i => if (i <? m_np st)%nat then m_sd st i else newborn (s i));
              m_cell := (fun i => if (i <? m_np st)%nat then m_cell st i else cell i);
              m_mem := (fun i => if (i <? m_np st)%nat then m_mem st i else blank_air); m_air := m_air st |}
  | E_copy src np mult =>                          (* particles_impl_post_copy.ipp; all attributes but the multiplicity are copied *)
      Some {| m_np := np; m_sd := (fun i => set_n (m_sd st (src i)) (mult i)); m_cell := (fun i => m_cell st (src i));
              m_mem := (fun i => m_mem st (src i)); m_air := m_air st |}
  end.

(** a timestep: sync_in, step_cond, step_async, in the order of src/particles_step.ipp *)
Record round := { r_air : nat -> air; r_cond : option ((nat -> R) * (nat -> air)); r_rct : option (nat -> R);
  r_coal : option (list pass_in); r_dt : R; r_cell : nat -> nat; r_pos : nat -> R * R * R;
  r_src : option (nat * (nat -> sd) * (nat -> nat)); r_rlx : option (nat * (nat -> sd) * (nat -> nat));
  r_from : nat -> nat; r_np : nat; r_mult : nat -> N }.
Definition opt {A} (x : option A) (f : A -> event) : list event := match x with Some a => [f a] | None => [] end.
Definition events (r : round) : list event :=
  [E_air (r_air r)] ++ opt (r_cond r) (fun x => E_cond (fst x) (snd x)) ++ opt (r_rct r) E_rct
  ++ opt (r_coal r) (E_coal (r_dt r)) ++ [E_move (r_cell r) (r_pos r)]
  ++ opt (r_src r) (fun x => E_new (fst (fst x)) (snd (fst x)) (snd x))
  ++ opt (r_rlx r) (fun x => E_new (fst (fst x)) (snd (fst x)) (snd x))
  ++ [E_copy (r_from r) (r_np r) (r_mult r)].
Fixpoint run (o : mopts) (l : list event) (st : mstate) : option mstate :=
  match l with
  | [] => Some st
  | e :: l' => match happens o e st with Some st' => run o l' st' | None => None end
  end.
