(** In-cloud time of super-droplets:
    src/impl/diagnose_SD_attributes/particles_impl_update_incloud_time.ipp,
    src/impl/initialization/particles_impl_init_incloud_time.ipp and the calls in src/particles_step.ipp.
    The effect of collisions is in CoalModel ([selector]). *)
From Coq Require Import List Arith NArith Reals Bool.
From Verif Require Import Base CoalModel TomsModel KoehlerModel.
Import ListNotations.
Local Open Scope R_scope.

(** incloud_time_updater::operator() (particles_impl_update_incloud_time.ipp:22-32) *)
Definition incloud_time_updater (dt rw2 rc2 ict : R) : R :=
  if Rltb rc2 rw2 then ict + dt else 0.

(** update_incloud_time (particles_impl_update_incloud_time.ipp:35-67): the critical radius is computed
    for all super-droplets from the temperature of the cell ([T] through [ijk]); the first n_part
    elements are updated. [prec] is the floating-point format given to the root finder. *)
Definition update_incloud_time (prec : fptype) (dt : R) (T : nat -> R) (ijk : nat -> nat)
    (n_part : nat) (sds : nat -> sd) : nat -> sd :=
  fun i => if (i <? n_part)%nat
           then set_ict (sds i) (incloud_time_updater dt (rw2 (sds i))
                                   (rc2_of prec (rd3 (sds i)) (kpa (sds i)) (T (ijk i))) (ict (sds i)))
           else sds i.

(** the beginning of step_cond (particles_step.ipp:180-181); [dt] is the timestep after
    adjust_timesteps (l. 178) *)
Definition step_cond_incloud (o : copts) (prec : fptype) (dt : R) (T : nat -> R) (ijk : nat -> nat)
    (n_part : nat) (sds : nat -> sd) : nat -> sd :=
  if diag_incloud_time o then update_incloud_time prec dt T ijk n_part sds else sds.

(** init_incloud_time (particles_impl_init_incloud_time.ipp:14-17): elements from n_part_old on *)
Definition init_incloud_time (n_part_old : nat) (sds : nat -> sd) : nat -> sd :=
  fun i => if (n_part_old <=? i)%nat then set_ict (sds i) 0 else sds i.

(** What can happen to a population between two looks at it. *)
Inductive event :=
| Ev_step (dt : R) (T : nat -> R) (ijk : nat -> nat)     (* a call to step_cond *)
| Ev_coal (kernel : nat -> sd -> sd -> R) (dt : R) (dv : nat -> R) (n_cell : nat)
          (gn : nat -> nat) (gr : nat -> R) (ijk sorted_id sorted_ijk : list nat)
          (sched : nat -> list nat) (u01 : nat -> R)       (* one pass of coalescence *)
| Ev_add (fresh : nat -> sd) (n_new : nat)               (* initialisation or source: new ones at the end *)
| Ev_copy (src : nat -> nat) (n_new : nat)               (* removal, recycling, sending to another process: the
                                                            attributes of number i are those of number src i
                                                            before, apart from the multiplicity *)
| Ev_other (f : nat -> sd -> sd).                        (* condensation, motion, ...: no access to in-cloud time *)

Definition happens (o : copts) (prec : fptype) (e : event) (n0 : nat) (s : nat -> sd) (n1 : nat) (s' : nat -> sd) : Prop :=
  match e with
  | Ev_step dt T ijk => n1 = n0 /\ s' = step_cond_incloud o prec dt T ijk n0 s
  | Ev_coal kernel dt dv n_cell gn gr ijk sid_ sijk_ sched u01 =>
      n1 = n0 /\ n0 = length ijk /\
      exists st, coal kernel dt dv o n_cell gn gr sid_ sijk_ n0 sched u01 s = Some st /\ s' = arr st
  | Ev_add fresh n_new =>
      n1 = (n0 + n_new)%nat /\
      s' = (if diag_incloud_time o then init_incloud_time n0 else fun x => x)
             (fun i => if (i <? n0)%nat then s i else fresh i)
  | Ev_copy src n_new =>
      n1 = n_new /\ (forall i, (i < n_new)%nat -> (src i < n0)%nat /\ ict (s' i) = ict (s (src i)))
  | Ev_other f => n1 = n0 /\ (forall i x, ict (f i x) = ict x) /\ s' = (fun i => f i (s i))
  end.

(** a history: events with the population after each, the newest first *)
Inductive history (o : copts) (prec : fptype) : list (event * nat * (nat -> sd)) -> nat -> (nat -> sd) -> Prop :=
| h_nil s : history o prec [] 0 s
| h_cons l n0 s e n1 s' :
    history o prec l n0 s -> happens o prec e n0 s n1 s' ->
    history o prec ((e, n0, s) :: l) n1 s'.
