(** The call protocol: constructor, init, sync_in, step_cond, step_sync, step_async, and their argument checks.
    src/particles_step.ipp, src/particles_init.ipp, src/impl/particles_impl_adjust_timesteps.ipp,
    src/impl/initialization/particles_impl_init_sanity_check.ipp,
    src/impl/distributed_memory/particles_impl_post_copy.ipp.
    What the processes do to the particles is modelled elsewhere; here a run is a sequence of the operations
    performed. *)
From Coq Require Import List Arith NArith ZArith Reals Bool.
From Verif Require Import Base.
Import ListNotations.
Local Open Scope R_scope.

Inductive src_kind := src_off | src_simple | src_matching.

(** opts_init_t (include/libcloudph++/lgrngn/opts_init.hpp), the members consulted by the checks *)
Record oinit := mk_oinit {
  nx : nat; ny : nat; nz : nat;
  dx : R; dy : R; dz : R;
  x0 : R; x1 : R; y0 : R; y1 : R; z0 : R; z1 : R;
  dt0 : R; sstp_cond0 : Z; sstp_coal0 : Z; sstp_chem0 : Z; sstp_cond_act0 : Z;
  variable_dt : bool;
  sd_conc : N; sd_const_multi : N; large_tail : bool;
  n_dry_distros : nat; n_dry_sizes : nat;
  vt_undefined : bool; kernel_undefined : bool;
  chem_sw : bool; coal_sw : bool; sedi_sw : bool; subs_sw : bool; rlx_sw : bool;
  turb_adve_sw : bool; turb_cond_sw : bool; turb_coal_sw : bool; ice_sw : bool;
  exact_sstp : bool; sstp_mix : bool; adaptive_sstp : bool;
  n_w_LS : nat; SGS_mix_len : list R; n_conc_factor : nat; indep_rhod : bool;
  const_p : bool; diag_incloud : bool;
  src_type : src_kind; src_x0 : R; src_x1 : R;
  rlx_bins : N; rlx_sd_per_bin : R; rlx_timescale : R; supstp_rlx : Z;
  pred_corr : bool;          (* adve_scheme == as_t::pred_corr *)
  multi_spawn : bool;        (* dev_count != 0: part of a multi-GPU object *)
  mpi_build : bool           (* compiled with USE_MPI *)
}.

(** opts_t (include/libcloudph++/lgrngn/opts.hpp) *)
Record opts := mk_opts {
  o_adve : bool; o_sedi : bool; o_subs : bool; o_cond : bool; o_coal : bool; o_src : bool; o_rlx : bool;
  o_rcyc : bool; o_turb_adve : bool; o_turb_cond : bool; o_turb_coal : bool; o_ice_nucl : bool;
  o_chem_dsl : bool; o_chem_dsc : bool; o_chem_rct : bool; o_dt : R
}.

(** array arguments: which of them are not null; number of trace gases passed; whether some x Courant
    number in the passed array is outside [-2,2] *)
Record args := mk_args {
  a_th : bool; a_rv : bool; a_rhod : bool; a_p : bool;
  a_cx : bool; a_cy : bool; a_cz : bool; a_diss : bool;
  a_chem : nat; a_cx_large : bool
}.
Definition chem_gas_n : nat := 6. (* include/libcloudph++/common/chem.hpp: enum *)

(** n_dims (src/impl/particles_impl.ipp:334-338) *)
Definition nz1 (k : nat) : nat := if (k =? 0)%nat then 0 else 1.
Definition n_dims (o : oinit) : nat := nz1 (nx o) + nz1 (ny o) + nz1 (nz o).
Definition m1r (k : nat) : R := INR (if (k =? 0)%nat then 1 else k).

(** the Courant number checks common to init (init_sanity_check.ipp:36-49) and sync_in
    (particles_step.ipp:52-65): true = throws *)
Definition bad_courants (o : oinit) (a : args) : bool :=
  (a_cx a || a_cy a || a_cz a) &&
  ((n_dims o =? 0)%nat
   || ((n_dims o =? 1)%nat && (negb (a_cx a) || a_cy a || a_cz a))
   || ((n_dims o =? 2)%nat && (negb (a_cx a) || a_cy a || negb (a_cz a)))
   || ((n_dims o =? 3)%nat && (negb (a_cx a) || negb (a_cy a) || negb (a_cz a)))).
Definition bad_chem (o : oinit) (a : args) : bool :=
  (chem_sw o && negb (a_chem a =? chem_gas_n)%nat) || (negb (chem_sw o) && negb (a_chem a =? 0)%nat).
Definition src_on (o : oinit) : bool := match src_type o with src_off => false | _ => true end.
Definition src_match (o : oinit) : bool := match src_type o with src_matching => true | _ => false end.

(** init_sanity_check (init_sanity_check.ipp:29-175) after the check of init_called: true = throws.
    *std::min(begin, end) (l.117) compares the iterators, hence denotes the first element. The product
    sd_conc * sd_const_multi (l.95) is formed in unsigned 64-bit arithmetic. The check of x1 (l.86-88) is
    commented out in the code. *)
Definition init_rejects (o : oinit) (a : args) : bool :=
     (negb (a_th a) || negb (a_rv a) || negb (a_rhod a))
  || bad_courants o a
  || bad_chem o a
  || (chem_sw o && src_on o)
  || (src_match o && (1 <? n_dry_distros o)%nat)
  || (src_on o && (n_dims o <? 2)%nat)
  || ((1 <? n_dry_distros o)%nat && chem_sw o)
  || ((n_dry_distros o =? 0)%nat && (n_dry_sizes o =? 0)%nat)
  || (large_tail o && (sd_conc o =? 0)%N)
  || ((0 <? sd_const_multi o)%N && src_on o)
  || ((0 <? n_dims o)%nat &&
      (negb (Rleb 0 (x0 o) && Rltb (x0 o) (m1r (nx o) * dx o))
       || negb (Rleb 0 (y0 o) && Rltb (y0 o) (m1r (ny o) * dy o))
       || negb (Rleb 0 (z0 o) && Rltb (z0 o) (m1r (nz o) * dz o))
       || negb (Rltb (y0 o) (y1 o) && Rleb (y1 o) (m1r (ny o) * dy o))
       || negb (Rltb (z0 o) (z1 o) && Rleb (z1 o) (m1r (nz o) * dz o))))
  || Reqb (dt0 o) 0
  || negb (mul64 (sd_conc o) (sd_const_multi o) =? 0)%N
  || ((sd_conc o =? 0)%N && (sd_const_multi o =? 0)%N && (n_dry_sizes o =? 0)%nat)
  || (coal_sw o && (vt_undefined o || kernel_undefined o))
  || (sedi_sw o && vt_undefined o)
  || (sedi_sw o && (nz o =? 0)%nat)
  || (subs_sw o && (nz o =? 0)%nat)
  || (turb_adve_sw o && (nz o =? 0)%nat)
  || (turb_cond_sw o && (nz o =? 0)%nat)
  || (subs_sw o && negb (nz o =? n_w_LS o)%nat)
  || ((turb_adve_sw o || turb_cond_sw o) && negb (nz o =? length (SGS_mix_len o))%nat)
  || (match SGS_mix_len o with [] => false | l0 :: _ => Rleb l0 0 end)
  || (negb (n_conc_factor o =? 0)%nat && (n_dims o <? 2)%nat)
  || (negb (n_conc_factor o =? 0)%nat && negb (nz o =? n_conc_factor o)%nat)
  || (negb (n_conc_factor o =? 0)%nat && negb (indep_rhod o))
  || (mpi_build o && chem_sw o)
  || ((n_dims o <? 2)%nat && rlx_sw o)
  || (rlx_sw o && (rlx_bins o =? 0)%N)
  || (rlx_sw o && Rleb (rlx_sd_per_bin o) 0)
  || (rlx_sw o && Rleb (rlx_timescale o) 0)
  || (rlx_sw o && chem_sw o)
  || (const_p o && negb (a_p a))
  || (negb (const_p o) && a_p a)
  || (sstp_cond0 o <? 1)%Z
  || (adaptive_sstp o && negb (exact_sstp o))
  || (negb (sstp_mix o) && negb (exact_sstp o))
  || (sstp_mix o && adaptive_sstp o && exact_sstp o)
  || ((1 <? sstp_cond_act0 o)%Z && (sstp_mix o || negb (exact_sstp o) || negb (adaptive_sstp o)))
  || (ice_sw o && (coal_sw o || rlx_sw o || src_match o || turb_cond_sw o || exact_sstp o)).

(** sync_in, argument checks (particles_step.ipp:49-78) after the protocol checks *)
Definition sync_rejects (o : oinit) (a : args) : bool :=
     (negb (a_th a) || negb (a_rv a))
  || bad_courants o a
  || bad_chem o a
  || ((turb_adve_sw o || turb_cond_sw o || turb_coal_sw o) && negb (a_diss a))
  || (negb (turb_adve_sw o || turb_cond_sw o || turb_coal_sw o) && a_diss a).

(** operations on the particles and fields *)
Inductive op :=
| OpInit                                (* creation of super-droplets in init *)
| OpSyncIn
| OpIncloud (dt : R) | OpIceNucl (dt : R)
| OpSort | OpMfp
| OpCondAdaptive (dt : R) | OpCondPart (dt : R) (step : nat)        (* per-particle condensation *)
| OpCondCell (dt : R) (step : nat) | OpIceDep (dt : R) (step : nat) | OpUpdateThRv
| OpSstpSave | OpChem (dt : R) (step : nat) | OpSyncOut | OpSyncOutChem
| OpSaveChem | OpTpr | OpVtermAll | OpCoal (dt : R) (turb : bool) | OpVtermInvalid | OpRc2Invalid
| OpTke | OpTurbVel (only_z : bool) | OpTurbDotSs
| OpAdve (use_pred_corr : bool) | OpTurbAdve (dt : R) | OpSedi (dt : R) | OpSubs (dt : R)
| OpSrc (ctr : Z) | OpRlx (dt : R)   (* ctr: see src_due *)
| OpBcnd | OpExchange | OpRcyc | OpRemoveN0 | OpIjk | OpCount.

(** the object *)
Record obj := mk_obj {
  init_called : bool;
  now_cond : bool;           (* should_now_run_cond *)
  now_async : bool;          (* should_now_run_async *)
  dt : R; sstp_cond : Z; sstp_coal : Z; sstp_chem : Z; sstp_cond_act : Z;
  increase_sstp_coal : bool;
  scheme_pc : bool;          (* adve_scheme == pred_corr at the moment *)
  cx_large : bool;           (* some stored x Courant number is outside [-2,2] *)
  src_ctr : Z; rlx_ctr : Z;
  done : list op             (* operations performed so far, in order *)
}.

(** constructor (src/impl/particles_impl.ipp:327-410); courant_x starts as zeros *)
Definition fresh (o : oinit) : obj :=
  mk_obj false false false (dt0 o) (sstp_cond0 o) (sstp_coal0 o) (sstp_chem0 o) (sstp_cond_act0 o)
         false (pred_corr o) false 0%Z 0%Z [].

Definition log (s : obj) (l : list op) : obj :=
  mk_obj (init_called s) (now_cond s) (now_async s) (dt s) (sstp_cond s) (sstp_coal s) (sstp_chem s) (sstp_cond_act s)
         (increase_sstp_coal s) (scheme_pc s) (cx_large s) (src_ctr s) (rlx_ctr s) (done s ++ l).
Definition set_flags (s : obj) (i c a : bool) : obj :=
  mk_obj i c a (dt s) (sstp_cond s) (sstp_coal s) (sstp_chem s) (sstp_cond_act s)
         (increase_sstp_coal s) (scheme_pc s) (cx_large s) (src_ctr s) (rlx_ctr s) (done s).
Definition set_cx (s : obj) (v : bool) : obj :=
  mk_obj (init_called s) (now_cond s) (now_async s) (dt s) (sstp_cond s) (sstp_coal s) (sstp_chem s) (sstp_cond_act s)
         (increase_sstp_coal s) (scheme_pc s) v (src_ctr s) (rlx_ctr s) (done s).
Definition set_scheme (s : obj) (v : bool) : obj :=
  mk_obj (init_called s) (now_cond s) (now_async s) (dt s) (sstp_cond s) (sstp_coal s) (sstp_chem s) (sstp_cond_act s)
         (increase_sstp_coal s) v (cx_large s) (src_ctr s) (rlx_ctr s) (done s).
Definition set_coal (s : obj) (c : Z) (i : bool) : obj :=
  mk_obj (init_called s) (now_cond s) (now_async s) (dt s) (sstp_cond s) c (sstp_chem s) (sstp_cond_act s)
         i (scheme_pc s) (cx_large s) (src_ctr s) (rlx_ctr s) (done s).
Definition set_ctrs (s : obj) (a b : Z) : obj :=
  mk_obj (init_called s) (now_cond s) (now_async s) (dt s) (sstp_cond s) (sstp_coal s) (sstp_chem s) (sstp_cond_act s)
         (increase_sstp_coal s) (scheme_pc s) (cx_large s) a b (done s).

(** std::ceil *)
Definition Zceil (x : R) : Z := (- Int_part (- x))%Z.
(** adjust_timesteps (particles_impl_adjust_timesteps.ipp:12-24); None = throws *)
Definition adj (s0 : Z) (o : oinit) (d : R) : Z :=
  if Rltb 0 d && (1 <? s0)%Z then Zceil (IZR s0 * d / dt0 o) else s0.
Definition adjust_timesteps (o : oinit) (d : R) (s : obj) : option obj :=
  if Rltb 0 d && negb (variable_dt o) then None
  else Some (mk_obj (init_called s) (now_cond s) (now_async s)
               (if Rltb 0 d then d else dt0 o)
               (adj (sstp_cond0 o) o d) (adj (sstp_coal0 o) o d) (adj (sstp_chem0 o) o d) (adj (sstp_cond_act0 o) o d)
               (increase_sstp_coal s) (scheme_pc s) (cx_large s) (src_ctr s) (rlx_ctr s) (done s)).

(** init (particles_init.ipp:15-130 and init_sanity_check.ipp:25-27); the boolean tells whether the call
    returned normally. Exceptions after the sanity check (too many super-droplets, ...) are not modelled. *)
Definition init (o : oinit) (a : args) (s : obj) : obj * bool :=
  if init_called s then (s, false)
  else
    let s1 := set_flags s true (now_cond s) (now_async s) in
    if init_rejects o a then (s1, false)
    else
      let s2 := if a_cx a then set_cx s1 (a_cx_large a) else s1 in
      (log s2 [OpInit], true).

(** sync_in (particles_step.ipp:32-157) *)
Definition sync_in (o : oinit) (a : args) (s : obj) : obj * bool :=
  if negb (init_called s) then (s, false)
  else if now_async s then (s, false)
  else if sync_rejects o a then (s, false)
  else
    let s1 := if a_cx a then set_cx s (a_cx_large a) else s in
    let s2 := if pred_corr o && a_cx a && cx_large s1 then set_scheme s1 false else s1 in
    (set_flags (log s2 [OpSyncIn]) (init_called s) true (now_async s), true).

(** step_cond (particles_step.ipp:160-336). The operations within one chemistry substep are lumped. The length
    of a condensation substep is the one passed to the growth of the drops
    (condensation/percell/particles_impl_cond.ipp:84,100; ice/particles_impl_ice_dep.ipp:86;
    condensation/perparticle/cond_perparticle_advance_rw2.ipp; adaptive: the whole step, divided per particle). *)
Definition cond_ops1 (o : oinit) (p : opts) (s : obj) : list op :=
  (if diag_incloud o then [OpIncloud (dt s)] else []) ++
  (if ice_sw o && o_ice_nucl p then [OpIceNucl (dt s)] else []) ++
  (if o_cond p then
     [OpSort; OpMfp] ++
     (if exact_sstp o && ((1 <? sstp_cond s)%Z || (1 <? sstp_cond_act s)%Z) then
        (if adaptive_sstp o then [OpCondAdaptive (dt s)] else map (OpCondPart (dt s / IZR (sstp_cond s))) (seq 0 (Z.to_nat (sstp_cond s)))) ++ [OpUpdateThRv]
      else
        flat_map (fun k => [OpTpr; OpCondCell (dt s / IZR (sstp_cond s)) k] ++ (if ice_sw o then [OpIceDep (dt s / IZR (sstp_cond s)) k] else []) ++ [OpUpdateThRv])
                 (seq 0 (Z.to_nat (sstp_cond s)))) ++
     [OpSstpSave]
   else []).
Definition chem_on (p : opts) : bool := o_chem_dsl p || o_chem_dsc p || o_chem_rct p.
Definition cond_ops (o : oinit) (p : opts) (s : obj) : list op :=
  cond_ops1 o p s ++
  (if chem_on p then map (OpChem (dt s / IZR (sstp_chem s))) (seq 0 (Z.to_nat (sstp_chem s))) else []) ++
  (if o_cond p then [OpSyncOut] else []) ++
  (if o_chem_dsl p then [OpSyncOutChem] else []).
(** Without chem_switch the first chemistry substep throws (chem_vol_ante, particles_impl_chem_ante.ipp:70), and so does the writing back of trace gases
    (l.319-327, std::map::at; the map is the one given to sync_in): the exception comes after condensation. *)
Definition chem_throws (o : oinit) (p : opts) (s : obj) : bool :=
  negb (chem_sw o) && (chem_on p && (0 <? sstp_chem s)%Z || o_chem_dsl p).
Definition ops_before_chem (o : oinit) (p : opts) (s : obj) : list op :=
  cond_ops1 o p s ++ (if negb (0 <? sstp_chem s)%Z && o_cond p then [OpSyncOut] else []).
Definition step_cond (o : oinit) (p : opts) (s : obj) : obj * bool :=
  if negb (now_cond s) then (s, false)
  else if o_turb_cond p && negb (turb_cond_sw o) then (s, false)
  else
    let s1 := set_flags s (init_called s) false (now_async s) in
    match adjust_timesteps o (o_dt p) s1 with
    | None => (s1, false)
    | Some s2 =>
      if chem_throws o p s2 then (log s2 (ops_before_chem o p s2), false)
      else (set_flags (log s2 (cond_ops o p s2)) (init_called s2) (now_cond s2) true, true)
    end.

(** step_sync (particles_step.ipp:15-30) *)
Definition step_sync (o : oinit) (a : args) (p : opts) (s : obj) : obj * bool :=
  let '(s1, ok) := sync_in o a s in
  if ok then step_cond o p s1 else (s1, false).

(** step_async (particles_step.ipp:338-494). [raised]: a collision pass of this step sets
    increase_sstp_coal (see C02_increase_flag). *)
Definition async_rejects (o : oinit) (p : opts) : bool :=
     ((o_chem_dsl p || o_chem_dsc p || o_chem_rct p) && negb (chem_sw o))
  || (o_coal p && negb (coal_sw o))
  || (o_sedi p && negb (sedi_sw o))
  || (o_subs p && negb (subs_sw o))
  || (o_turb_adve p && negb (turb_adve_sw o))
  || (o_turb_adve p && (n_dims o =? 0)%nat).
(** the coalescence substeps (l.384-402) *)
Definition coal_ops (p : opts) (s : obj) : list op :=
  flat_map (fun k => OpCoal (dt s / IZR (sstp_coal s)) (o_turb_coal p) ::
                     (if Z.eqb (Z.of_nat k + 1) (sstp_coal s) then [] else [OpVtermInvalid]))
           (seq 0 (Z.to_nat (sstp_coal s))).
(** first part, up to subsidence (l.367-446) *)
Definition async_ops1 (p : opts) (s : obj) : list op :=
  (if o_chem_dsl p then [OpSaveChem] else []) ++
  [OpTpr] ++
  (if o_sedi p || o_coal p || o_cond p then [OpVtermAll] else []) ++
  (if o_coal p then coal_ops p s ++ [OpRc2Invalid] else []) ++
  (if o_turb_adve p || o_turb_cond p then [OpTke] else []) ++
  (if o_turb_adve p then [OpTurbVel false] else if o_turb_cond p then [OpTurbVel true] else []) ++
  (if o_turb_cond p then [OpTurbDotSs] else []) ++
  (if o_adve p then [OpAdve (scheme_pc s)] else []) ++
  (if o_turb_adve p then [OpTurbAdve (dt s)] else []) ++
  (if o_sedi p then [OpSedi (dt s)] else []) ++
  (if o_subs p then [OpSubs (dt s)] else []).
(** last part (l.481-493) *)
Definition async_ops2 (o : oinit) (p : opts) : list op :=
  [OpBcnd] ++ (if o_adve p || o_turb_adve p then [OpExchange] else []) ++
  (if multi_spawn o then [] else [if o_rcyc p then OpRcyc else OpRemoveN0; OpIjk; OpCount]).
Definition step_async (o : oinit) (p : opts) (raised : bool) (s : obj) : obj * bool :=
  if negb (now_async s) then (s, false)
  else
    let s0 := set_flags s (init_called s) (now_cond s) false in
    if async_rejects o p then (s0, false)
    else match adjust_timesteps o (o_dt p) s0 with
    | None => (s0, false)
    | Some s1 =>
      let s2 := log s1 (async_ops1 p s1) in
      (* l.396-400 *)
      let inc := increase_sstp_coal s2 || (o_coal p && raised && (0 <? sstp_coal s2)%Z) in
      let s3 := if o_coal p && inc then set_coal s2 (sstp_coal s2 + 1) false else set_coal s2 (sstp_coal s2) inc in
      let s4 := set_scheme s3 (pred_corr o) in     (* l.431 *)
      let src_here := o_src p && negb (Reqb (src_x0 o) 0 && Reqb (src_x1 o) 0) in
      if src_here && negb (src_on o) then (s4, false)       (* l.455, after the particles have been moved *)
      else
        let s5 := if src_here then log s4 [OpSrc (src_ctr s4)] else s4 in
        if o_rlx p && negb (rlx_sw o) then (s5, false)      (* l.466 *)
        else
          let s6 := if o_rlx p && (Z.rem (rlx_ctr s5) (supstp_rlx o) =? 0)%Z
                    then log s5 [OpRlx (IZR (supstp_rlx o) * dt s5)] else s5 in
          let s7 := set_ctrs s6 (if o_src p then src_ctr s6 + 1 else 0)%Z (if o_rlx p then rlx_ctr s6 + 1 else 0)%Z in
          (log s7 (async_ops2 o p), true)
    end.

(** A source of super-step length n acts in the steps in which the counter is a multiple of n
    (src_dry_distros_simple.ipp:27, src_dry_distros_matching.ipp:56, src_dry_sizes.ipp:31); the counters are unsigned in
    the code and do not reach the point of wrapping. *)
Definition src_due (ctr n : Z) : bool := (Z.rem ctr n =? 0)%Z.

(** an API call and a history of calls *)
Inductive call :=
| Init (a : args) | SyncIn (a : args) | StepCond (p : opts) | StepSync (a : args) (p : opts)
| StepAsync (p : opts) (raised : bool).
Definition exec (o : oinit) (c : call) (s : obj) : obj * bool :=
  match c with
  | Init a => init o a s
  | SyncIn a => sync_in o a s
  | StepCond p => step_cond o p s
  | StepSync a p => step_sync o a p s
  | StepAsync p r => step_async o p r s
  end.
Definition run (o : oinit) (h : list call) (s : obj) : obj := fold_left (fun s c => fst (exec o c s)) h s.
