(** * Temporary vectors: the pools and who borrows from them
    Models src/detail/tmp_vector_pool.hpp (whole file), the sizes of the pools of src/impl/particles_impl.ipp:385-395 and
    494-541, and, for every call of the API, the sequence in which the library borrows, uses and gives back temporary
    vectors (the calls of get_guard, reset_guardp, unique_ptr::reset and guard::get), in the files cited below.
    Simplifications: the contents of the vectors are not modelled here (they are in the other models); host pools
    (tmp_host_...) are left out; calls that throw are left out; a function with several local guards in a row is modelled
    as taking all of them and dropping all at the end of the scope. *)
From Coq Require Import List Bool Arith Lia NArith.
Import ListNotations.
Open Scope nat_scope.

(** ** The pool class *)
(** Names of the pools of the device, particles_impl.ipp:206-213 *)
Inductive pool := RP (* tmp_device_real_part *) | RC (* tmp_device_real_cell *) | NP (* tmp_device_n_part *)
                | SP (* tmp_device_size_part *) | SC (* tmp_device_size_cell *).

(** Every place of the library which holds a guard: members of impl (particles_impl.ipp:216-254) and local variables. *)
Inductive slot :=
(* members, real, one per super-droplet *)
| NF | V | DRV | DTH | DRHOD | DP | RWX | DRWX | TP
(* local variables, real, one per super-droplet *)
| RH_Sc | RC2_diag | TMP_VT | VT0_BIN | RC2_incloud | RH_SSP | OLD_SVI | COL | R_NORMAL
| X_OLD | Y_OLD | Z_OLD | NF_bcnd | SORTED_RD3 | U01
(* members, real, one per cell *)
| LAMBDA_D | LAMBDA_K | RW_MOM3 | DRW_MOM3 | D_ICE | ICE
(* local variables, real, one per cell *)
| DRW_freeze | MASS_OLD | MASS_NEW | TAU | TAU_RLX | SCL | COUNT_REAL | DSTATE | CONC
(* unsigned, one per super-droplet *)
| CHEM_FLAG | PP_SSTP | UN
(* size_t, one per super-droplet *)
| I | J | K | LFT | RGT
(* size_t, one per cell *)
| OFF | PTR | COUNT_K.

Definition pool_of (s : slot) : pool :=
  match s with
  | NF | V | DRV | DTH | DRHOD | DP | RWX | DRWX | TP
  | RH_Sc | RC2_diag | TMP_VT | VT0_BIN | RC2_incloud | RH_SSP | OLD_SVI | COL | R_NORMAL
  | X_OLD | Y_OLD | Z_OLD | NF_bcnd | SORTED_RD3 | U01 => RP
  | LAMBDA_D | LAMBDA_K | RW_MOM3 | DRW_MOM3 | D_ICE | ICE
  | DRW_freeze | MASS_OLD | MASS_NEW | TAU | TAU_RLX | SCL | COUNT_REAL | DSTATE | CONC => RC
  | CHEM_FLAG | PP_SSTP | UN => NP
  | I | J | K | LFT | RGT => SP
  | OFF | PTR | COUNT_K => SC
  end.

Scheme Equality for slot.
Scheme Equality for pool.

(** State: the in_use flags of every pool (tmp_vector_pool.hpp:12-18) and, for every holder, the index it holds
    (guard::idx if valid, tmp_vector_pool.hpp:73-77; [None] for a null pointer or a variable out of scope). *)
Record st := { flags : pool -> list bool; hold : slot -> option nat }.

(** tmp_vector_pool.hpp:36-50, acquire(): the first vector which is not in use. [None]: the message "No available temporary
    vectors", an assertion in debug builds and the index size_t(-1) in release builds. *)
Fixpoint acquire (l : list bool) : option nat :=
  match l with
  | [] => None
  | true :: r => option_map S (acquire r)
  | false :: _ => Some 0
  end.

Fixpoint set_nth (i : nat) (b : bool) (l : list bool) : list bool :=
  match l, i with
  | [], _ => []
  | _ :: r, 0 => b :: r
  | x :: r, S i => x :: set_nth i b r
  end.

Definition upd_flags (f : pool -> list bool) p l := fun q => if pool_beq q p then l else f q.
Definition upd_hold (h : slot -> option nat) s v := fun t => if slot_beq t s then v else h t.

(** ~guard, tmp_vector_pool.hpp:79, and release(), 53-56 *)
Definition drop (s : slot) (x : st) : st :=
  match hold x s with
  | Some i => {| flags := upd_flags (flags x) (pool_of s) (set_nth i false (flags x (pool_of s)));
                 hold := upd_hold (hold x) s None |}
  | None => x
  end.

(** guard(pool), tmp_vector_pool.hpp:77-78; reset_guardp, 115-119, destroys the old guard first *)
Definition take (s : slot) (x : st) : option st :=
  let y := drop s x in
  match acquire (flags y (pool_of s)) with
  | Some i => Some {| flags := upd_flags (flags y) (pool_of s) (set_nth i true (flags y (pool_of s)));
                      hold := upd_hold (hold y) s (Some i) |}
  | None => None
  end.

Inductive op := Take (s : slot) | Drop (s : slot) | Use (s : slot).

(** Outcome of running a list of operations: [Exhausted] if there is no free vector when one is taken, [Null] if a vector is
    used through an empty pointer (guard::get, tmp_vector_pool.hpp:104, of a null unique_ptr) *)
Inductive outcome := Ok (x : st) | Exhausted | Null.

Fixpoint run (l : list op) (x : st) : outcome :=
  match l with
  | [] => Ok x
  | Take s :: r => match take s x with Some y => run r y | None => Exhausted end
  | Drop s :: r => run r (drop s x)
  | Use s :: r => match hold x s with Some _ => run r x | None => Null end
  end.

(** the constructor, tmp_vector_pool.hpp:22: nothing is in use *)
Definition fresh (size : pool -> nat) : st :=
  {| flags := fun p => repeat false (size p); hold := fun _ => None |}.

(** ** Options *)
Record cfg := {
  n_dims : nat;
  sstp_cond : nat; sstp_cond_act : nat; sstp_cond_mix : bool; exact_sstp_cond : bool; adaptive_sstp_cond : bool;
  ice_switch : bool; time_dep_ice_nucl : bool; chem_switch : bool; turb_cond_switch : bool;
  distmem : bool; pred_corr : bool (* adve_scheme == pred_corr *);
  beard77fast : bool; diag_incloud_time : bool; no_ccn_at_init : bool; variable_dt_switch : bool;
  subs_switch : bool; rlx_switch : bool; src_on : bool; src_matching : bool;
  periodic_topbot_walls : bool
}.

(** The checks of particles_impl_init_sanity_check.ipp:58-59, 64-65, 105-112, 132-141, 150-175 (those relevant here);
    n_dims is computed from nx, ny, nz and is at most 3, particles_impl.ipp:366-370 *)
Definition accepted (c : cfg) : bool :=
  (n_dims c <=? 3) && (1 <=? sstp_cond c)
  && negb (adaptive_sstp_cond c && negb (exact_sstp_cond c))
  && negb (negb (sstp_cond_mix c) && negb (exact_sstp_cond c))
  && negb (sstp_cond_mix c && adaptive_sstp_cond c && exact_sstp_cond c)
  && negb ((1 <? sstp_cond_act c) && (sstp_cond_mix c || negb (exact_sstp_cond c) || negb (adaptive_sstp_cond c)))
  && negb (ice_switch c && (rlx_switch c || src_matching c || turb_cond_switch c || exact_sstp_cond c))
  && negb (chem_switch c && src_on c) && negb (chem_switch c && rlx_switch c)
  && negb (src_on c && (n_dims c <? 2)) && negb (rlx_switch c && (n_dims c <? 2)) && negb (subs_switch c && (n_dims c <? 2))
  && negb (turb_cond_switch c && (n_dims c <? 2)).

(** particles_impl.ipp:376 and 378 *)
Definition allow_sstp_cond (c : cfg) : bool := (1 <? sstp_cond c) || (1 <? sstp_cond_act c).
Definition nomix_adaptive (c : cfg) : bool := exact_sstp_cond c && allow_sstp_cond c && adaptive_sstp_cond c.

(** ** Sizes of the pools *)
(** particles_impl.ipp:496-520 *)
Definition tmp_drp_no (c : cfg) : nat :=
  let n := 1 in
  let n := if n_dims c =? 2 then max n 2 else n in
  let n := if allow_sstp_cond c then max n 2 else n in
  let n := if ice_switch c && time_dep_ice_nucl c then max n 2 else n in
  let n := if chem_switch c then max n 3 else n in
  let n := if n_dims c =? 3 then max n 3 else n in
  let n := if turb_cond_switch c then max n 3 else n in
  let n := if distmem c then max n 3 else n in
  let n := if allow_sstp_cond c && exact_sstp_cond c && nomix_adaptive c then max n 4 else n in
  let n := if allow_sstp_cond c && exact_sstp_cond c && negb (nomix_adaptive c) then max n 7 else n in
  n.

(** particles_impl.ipp:391-395 (one vector, four in tmp_device_real_cell) and 520-538 (vectors added) *)
Definition pool_size (c : cfg) (p : pool) : nat :=
  match p with
  | RP => 1 + (tmp_drp_no c - 1)
  | RC => 4 + (if ice_switch c then 2 else 0)
  | NP => 1 + (if exact_sstp_cond c && adaptive_sstp_cond c then 2 else 0)
  | SP => 1 + (if (2 <=? n_dims c) || distmem c then 1 else 0) + (if n_dims c =? 3 then 1 else 0)
  | SC => 1
  end.

(** ** Who borrows what *)
Definition when (b : bool) (l : list op) : list op := if b then l else [].
(** local guards of a scope: taken, body, destroyed in reverse order *)
Definition local (l : list slot) (body : list op) : list op := map Take l ++ body ++ map Drop (rev l).

(** hskpng_vterm_all, hskpng_vterm_invalid: particles_impl_hskpng_vterm.ipp:196-199, 275-280 *)
Definition vterm (c : cfg) : list op := when (beard77fast c) (local [VT0_BIN] []).
(** hskpng_ijk and unravel_ijk, particles_impl_hskpng_ijk.ipp:86-151, 174-191; in 1D only x, in 2D x and z *)
Definition cell_indices (c : cfg) : list op :=
  when (1 <=? n_dims c) [Take I] ++ when (3 <=? n_dims c) [Take J] ++ when (2 <=? n_dims c) [Take K].
(** init_xyz, particles_impl_init_xyz.ipp:49-75: for every dimension random numbers and the index of the cell *)
Definition init_xyz (c : cfg) : list op :=
  when (1 <=? n_dims c) (local [U01] [Use I]) ++ when (3 <=? n_dims c) (local [U01] [Use J])
  ++ when (2 <=? n_dims c) (local [U01] [Use K]).
(** init_T_freeze, particles_impl_init_T_freeze.ipp:21 *)
Definition init_T_freeze (c : cfg) : list op := when (ice_switch c && negb (time_dep_ice_nucl c)) (local [U01] []).
(** chem_vol_ante, particles_impl_chem_ante.ipp:68-74 *)
Definition chem_vol_ante : list op := [Take V].

(** Creation of one group of super-droplets (of one kappa and size range): init_ijk (particles_impl_init_ijk.ipp:38),
    init_dry_... (particles_impl_init_dry_sd_conc.ipp:46-53, _const_multi.ipp:58), concentration
    (particles_impl_init_n.ipp:155, _count_num.ipp:80), then particles_impl_init_SD_with_distros.ipp:53-101 *)
Definition add_group (c : cfg) : list op :=
  local [PTR] [] ++ local [U01; PTR] [] ++ init_T_freeze c ++ local [CONC] []
  ++ when (chem_switch c) chem_vol_ante ++ cell_indices c ++ init_xyz c.

(** init, particles_init.ipp:96-114: a number of groups unless no_ccn_at_init, then the terminal velocities *)
Definition init_prog (c : cfg) (groups : nat) : list op :=
  when (negb (no_ccn_at_init c)) (concat (repeat (add_group c) groups)) ++ vterm c.

(** sync_in, particles_step.ipp:94 *)
Definition sync_in_prog : list op := [Drop NF].

(** moms_all, moms_rng(.., false), moms_cmp, ...: particles_impl_moms.ipp:55, 78, 119, 142, 168, 207 *)
Definition select : list op := [Take NF; Use NF].
(** moms_calc and selections from those selected before: particles_impl_moms.ipp:80, 170, 209 *)
Definition select_cons : list op := [Use NF].

(** save_liq_ice_content_before_change.ipp:11-58 *)
Definition save_content (c : cfg) : list op :=
  [Take DRW_MOM3] ++ select ++ [Use NF] ++ when (ice_switch c) ([Take D_ICE] ++ select ++ [Use NF]).
(** update_th_rv, particles_impl_update_th_rv.ipp:84-189 *)
Definition update_th_rv (c : cfg) : list op :=
  [Use DRW_MOM3] ++ when (ice_switch c) [Use D_ICE] ++ [Drop DRW_MOM3; Drop D_ICE].
(** calc_liq_ice_content_change.ipp:16-40 *)
Definition calc_change (c : cfg) : list op :=
  [Use DRW_MOM3] ++ select ++ [Use NF] ++ when (ice_switch c) ([Use D_ICE] ++ select ++ [Use NF]).

(** one substep of per-cell condensation, particles_step.ipp:239-256, particles_impl_cond.ipp:19-135,
    particles_impl_ice_dep.ipp:22-130 *)
Definition percell_substep (c : cfg) (turb_cond first last : bool) : list op :=
  when first (save_content c)
  ++ [Use LAMBDA_D; Use LAMBDA_K]
  ++ (if first then [Take RW_MOM3; Use RW_MOM3] else [Use RW_MOM3; Take DRW_MOM3; Use DRW_MOM3])
  ++ when turb_cond (local [RH_SSP] [])
  ++ [Use DRW_MOM3] ++ select ++ [Use NF] ++ when last [Drop RW_MOM3]
  ++ when (ice_switch c)
       ([Use LAMBDA_D; Use LAMBDA_K]
        ++ (if first then [Take ICE; Use ICE] else [Use ICE; Take D_ICE; Use D_ICE])
        ++ select ++ [Use NF; Use D_ICE] ++ when last [Drop ICE])
  ++ update_th_rv c.

Definition percell (c : cfg) (turb_cond : bool) (k : nat) : list op :=
  concat (map (fun i => percell_substep c turb_cond (i =? 0) (i =? k - 1)) (seq 0 k)).

(** acquire_arrays_for_perparticle_sstp.ipp, release_arrays_for_perparticle_sstp.ipp *)
Definition sstp_slots (c : cfg) : list slot :=
  [DRV; DTH; DRHOD; DP] ++ (if nomix_adaptive c then [] else [RWX; DRWX; TP])
  ++ (if adaptive_sstp_cond c then [PP_SSTP] else []).
(** particles_step.ipp:197-236; apply_perparticle_drw3_to_perparticle_rv_and_th.ipp:27, 52 (a vector of changes for all
    cells, for rv and for th, if mixing), particles_impl_update_th_rv.ipp:251 *)
Definition perparticle (c : cfg) (k : nat) : list op :=
  when (negb (sstp_cond_mix c)) (save_content c ++ [Drop NF])
  ++ map Take (sstp_slots c) ++ [Use DRV; Use DTH; Use DRHOD; Use DP]
  ++ (if adaptive_sstp_cond c then [Use PP_SSTP; Use LAMBDA_D; Use LAMBDA_K]
      else concat (repeat ([Use DRV; Use RWX; Use DRWX; Use TP; Use LAMBDA_D; Use LAMBDA_K]
                           ++ when (sstp_cond_mix c) (local [DSTATE] [] ++ local [DSTATE] [])) k))
  ++ map Drop (sstp_slots c)
  ++ when (negb (sstp_cond_mix c)) (calc_change c ++ update_th_rv c)
  ++ [Drop NF].

(** one substep of chemistry, particles_step.ipp:273-309; particles_impl_chem_strength.ipp:73,
    particles_impl_chem_henry.ipp:252-334, _dissoc.ipp:148, _react.ipp:263-269, _ante.ipp:60-65 *)
Definition chem_substep (dsl dsc rct : bool) : list op :=
  chem_vol_ante ++ [Take CHEM_FLAG; Use V]
  ++ when dsl ([Use CHEM_FLAG; Use V] ++ local [MASS_OLD; MASS_NEW] [])
  ++ when dsc [Use V; Use CHEM_FLAG]
  ++ when rct ([Use V; Use CHEM_FLAG] ++ local [OLD_SVI] [])
  ++ [Drop V; Drop CHEM_FLAG].

(** options of step_cond; [k], [a] and [kc] are the numbers of substeps of condensation, of activation and of chemistry in
    this step, particles_impl_adjust_timesteps.ipp:14-22 *)
Record copts := { o_cond : bool; o_ice_nucl : bool; o_turb_cond : bool; o_dsl : bool; o_dsc : bool; o_rct : bool;
                  k : nat; a : nat; kc : nat }.

(** ice_nucl_melt, particles_impl_ice_nucl_melt.ipp:117-220 *)
Definition ice_nucl_melt (c : cfg) : list op :=
  local [DRW_freeze]
    (select ++ [Use NF] ++ when (time_dep_ice_nucl c) (local [U01] []) ++ select ++ [Use NF]).

(** step_cond, particles_step.ipp:163-338; update_incloud_time.ipp:39; hskpng_mfp.ipp:44-45 *)
Definition step_cond_prog (c : cfg) (o : copts) : list op :=
  when (diag_incloud_time c) (local [RC2_incloud] [])
  ++ when (ice_switch c && o_ice_nucl o) (ice_nucl_melt c)
  ++ when (o_cond o)
       ([Take LAMBDA_D; Take LAMBDA_K]
        ++ (if exact_sstp_cond c && ((1 <? k o) || (1 <? a o)) then perparticle c (k o)
            else percell c (o_turb_cond o) (k o))
        ++ [Drop LAMBDA_D; Drop LAMBDA_K])
  ++ when (o_dsl o || o_dsc o || o_rct o) (concat (repeat (chem_substep (o_dsl o) (o_dsc o) (o_rct o)) (kc o))).

(** options of step_async; [o_pred]: the predictor-corrector scheme is used in this step; [kcoal]: number of substeps of
    coalescence; [o_rlx]: numbers of size bins of every relaxed distribution (empty list if relaxation is off or not due);
    [o_src_distro], [o_src_sizes]: source from a distribution and numbers of dry sizes of the source *)
Record aopts := { o_sedi : bool; o_coal : bool; o_acond : bool; o_turb_adve : bool; o_aturb_cond : bool;
                  o_adve : bool; o_pred : bool; o_subs : bool; o_src_distro : bool; o_src_sizes : nat;
                  o_rlx : list nat; kcoal : nat }.

(** coal, particles_impl_coal.ipp:276-290, and hskpng_shuffle_and_sort, hskpng_sort.ipp:31; particles_step.ipp:382-392 *)
Definition coal (c : cfg) (last : bool) : list op :=
  local [UN] [] ++ local [SCL; COL; OFF] [] ++ when (negb last) (vterm c).
(** adve_calc, particles_impl_adve.ipp:104-165 *)
Definition adve_calc (c : cfg) : list op := [Use I] ++ when (3 <=? n_dims c) [Use J] ++ when (2 <=? n_dims c) [Use K].
(** adve, particles_impl_adve.ipp:169-300 *)
Definition adve (c : cfg) (pred : bool) : list op :=
  when (1 <=? n_dims c)
    (if pred then local [X_OLD; Y_OLD; Z_OLD] (cell_indices c ++ adve_calc c ++ cell_indices c ++ adve_calc c)
     else adve_calc c).
(** hskpng_turb_dot_ss, particles_impl_hskpng_turb_ss.ipp:47-57 *)
Definition turb_dot_ss : list op := local [TAU_RLX] (select ++ [Use NF; Drop NF]).
(** one size bin of the relaxation, particles_impl_rlx_dry_distros.ipp:160-298 *)
Definition rlx_bin (c : cfg) : list op :=
  select ++ select_cons ++ [Use NF; Drop NF] ++ local [COUNT_K] [] ++ local [PTR] [Use K]
  ++ local [U01] ([Use I] ++ when (3 <=? n_dims c) [Use J]).
(** relaxation, particles_impl_rlx_dry_distros.ipp:86-312 *)
Definition rlx (c : cfg) (bins : list nat) : list op :=
  concat (map (fun b => concat (repeat (rlx_bin c) b) ++ init_T_freeze c ++ when (chem_switch c) chem_vol_ante ++ init_xyz c)
              bins).
(** src_dry_distros_simple, src_dry_distros_matching.ipp:60-345 *)
Definition src_distro (c : cfg) : list op :=
  let new := local [PTR] [] ++ local [U01; PTR] [] ++ init_T_freeze c ++ local [CONC] [] ++ cell_indices c ++ init_xyz c in
  if src_matching c then local [SORTED_RD3] (new ++ local [U01] []) else new.
(** bcnd, particles_impl_bcnd.ipp:114-350 *)
Definition bcnd (c : cfg) : list op :=
  when (1 <=? n_dims c)
    (when (distmem c) [Drop I; Drop K; Take LFT; Use LFT; Take RGT; Use RGT]
     ++ when ((2 <=? n_dims c) && negb (periodic_topbot_walls c)) (local [NF_bcnd] [])).
(** post_copy, particles_impl_post_copy.ipp:18-36 *)
Definition post_copy (c : cfg) : list op := [Drop LFT; Drop RGT] ++ cell_indices c.

(** step_async, particles_step.ipp:340-500 *)
Definition step_async_prog (c : cfg) (o : aopts) : list op :=
  [Drop NF]
  ++ when (o_sedi o || o_coal o || o_acond o) (vterm c)
  ++ when (o_coal o) (concat (map (fun i => coal c (i + 1 =? kcoal o)) (seq 0 (kcoal o))))
  ++ when (o_turb_adve o || o_aturb_cond o) (local [TAU; R_NORMAL] [])
  ++ when (o_aturb_cond o) turb_dot_ss
  ++ when (o_adve o) (adve c (o_pred o))
  ++ when (o_subs o) [Use K]
  ++ when (o_src_distro o) (src_distro c) ++ concat (repeat (add_group c) (o_src_sizes o))
  ++ rlx c (o_rlx o)
  ++ bcnd c ++ post_copy c.

(** diagnostics, particles_diag.ipp *)
Inductive diag :=
| D_select        (* diag_all, diag_dry_rng, diag_wet_rng, diag_kappa_rng, diag_ice, diag_water, ...: 226-287 *)
| D_select_cons   (* diag_..._cons: 297-348 *)
| D_RH_ge_Sc      (* 353-380 *)
| D_rw_ge_rc      (* 384-407 *)
| D_moment        (* diag_dry_mom, diag_wet_mom, diag_sd_conc, ...: moms_calc *)
| D_mass_dens     (* diag_wet_mass_dens, diag_dry_mass_dens; particles_impl_mass_dens.ipp:40-44 *)
| D_precip_rate   (* 561-586 *)
| D_precip_rate_ice (* 589-606 *)
| D_other.        (* quantities which need no temporary vectors *)

Definition diag_prog (c : cfg) (d : diag) : list op :=
  match d with
  | D_select => select
  | D_select_cons => select_cons
  | D_RH_ge_Sc => local [RH_Sc] select
  | D_rw_ge_rc => local [RC2_diag] select
  | D_moment => [Use NF]
  | D_mass_dens => local [COUNT_REAL] [Use NF]
  | D_precip_rate => vterm c ++ local [TMP_VT] [Use NF]
  | D_precip_rate_ice => vterm c ++ select ++ [Use NF]
  | D_other => []
  end.

(** ** The API *)
Inductive call := Init (groups : nat) | SyncIn | StepCond (o : copts) | StepAsync (o : aopts) | Diag (d : diag).

Definition prog (c : cfg) (e : call) : list op :=
  match e with
  | Init g => init_prog c g
  | SyncIn => sync_in_prog
  | StepCond o => step_cond_prog c o
  | StepAsync o => step_async_prog c o
  | Diag d => diag_prog c d
  end.

Definition run_history (c : cfg) (h : list call) : outcome := run (concat (map (prog c) h)) (fresh (pool_size c)).

(** selected_before_counting, the library's own record whether super-droplets were selected: set by every selection
    (particles_impl_moms.ipp:64, 99, ...), cleared at the end of step_cond and of step_async (particles_step.ipp:337, 495) *)
Definition is_selection (d : diag) : bool :=
  match d with D_select | D_select_cons | D_RH_ge_Sc | D_rw_ge_rc | D_precip_rate_ice => true | _ => false end.
Fixpoint selected_before_counting (h : list call) (b : bool) : bool :=
  match h with
  | [] => b
  | StepCond _ :: r | StepAsync _ :: r => selected_before_counting r false
  | Diag d :: r => selected_before_counting r (b || is_selection d)
  | _ :: r => selected_before_counting r b
  end.
