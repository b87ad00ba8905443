# Formal model of libcloudph++ in Rocq (Coq 8.16.1): design

The properties are listed in `properties.jsonl`; the status of each is in `MANIFEST.json`; wrong programs tried against
the theorems are in `seeded/LOG.jsonl`.

## 1. Layout

`rocq/theories/` holds, per area of the code, up to three kinds of files:

* `<Area>Model.v`: definitions only; every definition cites the file and lines in /repo it models and says what it leaves out.
* `<Area>Proofs.v`: lemmas.
* `<Area>Props.v`: the theorems, stated over the model and over small independent specifications written in the same file,
  each followed by `Print Assumptions`, and with theorems named `..._instance` (or examples) that show that the hypotheses are
  met by concrete non-trivial cases.

Names: a theorem `X_partial` proves a part of the English property, usually under an extra hypothesis; a theorem `X_refuted`
shows that the code as modelled violates the English property, with a witness. A property with status *partial* is either not
wholly proved, or false of the code; then the note says which part holds.

## 2. Numbers

* Multiplicities (unsigned 64-bit), indices and counters are `N`, `nat` or `Z`. Where a claim is about wrap-around the wrap
  is modelled.
* `real_t` (float or double) is modelled by the real numbers `R` of the standard library. **Rounding is not modelled**, nor are
  infinities and NaN, except where a comment says so. `std::min` and `std::max` are modelled with the comparison of C++.
* Undefined behaviour (index out of range, division by zero in integers, exhausted pool) and C++ exceptions are separate
  outcomes of the model, never a silent default.
* `assert`s are not executed (release build).

## 3. Trusted base

* Coq's kernel (8.16.1). No plugin, no `native_compute`, no axiom of our own.
* The axioms of the standard library in section 7, and nothing else: those of the real numbers
  (`ClassicalDedekindReals.sig_forall_dec`, `sig_not_dec`, `FunctionalExtensionality.functional_extensionality_dep`), and
  `Classical_Prop.classic`.
* The reading of the C++ into the model: nothing was compiled or run. Each definition cites its source lines.
* Thrust algorithms are modelled by their sequential specification. `sort_by_key` is modelled as unstable (a relation to all
  admissible results) wherever stability matters. Where a parallel loop has conflicting accesses, independence of the order
  is a theorem (C01, C16).
* Random numbers are arbitrary functions with values in [0,1): theorems hold for all of them. That they are independent
  or uniformly distributed is not part of the model.
* MPI messages between two processes are reliable and in order.

## 4. Properties

Statements are in `properties.jsonl`. For each: what is modelled, how it is proved, the theorems.

* **C01** Coalescence pairs each super-droplet at most once and only within its cell. *proved*
  Model: `CoalModel`: one coalescence pass over the vector of super-droplets sorted by cell; the kernel and the random numbers are arbitrary functions. The parallel `for_each` is a fold over an arbitrary permutation of its index range.. Proof: pairs are computed from the offset in the cell; two different launches touch disjoint pairs, so that all schedules give the same result (induction over permutations). Theorems: `C01_pairs_disjoint_same_cell_others_untouched`, `C01_schedule_independent`, `C01_empty_population_refuted`. Note: the last theorem records that on an empty population the launch range wraps (outcome None = undefined behaviour).
* **C02** Coalescence never makes a multiplicity wrap and collides at most floor(n_a/n_b) times. *proved*
  Model: `collide` with the division and subtraction of multiplicities on `N`. Proof: arithmetic on `N`, lifted to the pass. Theorems: `C02_multiplicities`, `C02_increase_flag`.
* **C03** Coalescence conserves liquid water, dry matter, dissolved chemicals and soluble mass. *proved*
  Model: attributes as reals, chemical masses as a function of the compound. Proof: algebra per pair, then sums over the cell. Theorems: `C03_conservation`.
* **C04** Kappa of a coalesced droplet reflects both parents. *partial*
  Model: the choice between two variants in `coal` as a function of the options. Proof: the variant with mixing is proved; refutation: the code looks only at the kinds of initial aerosol. Theorems: `C04_kappa_mixed_partial`, `C04_kappa_mixed_refuted`. Note: the full claim is false of the code when extra aerosol kinds enter only through sources/relaxation; the theorem covers the case of more than one initial aerosol kind.
* **C05** Recycling conserves the number of real droplets and clones attributes. *proved*
  Model: `RcycModel`: sort by multiplicity (any admissible result of an unstable sort), copy in reverse order. Proof: permutations and sums. Theorems: `C05_recycling_splits_and_removes`, `C05_totals_conserved`.
* **C06** After recycling or removal there is no super-droplet with zero multiplicity. *partial*
  Model: as C05. Proof: the exact condition under which no zero is left is derived; witness 0,0,5. Theorems: `C06_no_zero_left_iff_partial`, `C06_no_zero_left_refuted`. Note: the claim is false of the code (multiplicities 0,0,5 with recycling on leave a zero); the partial theorem gives the exact condition under which it holds.
* **C07** Removal of zero-multiplicity super-droplets loses nothing else. *proved*
  Model: `remove_if` on all vectors at once, flat chemical vectors included. Proof: induction over the list of identifiers. Theorems: `C07_removal_exact`.
* **C08** Periodic boundaries map positions into the domain by a whole number of domain lengths. *proved*
  Model: `SpaceModel.periodic` with truncating `fmod`. Proof: Archimedean arithmetic on `Z` and `R`. Theorems: `C08_periodic_into_domain`, `C08_guard_necessary`. Note: over the reals; the side condition (not more than ten domain lengths below the left edge) is shown necessary.
* **C09** Open and vertical boundaries remove exactly the super-droplets outside, and the puddle counts exactly those that fell through the bottom. *proved*
  Model: masks in the order of the code, the puddle as vector of sums. Proof: case analysis per super-droplet, induction over the population. Theorems: `C09_exactly_those_outside_are_removed`, `C09_puddle_exact`, `C09_ids_to_send_exact`.
* **C10** Cell index of a super-droplet is in range and its cell contains it. *proved*
  Model: ravel and unravel of cell numbers over `nat`; cell from the position by truncation. Proof: Euclidean division. Theorems: `C10_numbering_bijective`, `C10_cell_contains_position`, `C10_after_boundary_conditions`.
* **C11** Staggered-grid neighbour tables address the right Courant numbers. *partial*
  Model: tables of faces of `init_grid`. Proof: Euclidean division; the table in 1D is refuted. Theorems: `C11_faces_3D`, `C11_faces_2D`, `C11_1D_refuted`. Note: proved for 2D and 3D; false in 1D, where the right face of every cell is its left face.
* **C12** Cell volumes add up to the volume of the Lagrangian domain. *partial*
  Model: `dv_eval`. Proof: telescoping sums over three directions; refuted for domains that leave out cells in two directions. Theorems: `C12_cell_volume_partial`, `C12_volumes_sum_partial`, `C12_cell_volume_refuted`. Note: false in general: a cell wholly outside the domain in two directions gets a positive volume; proved when at most one direction is outside.
* **C13** Calls of init/sync_in/step_cond/step_sync/step_async are accepted exactly in protocol order. *proved*
  Model: `ProtoModel`: automaton of the API whose state is that of the flags and options, outcome accepted or thrown. Proof: invariants over all histories of calls. Theorems: `C13_accepted_iff_in_order`, `C13_never_both_pending`, `C13_accepted_calls_chain`, `C13_nothing_before_init`.
* **C14** A failed init can be detected: no stepping is possible after a rejected configuration. *partial*
  Model: as C13. Proof: witness. Theorems: `C14_failed_init_refuted`. Note: false of the code: a rejected init leaves the object marked as initialised; stepping is accepted and init cannot be repeated.
* **C15** Domain decomposition partitions the domain. *partial*
  Model: `DistModel.distmem_opts`. Proof: induction over ranks, arithmetic. Theorems: `C15_columns`, `C15_every_column_once`, `C15_edges`, `C15_domain_partial`, `C15_source_partial`, `C15_short_domain_refuted`, `C15_capacity`, `C15_instance`. Note: Columns partition among devices without condition; the sub-domains and source regions partition the domain provided x0 lies in the first device's share and x1 in the last one's. Without that the claim is false: C15_short_domain_refuted..
* **C16** Distributed-memory exchange neither loses nor duplicates super-droplets. *partial*
  Model: SoA buffers, pack, unpack; the processes as a transition system with nonblocking sends and receives. Proof: an inductive invariant over all interleavings, a measure for termination, conservation as a permutation of the multiset of all super-droplets. Theorems: `C16_exchange`, `C16_every_run_ends`, `C16_number`, `C16_instance`, `C16_receive_buffer_refuted`. Note: All interleavings of the MPI exchange of any number of processes and attribute vectors, nonblocking sends and receives included, no deadlock, termination. Needs receive buffers at least as large as what the neighbours send, which the code does not ensure: C16_receive_buffer_refuted. The exchange between GPUs of one machine is C77..
* **C17** Advection moves a super-droplet with the velocity interpolated from the two faces of its cell. *partial*
  Model: `MotionModel`: three schemes as formulas. Proof: algebra over `R`. Theorems: `C17_euler`, `C17_implicit`, `C17_pred_corr`, `C17_at_most_one_cell`, `C17_walls`, `C17_implicit_refuted`, `C17_1D_refuted`, `C17_instance`. Note: 2D and 3D: exact displacement of all three schemes, distance and walls for Euler and predictor-corrector. False for the implicit scheme (distance, walls) and in 1D (no interpolation); both refuted..
* **C18** Condensation never shrinks a droplet below its dry size and moves it in the direction of its growth rate. *proved*
  Model: `CondModel.advance_rw2` for an arbitrary growth rate. Proof: uses C19; mean value arguments. Theorems: `C18_substep`, `C18_backward_euler`, `C18_variants`, `C18_instance`. Note: every growth-rate function; also accuracy of the implicit scheme.
* **C19** The TOMS748 root finder stays in its bracket and terminates. *proved*
  Model: `TomsModel`: the whole root finder as a fuelled state machine over an arbitrary function. Proof: bracket invariant, decrease of the bracket, the record of evaluations. Theorems: `C19_root`, `C19_ends`, `C19_exact_ends`, `C19_convergence`, `C19_accuracy`, `C19_hundred_iterations`, `C19_zero_iterations_refuted`, `C19_tight_tolerance_refuted`, `C19_instance`. Note: also a guaranteed rate of convergence. Outside of the quantifier: an iteration limit of zero wraps around, and a tolerance below four epsilons lets the solver leave the bracket (both refuted). Real arithmetic..
* **C20** Condensation conserves water and converts latent heat consistently. *partial*
  Model: `CondPassModel`: passes over the population, `update_th_rv`, moments of `MomsModel`. Proof: telescoping over substeps; sums over cells. Theorems: `C20_percell_water`, `C20_percell_heat`, `C20_percell_empty`, `C20_nomix_water_and_heat`, `C20_mix_water_partial`, `C20_variable_density_refuted`, `C20_mix_density_refuted`, `C20_instance`. Note: per-cell substeps and per-particle substeps without mixing: water and heat; with mixing water is conserved when the densities remembered by super-droplets are those of the cell. With a density that changes during the step the statement is false (refuted)..
* **C21** Per-cell substepping applies the host-model tendency exactly once. *proved*
  Model: as C20. Proof: telescoping. Theorems: `C21_percell`, `C21_old_values`.
* **C22** Per-particle substepping with mixing leaves all super-droplets of a cell with the same ambient state. *proved*
  Model: as C20. Proof: induction over substeps. Theorems: `C22_mixing`, `C22_order`.
* **C23** Adaptive substepping applies exactly the whole tendency of the timestep. *partial*
  Model: the search for the number of substeps with its bookkeeping of fractions. Proof: the fraction applied is tracked through the loop as a rational; refuted for the override by activation. Theorems: `C23_fraction`, `C23_adaptive_partial`, `C23_convergence_and_activation_refuted`. Note: the state returns to its initial value and the whole forcing is applied, except when the search converged and the activation rule then overrides the number found: the forcing applied differs (refuted). The critical radius is a free attribute in the refutation..
* **C24** Freezing and melting conserve water mass and keep phases exclusive. *proved*
  Model: `freeze`, `melt` and their latent heat. Proof: algebra with real powers; induction over histories. Theorems: `C24_singular`, `C24_time_dependent`, `C24_melt`, `C24_pass`, `C24_exclusive`, `C24_never_both`, `C24_instance`. Note: the pass, its latent heat, and every history of freezing, growth and other processes that only move, copy, remove or add super-droplets.
* **C25** Diagnostic selections and moments are exactly the sums over the selected super-droplets. *partial*
  Model: `DiagModel`: selections as filters on `n_filtered`, moments as reductions by key of the sorted population. Proof: histories of calls; induction over the population. Theorems: `C25_selection`, `C25_fresh`, `C25_moment`, `C25_max_rw`, `C25_other_quantities`, `C25_refused`, `C25_state`, `C25_precip_rate_refuted`, `C25_negative_bound_refuted`, `C25_instance`. Note: selections, moments and other quantities are right for all sequences of calls; false (refuted): precipitation rates overwrite cached fall speeds and so change the following condensation; ranges of radii with a negative bound..
* **C26** outbuf returns the last diagnosed quantity for every cell. *partial*
  Model: `fill_outbuf` as scatter. Proof: list lemmas; refuted for diagnostics that overwrite only occupied cells. Theorems: `C26_repeated_partial`, `C26_fields`, `C26_fields_partial`, `C26_fields_refuted`, `C26_incloud_refuted`. Note: true for quantities summed over super-droplets, and for the first outbuf after diag_pressure, diag_temperature, diag_RH; the second outbuf is wrong when some cells are empty (refuted).
* **C27** Bulk saturation adjustment (nwtrph) conserves water and keeps mixing ratios non-negative. *proved*
  Model: `Blk1mModel`: Newton iterations with clipping. Proof: algebra. Theorems: `C27_nwtrph`. Note: any number of Newton iterations; also: a saturated cell is left unchanged.
* **C28** Bulk saturation adjustment (RK4) conserves water and respects the switches. *partial*
  Model: the adaptive RK4 loop as a relation of runs that return. Proof: induction over the run; termination of the loop is not claimed. Theorems: `C28_rk4`, `C28_order_of_evaporation`, `C28_revp_alone_refuted`. Note: everything claimed is proved for runs that return; with cevp off, revp alone has no effect.
* **C29** Bulk warm-rain tendencies conserve water and obey thresholds and switches. *proved*
  Model: autoconversion and collection. Proof: algebra, `nra`. Theorems: `C29_warm_rain`.
* **C30** Bulk rain evaporation tendency conserves water, is limited by available rain, and can be switched off. *partial*
  Model: as C29. Proof: algebra; refutations by witness. Theorems: `C30_rain_evaporation_partial`, `C30_revp_ignored_refuted`, `C30_rate_times_dt_refuted`. Note: conservation, heat and limit proved; opts.revp is ignored and the rate is multiplied by dt.
* **C31** Bulk ice tendencies conserve total water and cannot make a species negative over a timestep. *partial*
  Model: all ice tendencies. Proof: algebra; refutation by witness. Theorems: `C31_ice_tendencies_partial`, `C31_euler_step_refuted`. Note: conservation, individual limits, switches, directions, temperature ranges and heat proved; non-negativity after an Euler step is false.
* **C32** Bulk sedimentation conserves mass in the column. *proved*
  Model: column loops from the top. Proof: telescoping induction over levels. Theorems: `C32_rain`, `C32_ice`. Note: columns with at least one level.
* **C33** Ice growth look-up tables are accessed in bounds. *partial*
  Model: index arithmetic of the tables. Proof: truncation arithmetic. Theorems: `C33_table_lookup_partial`, `C33_out_of_bounds_refuted`. Note: false at and below 242.16 K, where entry 32 of 32 is read.
* **C34** Temporary storage is never handed out twice and is enough for all configurations. *partial*
  Model: `PoolModel`: pools as vectors of flags; for each call of the API the sequence of borrowing and returning. Proof: invariants; exact number of vectors needed for every legal history. Theorems: `C34_exclusive`, `C34_kept`, `C34_enough`, `C34_always_enough_refuted`, `C34_stale_selection_refuted`. Note: exclusive use is proved for all histories of borrowing; for all accepted configurations the temporary vectors suffice for every legal history of calls exactly if `enough` holds (both directions); the unrestricted claim is refuted (diag_rw_ge_rc in a parcel with default options, predictor-corrector in 1D/2D, chemistry with per-particle substeps, ...), and so is the protection by selected_before_counting after sync_in. Host-side pools are not modelled.
* **C35** Variable timesteps keep substeps at most as long as configured, and are rejected when not enabled. *proved*
  Model: `adjust_timesteps`. Proof: ceil arithmetic. Theorems: `C35_variable_time_step`. Note: for a positive configured time step and at least one configured substep; adaptive condensation substeps are the subject of C23.
* **C36** Automatic increase of coalescence substeps has an effect. *partial*
  Model: as C13. Proof: all histories. Theorems: `C36_increase_is_lost_refuted`. Note: false of the code: the increased number is overwritten before it is used.
* **C37** Kappa-Koehler equilibrium radius exists in the bracket searched and is a zero of the equilibrium condition. *proved*
  Model: `KoehlerModel`. Proof: monotonicity via derivatives, intermediate values, uses C19. Theorems: `C37_nokelvin`, `C37_equilibrium`, `C37_unique`, `C37_insoluble`, `C37_initial_wet`, `C37_critical_is_stationary`, `C37_critical`, `C37_critical_large_refuted`, `C37_instance`, `C37_critical_instance`. Note: also uniqueness, accuracy and the critical radius; for dry radii above about 0.1 mm the critical radius is outside of the interval searched (refuted).
* **C38** Conversions between dry and standard potential temperature are mutually inverse. *proved*
  Model: `ThermoModel`. Proof: algebra with real powers. Theorems: `C38_conversions_inverse`, `C38_state_consistent`.
* **C39** Eulerian arrays are mapped to Lagrangian cells one to one, also with strides and halo. *partial*
  Model: `E2lModel`: index maps over `Z` with C division. Proof: Euclidean and truncating division. Theorems: `C39_real_elements`, `C39_one_to_one`, `C39_sync`, `C39_halo_yz_partial`, `C39_halo_x_refuted`, `C39_padded_halo_refuted`, `C39_kij_halo_refuted`, `C39_one_column_refuted`, `C39_instance`. Note: cells and all walls of the domain are mapped right for all strides, and y, z halos of unpadded arrays; false (refuted): halo of the Courant number in x (off by one wall), halos of padded arrays or with y as the slowest index, and cells of a domain one cell wide in x with y as the slowest index.
* **C40** Sedimentation and subsidence displace super-droplets only vertically and by velocity times timestep. *partial*
  Model: sedimentation and subsidence in `MotionModel`. Proof: algebra. Theorems: `C40_sedimentation_and_subsidence`, `C40_level`, `C40_subsidence_level_refuted`, `C40_turbulent_displacement`. Note: displacements exact; with predictor-corrector the subsidence rate is that of the predictor's level, which need not be the super-droplet's.
* **C41** Cached fall speeds are always either up to date or marked invalid when used. *partial*
  Model: validity marks of fall speeds over histories of processes. Proof: invariants. Theorems: `C41_recomputation`, `C41_collisions`, `C41_sedimentation_partial`, `C41_sedimentation_refuted`, `C41_table`. Note: true at every collision substep; false at sedimentation, where the mark -1 of droplets that have just coalesced is used as a fall speed.
* **C42** Configuration checks accept exactly consistent configurations. *partial*
  Model: the checks of `init_sanity_check` and `sync_in` as Boolean functions of all options. Proof: case analysis. Theorems: `C42_consistent_accepted`, `C42_accepted_consistent_partial`, `C42_unchecked_refuted`, `C42_sync_in_accepts`, `C42_sync_instance`. Note: all clauses proved except four that the code does not enforce, each refuted.
* **C43** In-cloud time counts consecutive time above the activation radius. *proved*
  Model: `InCloudModel` over histories of all processes. Proof: refinement to a function of the history of each droplet. Theorems: `C43_history`, `C43_without_collisions`, `C43_disabled`, `C43_clean_up_copies`, `C43_instance`. Note: for all histories of steps, coalescence, transport, removal, recycling and addition the recorded time is the sum of the timesteps since last deactivated, maximised over merges.
* **C44** Sorting super-droplets groups them by cell and per-cell counts are exact. *proved*
  Model: `HskpngModel`: sort as a relation, counting by reduction. Proof: permutations and sortedness. Theorems: `C44_sort_groups_by_cell`, `C44_counts_exact`.
* **C45** Super-droplets created in a cell lie in that cell and inside the domain, with the requested count. *partial*
  Model: `InitModel`: counts, sizes, multiplicities, positions. Proof: sums of midpoint-like rules for functions with bounded slope (error bound stated), truncation arithmetic. Theorems: `C45_one_distribution`, `C45_several_distributions_partial`, `C45_two_distributions_refuted`, `C45_const_multi`, `C45_integral`, `C45_dry_size`, `C45_positions`, `C45_positions_refuted`, `C45_range_found`, `C45_search_ends_refuted`. Note: counts, sizes, multiplicities and positions for one distribution, constant multiplicity and given sizes; for several distributions only if the shares of super-droplets are whole numbers dividing sd_conc (otherwise refuted: integer division loses up to two thirds of the particles); positions for cells meeting the domain (refuted for corner cells outside it).
* **C46** The advection scheme falls back to Euler only for the step whose Courant numbers require it. *partial*
  Model: as C13. Proof: histories. Theorems: `C46_scheme_fallback_is_per_step_partial`, `C46_scheme_refuted`. Note: proved when earlier calls were acceptable and Courant numbers are passed with the step; two counterexamples otherwise.
* **C47** Within a step everything that moves particles precedes the boundary conditions, exchange, removal and re-indexing. *partial*
  Model: the list of operations performed by a step. Proof: list lemmas on all configurations. Theorems: `C47_order_of_operations`, `C47_order_in_full`, `C47_what_is_performed`, `C47_rejected_step_moves_particles_refuted`. Note: order proved; a step rejected because the source was not configured has already moved particles.
* **C48** A process disabled in the initial options never runs. *partial*
  Model: as C13. Proof: all histories. Theorems: `C48_disabled_process_never_runs_partial`, `C48_unchecked_processes_refuted`. Note: false for turbulent collisions and turbulent supersaturation, which are not checked; proved for the rest including chemistry, although a call that asks for chemistry that was not configured is refused only after condensation has been performed.
* **C49** Saturation vapour pressure obeys the Clausius-Clapeyron equation and orders ice and liquid saturation. *proved*
  Model: `ThermoModel`. Proof: derivatives and monotonicity. Theorems: `C49_clausius_clapeyron`, `C49_saturation`.
* **C50** Aerosol sources and relaxation act every so many steps. *proved*
  Model: counters of steps. Proof: induction over steps. Theorems: `C50_super_steps`, `C50_source_count`, `C50_instance`. Note: which super-droplets a source creates is the subject of other properties.
* **C51** Droplets grow in air more humid than their surface and shrink in drier air. *partial*
  Model: `CondModel` growth rate, ventilation coefficients. Proof: sign analysis. Theorems: `C51_ventilation`, `C51_growth_sign`, `C51_substep`, `C51_invalid_fall_speed_refuted`, `C51_instance`. Note: holds for non-negative fall speeds; the mark -1 left by collisions (C41) makes large drops evaporate in supersaturated air.
* **C52** Deposition keeps ice crystals ice and grows them exactly in ice-supersaturated air. *proved*
  Model: `CondModel` for ice. Proof: sign analysis. Theorems: `C52_ice`, `C52_instance`.
* **C53** Freezing has the stated statistics, whatever the time step. *proved*
  Model: `IceInitModel`, `CondPassModel`. Proof: algebra of exponentials. Theorems: `C53_probability`, `C53_size`, `C53_temperature`, `C53_monotone`, `C53_instance`. Note: mineral particles, the only type the library has; random number 0 gives an infinite freezing temperature and is excluded.
* **C54** Freezing temperatures of new super-droplets are drawn afresh. *partial*
  Model: use of the scratch vector of random numbers across batches. Proof: index arithmetic. Theorems: `C54_partial`, `C54_later_batches_refuted`. Note: true for the first batch; later batches read the random numbers at a shifted position and use what scratch memory contained (refuted).
* **C55** The mass density estimate uses the number of super-droplets of the cell it is made for. *partial*
  Model: `DiagModel`. Proof: as C25; the integral over sizes from the Gaussian integral (GaussInt), term by term. Theorems: `C55_mass_density_partial`, `C55_mass_density_refuted`, `C55_total_mass`, `C55_mass_integral`, `C55_mass_instance`. Note: true when every cell has super-droplets (then also its integral over the logarithm of radius is the mass of the selected droplets per volume, C55_mass_integral: the Gaussian integral with the standard library and Coquelicot); with empty cells the number of super-droplets of another cell is used (refuted).
* **C56** A source adds aerosol in its region at its rate. *partial*
  Model: `InitModel.src_*` over histories of steps. Proof: as C45, sums over histories. Theorems: `C56_cells`, `C56_from_distribution`, `C56_of_size`, `C56_rate_partial`, `C56_never_late`, `C56_variable_timestep_refuted`, `C56_interrupted_refuted`, `C56_instance`. Note: cells and single additions proved; the rate proved for the timestep given at initialisation and sources on for whole periods, refuted for a changed timestep and for sources interrupted within a period.
* **C57** The source that matches existing aerosol adds the same amount as one that does not. *partial*
  Model: `MatchModel`: sort, groups by key, choice of one member per group. Proof: runs of equal keys; permutation between bins and amounts added. Theorems: `C57_matching_partial`, `C57_cells_mixed_refuted`, `C57_predictor_corrector_refuted`, `C57_instance`. Note: proved when the last occupied bin of a cell and the first of the next one differ (told_apart), for all populations, random numbers and sizes; without it cells are mixed up: one gets nothing and another twice its share (refuted); with predictor-corrector advection super-droplets are seen two columns away, outside of the grid for the last two columns (refuted).
* **C58** Collision kernels are symmetric, non-negative and defined. *partial*
  Model: KernelModel (kernels.hpp, kernel_onishi_nograv.hpp, wang_collision_enhancement.hpp, init_kernel), over reals; an access outside of an array, a root of a negative number or a zero denominator is None. Proof: algebra for symmetry, sign lemmas, bounds of the enhancement table by enumeration of its 154 entries; refutations by computing with bounds of exp, tanh and log10. Theorems: `C58_symmetric`, `C58_nonneg`, `C58_defined_partial`, `C58_values`, `C58_equal_radii_refuted`, `C58_enhancement_argument_refuted`, `C58_length_scale_refuted`, `C58_instance`. Note: symmetry and sign proved for all kernels; a result exists for all but the turbulent kernels, which read outside of a table for two droplets of equal radius up to 0.1 mm (refuted), get the Reynolds number in place of the dissipation rate (refuted) and use a length scale of 1 m because of an integer quotient (refuted).
* **C59** Tabulated collision efficiencies are looked up in bounds and interpolated. *partial*
  Model: KernelModel (kernel_interpolation.hpp, kernel_utils.hpp); the rounding of the limit is a parameter, instantiated by Flocq formats in KernelFloat. Proof: cell of the table from truncation, index arithmetic for the triangle, convexity. Theorems: `C59_interpolation`, `C59_efficiency`, `C59_double_precision`, `C59_single_precision_refuted`. Note: proved in double precision (rounding of the limit by Flocq); in single precision the limit rounds to the last radius and droplets of 1.1 mm are looked up outside of the table (refuted).
* **C60** Relaxation brings missing aerosol back at its time scale and never beyond. *partial*
  Model: RlxModel (rlx_dry_distros, its counter in step_async, options of one process), over reals; the results of unstable sorts are relations. Proof: sums over groups of neighbours (run_sums_group) give the number per level whatever the order; groups of new super-droplets as in InitProofs; rounding of multiplicities. Theorems: `C60_relaxation_partial`, `C60_several`, `C60_volume`, `C60_timing`, `C60_distributed_refuted`, `C60_with_source_refuted`, `C60_random_numbers_refuted`, `C60_instance`. Note: amounts, sizes, cells and levels proved for a whole number of super-droplets per bin, for all populations and results of sorting; refuted: one super-droplet per bin shared by several processes (each adds a multiple), relaxation after a source in the same step (its super-droplets are not counted, the first one repeatedly), and the length of the vector of random numbers.
* **C61** The double-moment bulk scheme conserves water and energy in a cell. *partial*
  Model: Blk2mModel (all formulae of blk_2m, rhs_cellwise, rhs_columnwise), over reals; std::tgamma, std::erfc, std::erf and machine epsilon are parameters. Proof: algebra of limiters for a cell, lifted to a call by induction over cells; refutation by a cell at the triple point with bounds on powers. Theorems: `C61_water_partial`, `C61_water_created_refuted`, `C61_instance`. Note: heat proved; the sum of water tendencies proved never negative and zero unless autoconversion and accretion together exceed the cloud water per time step; then water appears in the rain from nowhere (refuted).
* **C62** The double-moment bulk scheme keeps mixing ratios and numbers non-negative. *partial*
  Model: as C61. Proof: bounds of both groups of limited tendencies; for the refutations a subsaturation small enough for the limiter of evaporation not to act, and a long time step. Theorems: `C62_nonnegative_partial`, `C62_cloud_negative_refuted`, `C62_vapour_negative_refuted`, `C62_instance`. Note: rain water and both numbers proved; cloud water proved in saturated air or without collisions and refuted otherwise (evaporation and collisions are limited separately); vapour refuted for long time steps.
* **C63** Each process of the double-moment bulk scheme has its documented effect and none when switched off. *partial*
  Model: as C61; assumed of tgamma: positive, recurrence, value at 1 (such a function is constructed). Proof: one process at a time; mean radius specified by the moments of the gamma distribution. Theorems: `C63_cells`, `C63_off_partial`, `C63_off_refuted`, `C63_activation`, `C63_condensation`, `C63_autoconversion`, `C63_accretion`, `C63_instance`. Note: every process alone proved, for cells without droplets or drops that have no water; those are removed also with all processes off (refuted). tgamma assumed positive with its recurrence, erfc within 0 and 2.
* **C64** Sedimentation of rain in the double-moment bulk scheme conserves mass and stays non-negative. *partial*
  Model: as C61. Proof: closed form of the fluxes by induction over levels from the top, telescoping sum. Theorems: `C64_sedimentation`, `C64_from_below_refuted`, `C64_instance`. Note: proved when the tendencies so far leave non-negative rain; otherwise the flux reverses and rain enters through the bottom of the domain (refuted).
* **C65** Fall speeds of rain in the double-moment bulk scheme are means over the drop size distribution. *proved*
  Model: as C61; erf is any function with the right derivative (constructed as an integral). Proof: derivatives of the closed forms (Coquelicot), fundamental theorem on four intervals, limit of the tail. Theorems: `C65_fall_speeds`, `erf_exists`, `gamma_exists`. Note: for every function with the derivative of the error function; the integral over all sizes is the limit of integrals.
* **C66** Uptake of trace gases: droplets approach Henry's law equilibrium, no gas is lost. *partial*
  Model: ChemModel (all of src/impl/chemistry with its formulae, the loop of step_cond, init_chem), over reals. Proof: closed form of the implicit step; sums per cell after a sort (MomsProofs). Theorems: `C66_droplet`, `C66_converges`, `C66_conservation_partial`, `C66_constants`, `C66_created_refuted`. Note: each droplet proved; the total per cell proved never to decrease and to be conserved while the air keeps some of the gas; when droplets take up more than there is (each as if alone) the air is set to zero and gas has been created (refuted by a cloud of pH 5 and nitric acid).
* **C67** Dissociation: H+ is the solution of electroneutrality. *partial*
  Model: as C66; the root finder is TomsModel. Proof: dissociation equilibria and charge as a separate specification; the charge is strictly increasing in H+; TomsProps for the bracket. Theorems: `C67_constants`, `C67_ions`, `C67_charge`, `C67_dilute`, `C67_neutral_unique`, `C67_solved`, `C67_state`, `C67_alkaline_refuted`, `C67_alkaline_witness`, `C67_instance`. Note: proved when the neutral concentration lies within the search bracket (pH -1 to 8); outside of it (refuted, with an ammonia solution as a witness) the root finder returns an end of the bracket near pH -1 and the droplet is excluded from chemistry afterwards. Conversion of bracket ends to float in the tolerance test not modelled.
* **C68** Oxidation of sulphur: rate laws, stoichiometry, no negative amounts. *proved*
  Model: as C66. Proof: limiters, then bounds of the four stages: at least 3/8 of each reactant remains. Theorems: `C68_constants`, `C68_rates`, `C68_consistent`, `C68_bounds`, `C68_stoichiometry`, `C68_progress`, `C68_instance`. Note: reals; odeint runge_kutta4 modelled as the classical scheme.
* **C69** A step of chemistry: substeps, switches, conservation. *partial*
  Model: as C66. Proof: trajectory of substeps, induction; clean-up only raises masses and is the identity on non-negative ones. Theorems: `C69_never_lost`, `C69_spread_partial`, `C69_ozone_refuted`, `C69_switch`, `C69_conserved_partial`, `C69_history_partial`, `C69_pause_refuted`, `C69_instance`, `C69_history_instance`. Note: over histories of steps the gases go from what the host last received to what it gives, in equal parts; refuted after a step with dissolution switched off (the stale values are used); totals never decrease without hypotheses, and are conserved while the air does not run out of a gas; spreading of the change proved except for ozone without variable density, which gets all of it in the first substep (refuted).
* **C70** Composition of dry particles. *proved*
  Model: as C66, and init_chem_aq. Proof: invariant of histories of steps. Theorems: `C70_initial`, `C70_growth`, `C70_history`, `C70_instance`. Note: histories of chemistry steps; other processes do not change masses in droplets except coalescence (C01 to C04).
* **C71** Candidate pairs are sampled without bias; mean number of collisions. *proved*
  Model: CoalModel, HskpngModel. Proof: exchanging two super-droplets of a cell permutes the orders, so all pairs are candidates equally often; double counting gives how often; Riemann integral over the random number. Theorems: `C71_candidates`, `C71_rounding`, `C71_mean`, `C71_instance`. Note: the random order is modelled as any permutation, all equally likely (distinct random keys); random numbers of pairs uniform on [0,1] (Riemann integral).
* **C72** Subgrid turbulence: perturbations of velocity. *proved*
  Model: TurbModel: tke, tau, update_turb_vel, hskpng_tke, hskpng_turb_vel, step_async part. Proof: energy and time scale as unique solutions of their defining equations; moments of the iterated update by induction on steps, for any linear expectation. Theorems: `C72_energy`, `C72_time_scale`, `C72_statistics`, `C72_pass`, `C72_still_air`, `C72_length_scales`, `C72_instance`. Note: random numbers are any uncorrelated ones with mean zero and unit variance; reals; where the dissipation is zero the perturbation stays as it was.
* **C73** Subgrid turbulence: perturbation of supersaturation relaxes. *partial*
  Model: TurbModel: hskpng_turb_dot_ss, tau_relax; CondPassModel: apply_sgs_supersat. Proof: sum over sorted population (scatter_sums); iteration over substeps; convexity for short steps and a counterexample for long ones. Theorems: `C73_tendency`, `C73_applied`, `C73_relaxation_partial`, `C73_relaxation_refuted`. Note: tendency and its application proved; relaxation proved when the time step does not exceed the relaxation time; otherwise the perturbation overshoots and oscillates with growing amplitude (refuted).
* **C74** Diagnosed divergence of velocity. *partial*
  Model: VelDivModel: diag_vel_div, over SpaceModel (faces), E2lModel (host arrays), DiagModel (outbuf). Proof: composition of C11 (faces), C39 (host elements) and the scatter of outbuf. Theorems: `C74_divergence_partial`, `C74_variable_dt_refuted`, `C74_1D_refuted`, `C74_0D`, `C74_instance`. Note: proved in two and three dimensions for the time step of initialization; with a variable time step the result is off by the ratio of time steps, and in one dimension it is always zero (refuted).
* **C75** Lognormal distributions offered to users. *proved*
  Model: LognormModel: n_e, n_r. Proof: Gaussian integral proved in GaussInt (differentiation under the integral, Coquelicot); primitives and limits; substitution r = exp x. Theorems: `C75_lognormal`, `C75_moments`, `C75_small_stdev_refuted`, `C75_instance`. Note: for stdev above one; below one (nothing checks) concentrations are negative.
* **C76** Hydrostatic pressure profile offered to users. *proved*
  Model: LognormModel: hydro_p, R_moist; ThermoModel: std_rhod. Proof: derivative of the profile; uniqueness by the mean value theorem for (p/p1000)^(Rd/cpd). Theorems: `C76_hydrostatic`, `C76_instance`. Note: reals.
* **C77** Multi-GPU exchange of super-droplets under all interleavings. *partial*
  Model: McudaModel: the program of each host thread as 34 guarded instructions; asynchronous copies element by element in any order, events, barrier with generations; buffers with their lengths, so that overruns and reallocation under a copy are states (Corrupt). Proof: invariant relating every thread to the position of a sequential program (the one of C16) with the same effects; the barrier and event conditions give that no buffer is read or overwritten too early; then the conservation argument of C16. Theorems: `C77_exchange_partial`, `C77_never_corrupt`, `C77_every_run_ends`, `C77_receive_buffer_refuted`, `C77_growth_race_refuted`, `C77_instance`. Note: All interleavings of threads and of the transfer of single elements, any number of devices and attributes. Needs buffers that are large enough before the step, which the code does not ensure: a copy then writes beyond the receive buffer (C77_receive_buffer_refuted), or a device enlarges its receive buffer while its neighbour is copying into it (C77_growth_race_refuted)..
* **C78** Multi-GPU backend: accepted options, outbuf and diag_puddle. *partial*
  Model: McudaDiagModel: constructor, outbuf with the semantics of std::bind, diag_puddle; DiagModel for the devices. Proof: case analysis; copies into adjacent ranges by induction over devices, with C15 for the ranges. Theorems: `C78_constructor`, `C78_accepted`, `C78_outbuf_layout_partial`, `C78_outbuf_ignores_refuted`, `C78_outbuf_refuted`, `C78_puddle`, `C78_instance`. Note: constructor and diag_puddle proved; outbuf returns old contents of host vectors, since std::bind copies the vector to be filled (refuted for all diagnostics); what holds is the layout of the array.
* **C79** Python: NumPy arrays passed as fields and profiles. *partial*
  Model: PyModel.np2ai on shape, strides, dtype and contiguity flag of an array, std::vector overruns visible; E2lModel for the library side. Proof: case analysis on dimensionality, then C39; concrete counterexamples. Theorems: `C79_fields_partial`, `C79_written_partial`, `C79_profiles_partial`, `C79_parcel`, `C79_only`, `C79_refused_partial`, `C79_outbuf`, `C79_dimensions_refuted`, `C79_size_refuted`, `C79_profile_halo_refuted`, `C79_one_element_stride_refuted`, `C79_one_cell_refuted`, `C79_instance`. Note: proved for arrays of the right shape and NumPy's own strides, and for profiles without halo; refuted: too many dimensions overwrite memory, sizes are not checked, profiles of Courant numbers are read before their start with the predictor-corrector scheme, arbitrary strides of one-element dimensions, one-cell 1D set-ups.
* **C80** Python: arguments by name and assigned options. *partial*
  Model: PyModel.call: the argument matching of Boost.Python on the exposed signatures; setters as functions on option values; std::map as a list sorted by operator<. Proof: induction over parameter lists; induction over dicts. Theorems: `C80_keywords`, `C80_init_partial`, `C80_init_refuted`, `C80_profiles`, `C80_accumulate_refuted`, `C80_order`, `C80_dict`, `C80_sorted`, `C80_instance`. Note: proved for step_sync, sync_in, step_cond, w_LS, SGS_mix_len and dicts; in init the names th, rv and rhod denote the next parameter each, and kernel_parameters and dry_distros of blk_2m accumulate (refuted).
* **C81** Budgets of water, aerosol and particle number over whole runs. *proved*
  Model: StepModel: the parts of step_sync and step_async in the order of particles_step.ipp, made of CondPassModel, CoalModel, SpaceModel and RcycModel; what does not matter for budgets is arbitrary. Proof: each part preserves an invariant and the budget, from C03, C05, C06, C09, C10, C20, C24; sums over cells into sums over super-droplets; induction over runs. Theorems: `C81_water`, `C81_dry_aerosol`, `C81_number`, `C81_state`, `C81_instance`. Note: any number of steps without chemistry on one device; attributes of new super-droplets, velocities, fall speeds and kernels are arbitrary. The two conditions of the statement are necessary: C20_variable_density_refuted, C06_no_zero_left_refuted..
* **C82** Efficiencies of the collision kernels the library comes with. *partial*
  Model: EffHall etc.: the numbers of src/detail/kernel_definitions, in millionths, converted by a script; EffModel: which kernel has which table; the rest from KernelModel and KernelFloat. Proof: each table is checked entry by entry by computation in the kernel (vm_compute), the result is turned into a statement on entries by induction, and extended to all radii by the bilinear interpolation of C59. Theorems: `C82_range`, `C82_kernel`, `C82_gap`, `C82_variants`, `C82_variants_turbulent`, `C82_nonneg`, `C82_single_precision_refuted`, `C82_instance`. Note: all of the statement is proved for double precision with the tables copied from the source; in single precision every drop of 1.1 mm or more makes the code read outside of the tables (C82_single_precision_refuted). That the turbulent kernels have a value is not part of this claim, see C58..
* **C83** Halos of Courant numbers and domain edges between MPI processes. *partial*
  Model: CourModel: xchng_courants and xchng_domains as lists of MPI_Isend and MPI_Recv with the tags, offsets and counts of the code; processes, messages matched by source, destination and tag in order, buffers read at any moment after the send. Proof: an invariant over all interleavings (program counters, messages on their way, memories), progress from the process that is least advanced, a decreasing measure; then index arithmetic on columns. Theorems: `C83_ends`, `C83_halo`, `C83_only_halo`, `C83_in_bounds`, `C83_domains`, `C83_init_buffers`, `C83_narrow_refuted`, `C83_buffer_refuted`, `C83_instance`. Note: proved for parts that are at least as wide as the halo (two cells); refuted for narrower ones (C83_narrow_refuted). Sends are never waited for: after init the arrays may be changed (C83_init_buffers), after xchng_courants alone MPI may still have to read them (C83_buffer_refuted). C83_domains provides what C16 assumes about lft_x1 and rgt_x0..
* **C84** Flow of the kinematic model. *partial*
  Model: KinModel: stream function, momentum, density, Courant numbers and region of the particles of the 2D kinematic model. Proof: product formulas of trigonometry; the density profile from C76; sign arguments for the refutations. Theorems: `C84_flow`, `C84_courants`, `C84_ground_refuted`, `C84_spacing_refuted`, `C84_instance`. Note: the flow is as claimed; the Courant numbers conserve mass if the advection library's dj equals the spacing of levels (the repository never sets it: with zero they would not, C84_spacing_refuted); since densities below and above the ground differ, droplets at the ground are carried through it in downdraughts (C84_ground_refuted). Numbering of faces as in libmpdata++ (not in the repository); reals instead of single precision..
* **C85** Kinematic model: background steps, spin-up, relaxation. *partial*
  Model: KinModel: hook_post_step as the list of what the main thread does with the future and the particles; a background thread that ends at any time; hooks of spin-up and relaxation. Proof: an abstract reading of the code (is a step pending?) shown by induction over steps to be consistent; invariant over interleavings; induction over timesteps for the spin-up. Theorems: `C85_one_at_a_time`, `C85_background`, `C85_second_advance_refuted`, `C85_spinup`, `C85_negative_spinup_refuted`, `C85_spinup_instance`, `C85_relaxation`, `C85_instance`. Note: proved for one call of advance(), which is what the model makes; a second call could destroy the particles under the background thread (C85_second_advance_refuted). Spin-up proved for non-negative lengths; negative ones are accepted and relax towards values never set (C85_negative_spinup_refuted)..
* **C86** Attributes read back one per super-droplet. *partial*
  Model: AttrModel: the vectors with their lengths, as a function of the options; resizing, removal (with unspecified leftovers), recycling copies, arrivals; fill_attr_outbuf; the three packed vectors of chemical masses and their offsets. Proof: simulation: the vectors hold the columns of a list of records on which each operation has its plain meaning (append, filter, update); offsets of packed blocks by cases on the compound. Theorems: `C86_get_attr`, `C86_storage`, `C86_limit`, `C86_after_exception_refuted`, `C86_overrun_refuted`, `C86_instance`, `C86_initial_composition`, `C86_growth_refuted`. Note: proved for all histories without an exception; after an exception (n_sd_max exceeded) the number of super-droplets is already changed and get_attr returns too many values, or, after super-droplets have arrived from other processes, writes past the end of its result (refuted). C86_growth_refuted: why sources are refused with chemistry. Arrivals are modelled with their attributes already matched to vectors (the packing is C16)..
* **C87** What super-droplets remember is right whenever condensation uses it. *partial*
  Model: MemoModel: histories of events (sync_in, condensation, oxidation, coalescence passes of CoalModel, motion, sources, copies) acting on the stored critical radius and remembered air; what condensation computes is arbitrary; consequences on CondPassModel. Proof: invariant over histories: every stored critical radius is right or -1, right after each refresh; the memory of the air against a separately defined record of what each has last seen; counterexample histories. Theorems: `C87_critical_radius`, `C87_critical_radius_recovers`, `C87_critical_radius_or_missing`, `C87_air`, `C87_air_recovers`, `C87_source_refuted`, `C87_never_without_coalescence`, `C87_oxidation_refuted`, `C87_short_step_refuted`, `C87_activation_substeps`, `C87_no_activation_substeps`, `C87_first_substep`, `C87_first_substep_remembered`, `C87_first_substep_of_new_refuted`, `C87_adaptive_substep_of_new_refuted`, `C87_instance`, `C87_new_instance`. Note: proved for all histories without sources, relaxation, oxidation and coalescence in short timesteps; with sources and relaxation only from the next coalescence (critical radius) or condensation (air) on. False in the code otherwise: the initialisation of these attributes after sources and relaxation is commented out, so that new super-droplets have -1 and zeros in the first condensation (C87_source_refuted; for ever for the critical radius without coalescence), with the consequence that they get no activation substeps and that the first of n substeps has 1/n of the temperature, humidity and density; oxidation does not update the critical radius; coalescence in a timestep with a single activation substep loses it (C87_short_step_refuted).
* **C88** Whole runs of the kinematic model with single-moment microphysics lose water only as rain at the ground. *partial*
  Model: Kin1mModel: the driver of the kinematic model for the single-moment scheme (hooks, saturation adjustment, relaxation, tendencies cell by cell and column by column, Euler step), composing Blk1mModel and the spin-up of KinModel; advection an arbitrary function. Proof: induction over the steps: C28 for the adjustment, C29 for the cells, telescoping fluxes in the columns; the targets of relaxation traced back to the end of the spin-up; a counterexample for the signs. Theorems: `C88_water`, `C88_spinup`, `C88_signs`, `C88_long_step_refuted`, `C88_instance`. Note: budget and spin-up proved for all runs with a non-negative spin-up in which the adjustment ends; the signs only for timesteps shorter than the times of collection and of falling through a level: nothing limits the collection of cloud water, so that a long timestep makes it negative (C88_long_step_refuted). Advection (libmpdata++, not in the repository) is any function that leaves the density alone and moves water; the order of hooks is that of its euler_b scheme..
* **C89** Whole runs of the kinematic model with double-moment microphysics neither gain nor lose water, and keep amounts non-negative. *partial*
  Model: Kin2mModel: the driver of the kinematic model for the double-moment scheme (hooks, spin-up options, relaxation, tendencies cell by cell and column by column, Euler step), composing Blk2mModel and the spin-up of KinModel; advection an arbitrary function. Proof: induction over the steps: the cell-wise bounds of C61 and C62 without assumptions on vapour and cloud water, the limited fluxes of C64, telescoping in the columns; two counterexamples as runs of one cell at rest. Theorems: `C89_water_partial`, `C89_signs`, `C89_spinup`, `C89_water_created_refuted`, `C89_cloud_negative_refuted`, `C89_instance`. Note: budget, spin-up and signs of rain water and of both numbers proved for all runs with a non-negative spin-up, of any timestep. The full claim is false of the code: accretion beyond the cloud water there is creates rain (C89_water_created_refuted; the budget says by how much, and that the scheme never destroys water), and evaporation and collisions in one step make cloud water negative (C89_cloud_negative_refuted; by at most what there was, made up for by the next step). Advection (libmpdata++, not in the repository) is any function that leaves the density alone and moves water; the order of hooks is that of its euler_b scheme..
* **C90** The statistics asked for on the command line of the kinematic model are the ones recorded, each under its own name. *partial*
  Model: OutModel: the grammar of the output options with the skipping of white space, prefix search for the bar, integer syntax and limits, names of output fields, and the sequence of calls of the diagnostic API made by diag, diag_chem and diag_pH, run on DiagModel. Proof: equivalence with an inductive relation on the text without white space by induction on the parser; unique decoding of padded names; the values by the moment theorem of C25 along the list of calls, whose selections do not change the state. Theorems: `C90_requests_partial`, `C90_as_written`, `C90_no_bar_refuted`, `C90_names`, `C90_recorded`, `C90_chem_partial`, `C90_instance`. Note: an exact characterisation (iff) of the accepted texts and of what they ask for; the recorded fields, their values and names for all states. Partial because the code does not meet the full claim: a request without a bar is accepted and read as its upper bound also being its list of moments (C90_no_bar_refuted), and with several ranges the chemical compounds of all ranges are recorded under the same names (last clause of C90_chem_partial). Reading a real number (boost::lexical_cast) is any function; negative moments are parsed but their values are not stated; the file of puddles is not modelled..
* **C91** A run of the kinematic model with super-droplets is refused at its start or carried out, and then performs exactly the processes asked for. *partial*
  Model: LgrModel: the driver of the kinematic model for super-droplets, from the command line over backend, kernel, velocity and scheme names and the options of each step (spin-up of KinModel, set_chem) to the sequence of calls of the library, run on ProtoModel and the kernel factory of KernelModel. Proof: the conditions of C13 and C48 instantiated along the run by induction over the steps; case analysis on names; the operations of each step by C47; concrete command lines as counterexamples. Theorems: `C91_carried_out`, `C91_refused_early`, `C91_processes_partial`, `C91_onishi_refuted`, `C91_onishi_instance`, `C91_no_substeps_refuted`, `C91_reactions_refuted`, `C91_after_growth_refuted`, `C91_instance`. Note: an exact characterisation (iff) of the command lines that are carried out, of when others are refused, and of every step of a run. Partial because the code does not meet the full claim: the two Onishi kernels offered by --help cannot be used, even without collisions (C91_onishi_refuted); zero collision substeps are accepted and turn collisions off (C91_no_substeps_refuted); the end of the spin-up turns reactions on that were not asked for (C91_reactions_refuted); options of chemistry without chemistry are refused only after condensation of the first step (C91_after_growth_refuted); without assertions an unknown advection scheme silently is the implicit one (C91_carried_out asks for a known scheme with assertions only). The multi_CUDA backend is treated as not compiled; diagnostics and output (C90) are not calls of this model..
* **C92** A liquid droplet is never smaller than its dry particle, over whole runs. *partial*
  Model: StepModel of C81 (runs of whole steps without chemistry). Proof: an invariant of each process of the step (condensation by C18, collisions by the maximum of the pair, freezing by mass, recycling by origin of every copy) and induction over the steps; the refutation is a run of five steps (freezing, sublimation to the smallest crystal, melting) constructed explicitly. Theorems: `C92_never_drier_partial`, `C92_melting_refuted`, `C92_instance`. Note: by induction over the steps of the runs of C81, in all substepping modes of condensation, with freezing, sublimation, collisions, sources, walls and recycling. Partial because the full claim is false of the code: a crystal sublimates down to 1 nm whatever its dry particle and, when it melts, leaves a droplet smaller than its dry particle, which C92_melting_refuted shows in a run of five steps; the theorem therefore asks that a crystal that melts holds at least the volume of its aerosol (and that sources add droplets not smaller than their aerosol, which C37_initial_wet shows of the sizes the library gives them)..
* **C93** Soluble material is conserved and hygroscopicity stays within its range, over whole runs. *partial*
  Model: StepModel of C81 (runs of whole steps without chemistry). Proof: each process of the step keeps the dry volumes and hygroscopicities or is accounted for (C03 and C04 for collisions, C09 for walls, C05 for recycling), then induction over the steps; the refutation is a run of two steps with one or two kinds of aerosol at the start. Theorems: `C93_range`, `C93_soluble_partial`, `C93_uniform`, `C93_unmixed_refuted`, `C93_instance`. Note: by induction over the steps of the runs of C81, in all substepping modes, with sources, walls, collisions and recycling. The range of hygroscopicities is proved without restriction (C93_range); with a single hygroscopicity the total follows the dry volume, including what fell out (C93_uniform). Partial because conservation of the total is false of the code when only one kind of aerosol is given at the start and sources bring another: collisions then do not mix hygroscopicities, and C93_unmixed_refuted is a run of two steps (a source, then a collision) in which four fifths of the soluble material vanish; C93_soluble_partial therefore asks for at least two kinds at the start, or no collisions..
* **C94** Budgets of nitrogen, carbon and sulphur over whole runs with chemistry. *partial*
  Model: StepChemModel: whole steps with chemistry (step_sync from sync_in to chemistry, step_async); condensation, host fields and motion over-approximated by any outcome. Proof: each process of the step keeps the totals or is accounted for (C69, C70 for chemistry, C03 for collisions, C09 for walls, C05 for recycling), then induction over the steps. Theorems: `C94_never_lost`, `C94_conserved_partial`, `C94_aerosol_grows_by_sulfate`, `C94_state`, `C94_instance`. Note: by induction over the steps of runs that chain the models of chemistry, coalescence, boundary conditions, recycling and removal (StepChemModel); everything else in a step may have any outcome. Nothing is ever lost (C94_never_lost) and dry aerosol grows exactly by the sulfate produced, including what is on the ground or left (C94_aerosol_grows_by_sulfate), without restriction. Partial because exact conservation is false of the code when a cell runs out of a gas, which is then created (C66_created_refuted); C94_conserved_partial asks for some gas in every substep..
* **C95** Budgets over whole runs on several MPI processes. *partial*
  Model: StepMpiModel: each process as in StepModel, exchange by DistModel (any order of events), recycling and removal; chemistry not included. Proof: the first part of a step and the walls as for C81, the exchange by the invariants of DistModel/ExchProps (C15, C16), tidying by C05, sums over processes, then induction over the steps. Theorems: `C95_water`, `C95_dry_aerosol`, `C95_number`, `C95_state`, `C95_instance`. Note: by induction over the steps of runs in which each process performs the parts of StepModel, super-droplets are exchanged by the asynchronous protocol of DistModel in any order of events, and each process recycles and removes (StepMpiModel); runs in which no process throws; without chemistry, which the code forbids with MPI. Partial because each exchange is assumed to fit in the receive buffers (C16_receive_buffer_refuted: the code does not guarantee it) and no super-droplet to fly beyond the neighbouring sub-domain in one step; C95_instance runs two processes in a periodic domain whose super-droplets swap..
* **C96** The exchange between MPI processes never hangs and has one outcome, at every step of a run. *partial*
  Model: StepMpiModel, DistModel. Proof: the state before the exchange is admissible by C95; then the final state of every order of moves is computed (ExchInv), and moves decrease a measure. Theorems: `C96_ends`, `C96_one_outcome`, `C96_goes_on`, `C96_instance`. Note: for the state after any run of C95 and any first part of a step: accessibility of the moves of DistModel (no infinite exchange), every maximal exchange ends without a communication failure in one and the same state, and throws exactly where there is no room. Partial because the exchange is assumed to fit in the receive buffers (C16_receive_buffer_refuted) and nobody to fly beyond the neighbouring sub-domain..
* **C97** Soluble material and hygroscopicity over whole runs on several MPI processes. *partial*
  Model: StepMpiModel. Proof: parts of a step as for C93, the exchange as a permutation of super-droplets, then induction over the steps. Theorems: `C97_range`, `C97_soluble_partial`, `C97_instance`. Note: as C93, over the runs of C95: the exchange is shown to keep every function of the attributes other than x (exch_any). Partial as C93: without mixing soluble material is not conserved in collisions (C93_unmixed_refuted), and as C95: receive buffers..
* **C98** Fall speeds are positive, and larger droplets fall faster. *partial*
  Model: VtermModel (formulae of vterm.hpp with their coefficients). Proof: signs of all factors; the Khvorostyanov-Curry speed in terms of s = sqrt(1+0.0902 sqrt X) through logarithms, and its order by algebra in s; polynomials of Beard 1977 bounded on covering intervals by Taylor expansions in rational arithmetic (VtermPoly), then the mean value theorem; Stokes law by the same bounds of exponents; viscosity bounded on three intervals of temperature. Theorems: `C98_positive`, `C98_ice_positive`, `C98_khvorostyanov_reynolds`, `C98_larger_faster_partial`, `C98_larger_faster_refuted`, `C98_larger_faster_77_partial`, `C98_sea_level`, `C98_stokes`, `C98_stokes_instance`, `C98_all`, `C98_air_instance`, `C98_instance`. Note: the formulae of vterm.hpp are modelled with their coefficients; positivity for all five choices and for ice. Order proved for Khvorostyanov-Curry spheres at any radius, Beard 1976 up to 9.5 um, and the sea-level speed of Beard 1977 from 1 nm to 2 mm including the change of polynomial at 20 um (polynomials are bounded by Taylor expansions over covering intervals, checked by computation in the kernel, then the mean value theorem). Partial: above 2.7 mm the polynomial decreases (C98_larger_faster_refuted); not treated: order for nonspherical drops, Beard 1976 above 9.5 um, and the altitude factor of Beard 1977 outside of 10 nm to 20 um. C98_all: after the update, in air with the viscosity of the library and 180 to 350 K, all super-droplets have a positive fall speed. C98_stokes pins units and coefficients: agreement with Stokes's law; C98_sea_level: the altitude factor is 1 there..
* **C99** The table of fall speeds agrees with the formula it is made from. *partial*
  Model: VtermModel, MotionModel (index into the table). Proof: distance to the midpoint of the bin, bounds of derivatives of the two polynomials and of their jump at 20 um; the bin as a monotone function of size. Theorems: `C99_table`, `C99_order`, `C99_out_of_range_refuted`, `C99_instance`. Note: for every droplet of 0.5 um to 3 mm radius, any cell. Partial because outside of that range the speed of the nearest bin is used: a droplet of 0.1 um falls more than twice too fast in any air (C99_out_of_range_refuted)..
* **C100** Parallel launches are recognised, and sub-domains fit together. *partial*
  Model: StartModel. Proof: the environment as a function from names to strings, atoi of a decimal numeral by induction on its digits; cases of ranks, devices and walls. Theorems: `C100_launch_seen`, `C100_alone_seen`, `C100_refused`, `C100_backend`, `C100_not_refused`, `C100_ends_fit`, `C100_ends_as_exchanged`, `C100_other_launchers_refuted`, `C100_rank_alone_refuted`, `C100_instance`. Note: for the four launchers named in ran_with_mpi.hpp (MPICH, Open MPI, LAM, MVAPICH2), any environment in which no rank is set without a size, decimal numbers read by a model of atoi. Partial because it is refuted for other launchers: with only variables of PMIx or Slurm every process silently simulates the whole domain (C100_other_launchers_refuted), and a rank without a size is undefined behaviour (C100_rank_alone_refuted)..

## 5. Which parts of the code are modelled

| part of /repo | model |
|---|---|
| src/impl/coalescence (without the kernels) | CoalModel |
| src/impl/housekeeping: sort, count, remove, resize, rcyc, ijk, vterm (validity, formulae, table) | HskpngModel, RcycModel, SpaceModel, MotionModel, VtermModel |
| src/impl/boundary_conditions, init_grid | SpaceModel |
| src/particles_step.ipp, particles_init.ipp, adjust_timesteps, init_sanity_check | ProtoModel |
| include/common: moist_air, const_cp, theta_std, theta_dry, tetens, kappa_koehler, kelvin, ventil, transition_regime, maxwell-mason, toms748, ice_nucleation | ThermoModel, CondModel, KoehlerModel, TomsModel, IceInitModel |
| include/blk_1m (whole) | Blk1mModel |
| src/detail/distmem_opts.hpp, src/impl/distributed_memory: pack, unpack, mpi_exchange, post_copy | DistModel, RcycModel |
| src/impl/advection, sedimentation, subsidence, turb_adve | MotionModel |
| src/impl/condensation (per-cell, per-particle, adaptive), ice nucleation and melting | CondPassModel |
| src/impl/diagnose_SD_attributes, particles_diag.ipp, outbuf | MomsModel, DiagModel, InCloudModel |
| init_e2l, sync | E2lModel |
| src/detail/tmp_vector_pool.hpp and all its users | PoolModel |
| src/impl/initialization: SD_with_*, dist_analysis, count_num, ijk, dry_*, n, xyz, wet, incloud_time, T_freeze | InitModel, KoehlerModel, IceInitModel, InCloudModel |
| src/impl/sources_and_relaxation_of_SDs | InitModel (sources), MatchModel |
| collision kernels and the choice of them | KernelModel |
| relaxation of aerosol | RlxModel |
| double-moment bulk scheme | Blk2mModel |
| aqueous chemistry | ChemModel |
| subgrid turbulence | TurbModel |
| divergence diagnostic | VelDivModel |
| lognormal and hydrostatic helpers | LognormModel |
| exchange between graphics cards: threads, copies, events, barrier | McudaModel |
| multi-GPU constructor, outbuf, puddle | McudaDiagModel |
| tabulated collision efficiencies: contents of the tables of include/common/ (Hall, Davis-Jones, Vohl, Pinsky), their composition and bilinear lookup | EffHall, EffHallDavis, EffVohlDavis, EffHallPinskySc, EffHallPinsky1000, EffHallPinskyCb, EffModel |
| mean effect of collisions (expected totals over the random numbers) | CoalMean |
| exchange of Courant numbers and of domain edges between MPI processes (xchng_courants, xchng_domains) | CourModel |
| kinematic two-dimensional model: driver, micro-physics calls, output | KinModel, Kin1mModel, Kin2mModel, OutModel |
| models/kinematic_2D: from the command line to the calls of the library | LgrModel |
| additional attributes and their order, array getters | AttrModel |
| what super-droplets remember between steps for condensation (rc2, sstp_tmp) | MemoModel |
| Python bindings: arrays, arguments, setters | PyModel |
| whole time steps of a process, with chemistry, and of several MPI processes | StepModel, StepChemModel, StepMpiModel |
| factory, ran_with_mpi, ends of sub-domains (particles_ctor, multi-GPU constructor) | StartModel |

## 6. Not modelled

Floating-point rounding; CUDA and OpenMP execution of single algorithms (of Thrust, taken to be sequential functions that return when done); of the multi-GPU backend everything but the decomposition (C15), the exchange (C77), constructor, outbuf and puddle (C78); for C77 the semantics of CUDA streams (in order), events and peer copies (element by element, unordered) are trusted;
memory allocation; Python bindings other than array conversion, argument matching of the four main calls and setters of options (the matching rules of Boost.Python and NumPy's flags are taken from their documentation); Boost.units; statistical quality of random numbers.
Of the kinematic model the advection library (libmpdata++, not in the repository) is an arbitrary function; the parcel and the other test drivers are not modelled.

## 7. Print Assumptions, theorem by theorem

All axioms are from Coq's standard library (`Reals`, `Logic`).

No axioms (closed under the global context):
`C44_sort_groups_by_cell`, `C44_counts_exact`, `C01_empty_population_refuted`, `C05_recycling_splits_and_removes`, `C07_removal_exact`, `C06_no_zero_left_iff_partial`, `C10_numbering_bijective`, `C11_faces_3D`, `C11_faces_2D`, `C11_1D_refuted`, `C11_instance`, `C50_source_count`, `C39_real_elements`, `C39_one_to_one`, `C39_sync`, `C39_halo_yz_partial`, `C39_halo_x_refuted`, `C39_padded_halo_refuted`, `C39_kij_halo_refuted`, `C39_one_column_refuted`, `C39_instance`, `C34_exclusive`, `C34_kept`, `C34_enough`, `C34_always_enough_refuted`, `C34_stale_selection_refuted`, `C60_timing`, `C79_fields_partial`, `C79_profiles_partial`, `C79_parcel`, `C79_only`, `C79_refused_partial`, `C79_dimensions_refuted`, `C79_size_refuted`, `C79_profile_halo_refuted`, `C79_one_element_stride_refuted`, `C79_one_cell_refuted`, `C79_written_partial`, `C79_outbuf`, `C79_instance`, `C80_keywords`, `C80_init_partial`, `C80_init_refuted`, `C80_profiles`, `C80_instance`, `C83_in_bounds`, `C85_one_at_a_time`, `C85_background`, `C85_second_advance_refuted`, `C85_instance`, `C90_requests_partial`, `C90_as_written`, `C90_names`, `C100_launch_seen`, `C100_alone_seen`, `C100_refused`, `C100_backend`, `C100_not_refused`, `C100_ends_fit`, `C100_ends_as_exchanged`, `C100_other_launchers_refuted`, `C100_rank_alone_refuted`, `C100_instance`.

Exactly `ClassicalDedekindReals.sig_forall_dec`:
`C06_no_zero_left_refuted`, `C05_instance`, `C07_instance`, `C50_instance`, `C43_clean_up_copies`, `C78_outbuf_ignores_refuted`, `C80_accumulate_refuted`, `C83_ends`, `C83_halo`, `C83_only_halo`, `C83_domains`, `C83_init_buffers`, `C83_instance`, `C83_buffer_refuted`, `C86_get_attr`, `C86_limit`, `C86_after_exception_refuted`, `C86_overrun_refuted`, `C86_instance`, `C86_storage`, `C90_no_bar_refuted`.

Exactly `ClassicalDedekindReals.sig_forall_dec`, `FunctionalExtensionality.functional_extensionality_dep`:
`C01_premises_instance`, `C05_totals_conserved`, `C08_periodic_into_domain`, `C08_guard_necessary`, `C08_instance`, `C09_instance`, `C10_cell_contains_position`, `C10_instance`, `C12_cell_volume_partial`, `C12_volumes_sum_partial`, `C12_cell_volume_refuted`, `C13_accepted_iff_in_order`, `C13_never_both_pending`, `C13_accepted_calls_chain`, `C13_nothing_before_init`, `C13_instance`, `C14_failed_init_refuted`, `C14_instance`, `C35_variable_time_step`, `C35_instance`, `C36_increase_is_lost_refuted`, `C36_instance`, `C46_scheme_fallback_is_per_step_partial`, `C46_scheme_refuted`, `C47_order_of_operations`, `C47_rejected_step_moves_particles_refuted`, `C48_disabled_process_never_runs_partial`, `C48_instance`, `C48_unchecked_processes_refuted`, `C42_consistent_accepted`, `C42_accepted_consistent_partial`, `C42_unchecked_refuted`, `C42_instance`, `C47_order_in_full`, `C47_what_is_performed`, `C42_sync_in_accepts`, `C42_sync_instance`, `C50_super_steps`, `C27_instance`, `C33_table_lookup_partial`, `C33_out_of_bounds_refuted`, `C33_instance`, `C15_columns`, `C15_every_column_once`, `C15_edges`, `C15_domain_partial`, `C15_source_partial`, `C15_short_domain_refuted`, `C15_capacity`, `C15_instance`, `C16_exchange`, `C16_every_run_ends`, `C16_number`, `C16_instance`, `C16_receive_buffer_refuted`, `C17_euler`, `C17_implicit`, `C17_pred_corr`, `C17_at_most_one_cell`, `C17_walls`, `C17_implicit_refuted`, `C17_1D_refuted`, `C17_instance`, `C40_sedimentation_and_subsidence`, `C40_turbulent_displacement`, `C40_level`, `C40_subsidence_level_refuted`, `C19_root`, `C19_ends`, `C19_exact_ends`, `C19_convergence`, `C19_zero_iterations_refuted`, `C19_tight_tolerance_refuted`, `C19_hundred_iterations`, `C37_nokelvin`, `C45_dry_size`, `C45_positions_refuted`, `C56_cells`, `C56_of_size`, `C56_rate_partial`, `C56_never_late`, `C56_variable_timestep_refuted`, `C56_interrupted_refuted`, `C59_interpolation`, `C59_efficiency`, `C58_equal_radii_refuted`, `C60_volume`, `C60_random_numbers_refuted`, `C71_instance`, `C73_applied`, `C73_relaxation_partial`, `C74_divergence_partial`, `C74_variable_dt_refuted`, `C74_1D_refuted`, `C74_0D`, `C74_instance`, `C77_exchange_partial`, `C77_never_corrupt`, `C77_every_run_ends`, `C77_instance`, `C77_receive_buffer_refuted`, `C77_growth_race_refuted`, `C78_constructor`, `C78_accepted`, `C78_outbuf_layout_partial`, `C78_puddle`, `C78_instance`, `C80_order`, `C80_dict`, `C80_sorted`, `C83_narrow_refuted`, `C85_spinup`, `C85_negative_spinup_refuted`, `C85_spinup_instance`, `C87_first_substep`, `C87_first_substep_remembered`, `C87_first_substep_of_new_refuted`, `C87_adaptive_substep_of_new_refuted`, `C87_new_instance`, `C90_instance`, `C91_carried_out`, `C91_refused_early`, `C91_processes_partial`, `C91_onishi_refuted`, `C91_instance`, `C91_onishi_instance`, `C91_no_substeps_refuted`, `C91_reactions_refuted`, `C91_after_growth_refuted`.

Exactly `ClassicalDedekindReals.sig_forall_dec`, `ClassicalDedekindReals.sig_not_dec`, `FunctionalExtensionality.functional_extensionality_dep`:
`C19_accuracy`, `C19_instance`, `C66_droplet`, `C66_converges`, `C66_conservation_partial`, `C67_ions`, `C67_charge`, `C67_dilute`, `C67_solved`, `C67_alkaline_refuted`, `C67_instance`, `C68_rates`, `C68_consistent`, `C68_bounds`, `C68_stoichiometry`, `C68_progress`, `C70_initial`, `C67_state`, `C86_initial_composition`, `C86_growth_refuted`.

Exactly `ClassicalDedekindReals.sig_forall_dec`, `ClassicalDedekindReals.sig_not_dec`, `Classical_Prop.classic`, `FunctionalExtensionality.functional_extensionality_dep`:
`C01_pairs_disjoint_same_cell_others_untouched`, `C01_schedule_independent`, `C02_multiplicities`, `C02_increase_flag`, `C03_conservation`, `C04_kappa_mixed_partial`, `C04_kappa_mixed_refuted`, `C09_exactly_those_outside_are_removed`, `C09_puddle_exact`, `C09_ids_to_send_exact`, `C10_after_boundary_conditions`, `C38_conversions_inverse`, `C38_state_consistent`, `C38_instance`, `C49_clausius_clapeyron`, `C49_saturation`, `C27_nwtrph`, `C27_condenses`, `C28_rk4`, `C28_order_of_evaporation`, `C28_revp_alone_refuted`, `C28_instance`, `C29_warm_rain`, `C29_instance`, `C30_rain_evaporation_partial`, `C30_revp_ignored_refuted`, `C30_rate_times_dt_refuted`, `C31_ice_tendencies_partial`, `C31_euler_step_refuted`, `C32_rain`, `C32_ice`, `C32_instance`, `C41_table`, `C41_sedimentation_refuted`, `C18_substep`, `C18_backward_euler`, `C18_variants`, `C51_ventilation`, `C51_growth_sign`, `C51_substep`, `C51_invalid_fall_speed_refuted`, `C51_instance`, `C52_ice`, `C18_instance`, `C52_instance`, `C37_unique`, `C37_equilibrium`, `C37_insoluble`, `C37_initial_wet`, `C37_critical_is_stationary`, `C37_critical`, `C37_critical_large_refuted`, `C37_instance`, `C37_critical_instance`, `C20_percell_water`, `C20_percell_heat`, `C20_percell_empty`, `C21_percell`, `C21_old_values`, `C20_variable_density_refuted`, `C22_mixing`, `C22_order`, `C20_mix_water_partial`, `C23_fraction`, `C23_adaptive_partial`, `C20_nomix_water_and_heat`, `C20_mix_density_refuted`, `C23_convergence_and_activation_refuted`, `C20_instance`, `C24_singular`, `C24_time_dependent`, `C24_melt`, `C24_pass`, `C24_exclusive`, `C24_never_both`, `C24_instance`, `C53_probability`, `C53_size`, `C53_temperature`, `C53_monotone`, `C53_instance`, `C54_partial`, `C54_later_batches_refuted`, `C25_selection`, `C25_fresh`, `C25_moment`, `C25_max_rw`, `C25_other_quantities`, `C25_state`, `C25_precip_rate_refuted`, `C26_repeated_partial`, `C26_fields`, `C26_fields_refuted`, `C26_fields_partial`, `C26_incloud_refuted`, `C55_mass_density_partial`, `C55_mass_density_refuted`, `C25_instance`, `C25_negative_bound_refuted`, `C43_history`, `C43_without_collisions`, `C43_disabled`, `C43_instance`, `C45_one_distribution`, `C45_several_distributions_partial`, `C45_const_multi`, `C45_integral`, `C45_positions`, `C45_two_distributions_refuted`, `C45_range_found`, `C45_search_ends_refuted`, `C56_from_distribution`, `C56_instance`, `C57_matching_partial`, `C57_cells_mixed_refuted`, `C57_instance`, `C58_symmetric`, `C58_nonneg`, `C58_defined_partial`, `C58_enhancement_argument_refuted`, `C59_double_precision`, `C59_single_precision_refuted`, `C58_length_scale_refuted`, `C58_instance`, `C58_values`, `C60_relaxation_partial`, `C60_several`, `C60_distributed_refuted`, `C60_with_source_refuted`, `C60_instance`, `C57_predictor_corrector_refuted`, `C61_water_partial`, `C62_nonnegative_partial`, `C61_water_created_refuted`, `C62_cloud_negative_refuted`, `C62_vapour_negative_refuted`, `C63_cells`, `C63_off_partial`, `C63_off_refuted`, `C63_activation`, `C63_condensation`, `C63_autoconversion`, `C63_accretion`, `C65_fall_speeds`, `C64_sedimentation`, `C64_from_below_refuted`, `C61_instance`, `C64_instance`, `C63_instance`, `C62_instance`, `C66_created_refuted`, `C67_neutral_unique`, `C67_alkaline_witness`, `C68_instance`, `C69_never_lost`, `C69_spread_partial`, `C69_ozone_refuted`, `C69_switch`, `C69_conserved_partial`, `C69_instance`, `C70_growth`, `C70_history`, `C70_instance`, `C66_constants`, `C67_constants`, `C68_constants`, `C71_candidates`, `C71_rounding`, `C71_mean`, `C72_energy`, `C72_time_scale`, `C72_statistics`, `C72_pass`, `C72_still_air`, `C73_tendency`, `C73_relaxation_refuted`, `C72_length_scales`, `C72_instance`, `C75_lognormal`, `C75_moments`, `C75_small_stdev_refuted`, `C76_hydrostatic`, `C76_instance`, `C75_instance`, `C69_history_partial`, `C69_pause_refuted`, `C69_history_instance`, `C78_outbuf_refuted`, `C81_water`, `C81_dry_aerosol`, `C81_number`, `C81_state`, `C81_instance`, `C82_range`, `C82_kernel`, `C82_gap`, `C82_variants`, `C82_variants_turbulent`, `C82_nonneg`, `C82_single_precision_refuted`, `C82_instance`, `C84_flow`, `C84_courants`, `C84_ground_refuted`, `C84_spacing_refuted`, `C84_instance`, `C85_relaxation`, `C25_refused`, `C87_critical_radius`, `C87_critical_radius_recovers`, `C87_critical_radius_or_missing`, `C87_air`, `C87_air_recovers`, `C87_source_refuted`, `C87_never_without_coalescence`, `C87_oxidation_refuted`, `C87_short_step_refuted`, `C87_instance`, `C87_activation_substeps`, `C87_no_activation_substeps`, `C88_water`, `C88_spinup`, `C88_signs`, `C88_long_step_refuted`, `C88_instance`, `C89_water_partial`, `C89_signs`, `C89_spinup`, `C89_water_created_refuted`, `C89_cloud_negative_refuted`, `C89_instance`, `C90_recorded`, `C90_chem_partial`, `C92_never_drier_partial`, `C92_melting_refuted`, `C92_instance`, `C93_range`, `C93_soluble_partial`, `C93_uniform`, `C93_unmixed_refuted`, `C93_instance`, `C94_never_lost`, `C94_conserved_partial`, `C94_aerosol_grows_by_sulfate`, `C94_state`, `C94_instance`, `C95_water`, `C95_dry_aerosol`, `C95_number`, `C95_state`, `C95_instance`, `C96_ends`, `C96_one_outcome`, `C96_goes_on`, `C96_instance`, `C97_range`, `C97_soluble_partial`, `C97_instance`, `C98_positive`, `C98_ice_positive`, `C98_khvorostyanov_reynolds`, `C98_larger_faster_partial`, `C98_larger_faster_refuted`, `C99_table`, `C99_order`, `C99_out_of_range_refuted`, `C98_instance`, `C99_instance`, `C98_sea_level`, `C98_stokes`, `C98_stokes_instance`, `C98_larger_faster_77_partial`, `C98_air_instance`, `C55_total_mass`, `C55_mass_integral`, `C55_mass_instance`.
