{
 "claims": [
  {
   "property": "C01",
   "status": "proved",
   "theorems": [
    "C01_pairs_disjoint_same_cell_others_untouched",
    "C01_schedule_independent",
    "C01_empty_population_refuted"
   ],
   "note": "the last theorem records that on an empty population the launch range wraps (outcome None = undefined behaviour)"
  },
  {
   "property": "C02",
   "status": "proved",
   "theorems": [
    "C02_multiplicities",
    "C02_increase_flag"
   ],
   "note": ""
  },
  {
   "property": "C03",
   "status": "proved",
   "theorems": [
    "C03_conservation"
   ],
   "note": ""
  },
  {
   "property": "C04",
   "status": "partial",
   "theorems": [
    "C04_kappa_mixed_partial",
    "C04_kappa_mixed_refuted"
   ],
   "note": "the full claim is false of the code when extra aerosol kinds enter only through sources/relaxation; the theorem covers the case of more than one initial aerosol kind"
  },
  {
   "property": "C44",
   "status": "proved",
   "theorems": [
    "C44_sort_groups_by_cell",
    "C44_counts_exact"
   ],
   "note": ""
  },
  {
   "property": "C05",
   "status": "proved",
   "theorems": [
    "C05_recycling_splits_and_removes",
    "C05_totals_conserved"
   ],
   "note": ""
  },
  {
   "property": "C06",
   "status": "partial",
   "theorems": [
    "C06_no_zero_left_iff_partial",
    "C06_no_zero_left_refuted"
   ],
   "note": "the claim is false of the code (multiplicities 0,0,5 with recycling on leave a zero); the partial theorem gives the exact condition under which it holds"
  },
  {
   "property": "C07",
   "status": "proved",
   "theorems": [
    "C07_removal_exact"
   ],
   "note": ""
  },
  {
   "property": "C08",
   "status": "proved",
   "theorems": [
    "C08_periodic_into_domain",
    "C08_guard_necessary"
   ],
   "note": "over the reals; the side condition (not more than ten domain lengths below the left edge) is shown necessary"
  },
  {
   "property": "C09",
   "status": "proved",
   "theorems": [
    "C09_exactly_those_outside_are_removed",
    "C09_puddle_exact",
    "C09_ids_to_send_exact"
   ],
   "note": ""
  },
  {
   "property": "C10",
   "status": "proved",
   "theorems": [
    "C10_numbering_bijective",
    "C10_cell_contains_position",
    "C10_after_boundary_conditions"
   ],
   "note": ""
  },
  {
   "property": "C11",
   "status": "partial",
   "theorems": [
    "C11_faces_3D",
    "C11_faces_2D",
    "C11_1D_refuted"
   ],
   "note": "proved for 2D and 3D; false in 1D, where the right face of every cell is its left face"
  },
  {
   "property": "C12",
   "status": "partial",
   "theorems": [
    "C12_cell_volume_partial",
    "C12_volumes_sum_partial",
    "C12_cell_volume_refuted"
   ],
   "note": "false in general: a cell wholly outside the domain in two directions gets a positive volume; proved when at most one direction is outside"
  },
  {
   "property": "C13",
   "status": "proved",
   "theorems": [
    "C13_accepted_iff_in_order",
    "C13_never_both_pending",
    "C13_accepted_calls_chain",
    "C13_nothing_before_init"
   ],
   "note": ""
  },
  {
   "property": "C14",
   "status": "partial",
   "theorems": [
    "C14_failed_init_refuted"
   ],
   "note": "false of the code: a rejected init leaves the object marked as initialised; stepping is accepted and init cannot be repeated"
  },
  {
   "property": "C35",
   "status": "proved",
   "theorems": [
    "C35_variable_time_step"
   ],
   "note": "for a positive configured time step and at least one configured substep; adaptive condensation substeps are the subject of C23"
  },
  {
   "property": "C36",
   "status": "partial",
   "theorems": [
    "C36_increase_is_lost_refuted"
   ],
   "note": "false of the code: the increased number is overwritten before it is used"
  },
  {
   "property": "C42",
   "status": "partial",
   "theorems": [
    "C42_consistent_accepted",
    "C42_accepted_consistent_partial",
    "C42_unchecked_refuted",
    "C42_sync_in_accepts",
    "C42_sync_instance"
   ],
   "note": "all clauses proved except four that the code does not enforce, each refuted"
  },
  {
   "property": "C46",
   "status": "partial",
   "theorems": [
    "C46_scheme_fallback_is_per_step_partial",
    "C46_scheme_refuted"
   ],
   "note": "proved when earlier calls were acceptable and Courant numbers are passed with the step; two counterexamples otherwise"
  },
  {
   "property": "C47",
   "status": "partial",
   "theorems": [
    "C47_order_of_operations",
    "C47_order_in_full",
    "C47_what_is_performed",
    "C47_rejected_step_moves_particles_refuted"
   ],
   "note": "order proved; a step rejected because the source was not configured has already moved particles"
  },
  {
   "property": "C48",
   "status": "partial",
   "theorems": [
    "C48_disabled_process_never_runs_partial",
    "C48_unchecked_processes_refuted"
   ],
   "note": "false for turbulent collisions and turbulent supersaturation, which are not checked; proved for the rest including chemistry, although a call that asks for chemistry that was not configured is refused only after condensation has been performed"
  },
  {
   "property": "C27",
   "status": "proved",
   "theorems": [
    "C27_nwtrph"
   ],
   "note": "any number of Newton iterations; also: a saturated cell is left unchanged"
  },
  {
   "property": "C28",
   "status": "partial",
   "theorems": [
    "C28_rk4",
    "C28_order_of_evaporation",
    "C28_revp_alone_refuted"
   ],
   "note": "everything claimed is proved for runs that return; with cevp off, revp alone has no effect"
  },
  {
   "property": "C29",
   "status": "proved",
   "theorems": [
    "C29_warm_rain"
   ],
   "note": ""
  },
  {
   "property": "C30",
   "status": "partial",
   "theorems": [
    "C30_rain_evaporation_partial",
    "C30_revp_ignored_refuted",
    "C30_rate_times_dt_refuted"
   ],
   "note": "conservation, heat and limit proved; opts.revp is ignored and the rate is multiplied by dt"
  },
  {
   "property": "C31",
   "status": "partial",
   "theorems": [
    "C31_ice_tendencies_partial",
    "C31_euler_step_refuted"
   ],
   "note": "conservation, individual limits, switches, directions, temperature ranges and heat proved; non-negativity after an Euler step is false"
  },
  {
   "property": "C32",
   "status": "proved",
   "theorems": [
    "C32_rain",
    "C32_ice"
   ],
   "note": "columns with at least one level"
  },
  {
   "property": "C33",
   "status": "partial",
   "theorems": [
    "C33_table_lookup_partial",
    "C33_out_of_bounds_refuted"
   ],
   "note": "false at and below 242.16 K, where entry 32 of 32 is read"
  },
  {
   "property": "C38",
   "status": "proved",
   "theorems": [
    "C38_conversions_inverse",
    "C38_state_consistent"
   ],
   "note": ""
  },
  {
   "property": "C49",
   "status": "proved",
   "theorems": [
    "C49_clausius_clapeyron",
    "C49_saturation"
   ],
   "note": ""
  },
  {
   "property": "C15",
   "status": "partial",
   "theorems": [
    "C15_columns",
    "C15_every_column_once",
    "C15_edges",
    "C15_domain_partial",
    "C15_source_partial",
    "C15_short_domain_refuted",
    "C15_capacity",
    "C15_instance"
   ],
   "note": "Columns partition among devices without condition; the sub-domains and source regions partition the domain provided x0 lies in the first device's share and x1 in the last one's. Without that the claim is false: C15_short_domain_refuted."
  },
  {
   "property": "C16",
   "status": "partial",
   "theorems": [
    "C16_exchange",
    "C16_every_run_ends",
    "C16_number",
    "C16_instance",
    "C16_receive_buffer_refuted"
   ],
   "note": "All interleavings of the MPI exchange of any number of processes and attribute vectors, nonblocking sends and receives included, no deadlock, termination. Needs receive buffers at least as large as what the neighbours send, which the code does not ensure: C16_receive_buffer_refuted. The exchange between GPUs of one machine is C77."
  },
  {
   "property": "C50",
   "status": "proved",
   "theorems": [
    "C50_super_steps",
    "C50_source_count",
    "C50_instance"
   ],
   "note": "which super-droplets a source creates is the subject of other properties"
  },
  {
   "property": "C17",
   "status": "partial",
   "theorems": [
    "C17_euler",
    "C17_implicit",
    "C17_pred_corr",
    "C17_at_most_one_cell",
    "C17_walls",
    "C17_implicit_refuted",
    "C17_1D_refuted",
    "C17_instance"
   ],
   "note": "2D and 3D: exact displacement of all three schemes, distance and walls for Euler and predictor-corrector. False for the implicit scheme (distance, walls) and in 1D (no interpolation); both refuted."
  },
  {
   "property": "C40",
   "status": "partial",
   "theorems": [
    "C40_sedimentation_and_subsidence",
    "C40_level",
    "C40_subsidence_level_refuted",
    "C40_turbulent_displacement"
   ],
   "note": "displacements exact; with predictor-corrector the subsidence rate is that of the predictor's level, which need not be the super-droplet's"
  },
  {
   "property": "C41",
   "status": "partial",
   "theorems": [
    "C41_recomputation",
    "C41_collisions",
    "C41_sedimentation_partial",
    "C41_sedimentation_refuted",
    "C41_table"
   ],
   "note": "true at every collision substep; false at sedimentation, where the mark -1 of droplets that have just coalesced is used as a fall speed"
  },
  {
   "property": "C18",
   "status": "proved",
   "theorems": [
    "C18_substep",
    "C18_backward_euler",
    "C18_variants",
    "C18_instance"
   ],
   "note": "every growth-rate function; also accuracy of the implicit scheme"
  },
  {
   "property": "C19",
   "status": "proved",
   "theorems": [
    "C19_root",
    "C19_ends",
    "C19_exact_ends",
    "C19_convergence",
    "C19_accuracy",
    "C19_hundred_iterations",
    "C19_zero_iterations_refuted",
    "C19_tight_tolerance_refuted",
    "C19_instance"
   ],
   "note": "also a guaranteed rate of convergence. Outside of the quantifier: an iteration limit of zero wraps around, and a tolerance below four epsilons lets the solver leave the bracket (both refuted). Real arithmetic."
  },
  {
   "property": "C37",
   "status": "proved",
   "theorems": [
    "C37_nokelvin",
    "C37_equilibrium",
    "C37_unique",
    "C37_insoluble",
    "C37_initial_wet",
    "C37_critical_is_stationary",
    "C37_critical",
    "C37_critical_large_refuted",
    "C37_instance",
    "C37_critical_instance"
   ],
   "note": "also uniqueness, accuracy and the critical radius; for dry radii above about 0.1 mm the critical radius is outside of the interval searched (refuted)"
  },
  {
   "property": "C51",
   "status": "partial",
   "theorems": [
    "C51_ventilation",
    "C51_growth_sign",
    "C51_substep",
    "C51_invalid_fall_speed_refuted",
    "C51_instance"
   ],
   "note": "holds for non-negative fall speeds; the mark -1 left by collisions (C41) makes large drops evaporate in supersaturated air"
  },
  {
   "property": "C52",
   "status": "proved",
   "theorems": [
    "C52_ice",
    "C52_instance"
   ],
   "note": ""
  },
  {
   "property": "C20",
   "status": "partial",
   "theorems": [
    "C20_percell_water",
    "C20_percell_heat",
    "C20_percell_empty",
    "C20_nomix_water_and_heat",
    "C20_mix_water_partial",
    "C20_variable_density_refuted",
    "C20_mix_density_refuted",
    "C20_instance"
   ],
   "note": "per-cell substeps and per-particle substeps without mixing: water and heat; with mixing water is conserved when the densities remembered by super-droplets are those of the cell. With a density that changes during the step the statement is false (refuted)."
  },
  {
   "property": "C21",
   "status": "proved",
   "theorems": [
    "C21_percell",
    "C21_old_values"
   ],
   "note": ""
  },
  {
   "property": "C22",
   "status": "proved",
   "theorems": [
    "C22_mixing",
    "C22_order"
   ],
   "note": ""
  },
  {
   "property": "C23",
   "status": "partial",
   "theorems": [
    "C23_fraction",
    "C23_adaptive_partial",
    "C23_convergence_and_activation_refuted"
   ],
   "note": "the state returns to its initial value and the whole forcing is applied, except when the search converged and the activation rule then overrides the number found: the forcing applied differs (refuted). The critical radius is a free attribute in the refutation."
  },
  {
   "property": "C24",
   "status": "proved",
   "theorems": [
    "C24_singular",
    "C24_time_dependent",
    "C24_melt",
    "C24_pass",
    "C24_exclusive",
    "C24_never_both",
    "C24_instance"
   ],
   "note": "the pass, its latent heat, and every history of freezing, growth and other processes that only move, copy, remove or add super-droplets"
  },
  {
   "property": "C53",
   "status": "proved",
   "theorems": [
    "C53_probability",
    "C53_size",
    "C53_temperature",
    "C53_monotone",
    "C53_instance"
   ],
   "note": "mineral particles, the only type the library has; random number 0 gives an infinite freezing temperature and is excluded"
  },
  {
   "property": "C54",
   "status": "partial",
   "theorems": [
    "C54_partial",
    "C54_later_batches_refuted"
   ],
   "note": "true for the first batch; later batches read the random numbers at a shifted position and use what scratch memory contained (refuted)"
  },
  {
   "property": "C25",
   "status": "partial",
   "theorems": [
    "C25_selection",
    "C25_fresh",
    "C25_moment",
    "C25_max_rw",
    "C25_other_quantities",
    "C25_refused",
    "C25_state",
    "C25_precip_rate_refuted",
    "C25_negative_bound_refuted",
    "C25_instance"
   ],
   "note": "selections, moments and other quantities are right for all sequences of calls; false (refuted): precipitation rates overwrite cached fall speeds and so change the following condensation; ranges of radii with a negative bound."
  },
  {
   "property": "C26",
   "status": "partial",
   "theorems": [
    "C26_repeated_partial",
    "C26_fields",
    "C26_fields_partial",
    "C26_fields_refuted",
    "C26_incloud_refuted"
   ],
   "note": "true for quantities summed over super-droplets, and for the first outbuf after diag_pressure, diag_temperature, diag_RH; the second outbuf is wrong when some cells are empty (refuted)"
  },
  {
   "property": "C55",
   "status": "partial",
   "theorems": [
    "C55_mass_density_partial",
    "C55_mass_density_refuted",
    "C55_total_mass",
    "C55_mass_integral",
    "C55_mass_instance"
   ],
   "note": "true when every cell has super-droplets (then also its integral over the logarithm of radius is the mass of the selected droplets per volume, C55_mass_integral: the Gaussian integral with the standard library and Coquelicot); with empty cells the number of super-droplets of another cell is used (refuted)"
  },
  {
   "property": "C39",
   "status": "partial",
   "theorems": [
    "C39_real_elements",
    "C39_one_to_one",
    "C39_sync",
    "C39_halo_yz_partial",
    "C39_halo_x_refuted",
    "C39_padded_halo_refuted",
    "C39_kij_halo_refuted",
    "C39_one_column_refuted",
    "C39_instance"
   ],
   "note": "cells and all walls of the domain are mapped right for all strides, and y, z halos of unpadded arrays; false (refuted): halo of the Courant number in x (off by one wall), halos of padded arrays or with y as the slowest index, and cells of a domain one cell wide in x with y as the slowest index"
  },
  {
   "property": "C43",
   "status": "proved",
   "theorems": [
    "C43_history",
    "C43_without_collisions",
    "C43_disabled",
    "C43_clean_up_copies",
    "C43_instance"
   ],
   "note": "for all histories of steps, coalescence, transport, removal, recycling and addition the recorded time is the sum of the timesteps since last deactivated, maximised over merges"
  },
  {
   "property": "C34",
   "status": "partial",
   "theorems": [
    "C34_exclusive",
    "C34_kept",
    "C34_enough",
    "C34_always_enough_refuted",
    "C34_stale_selection_refuted"
   ],
   "note": "exclusive use is proved for all histories of borrowing; for all accepted configurations the temporary vectors suffice for every legal history of calls exactly if `enough` holds (both directions); the unrestricted claim is refuted (diag_rw_ge_rc in a parcel with default options, predictor-corrector in 1D/2D, chemistry with per-particle substeps, ...), and so is the protection by selected_before_counting after sync_in. Host-side pools are not modelled"
  },
  {
   "property": "C45",
   "status": "partial",
   "theorems": [
    "C45_one_distribution",
    "C45_several_distributions_partial",
    "C45_two_distributions_refuted",
    "C45_const_multi",
    "C45_integral",
    "C45_dry_size",
    "C45_positions",
    "C45_positions_refuted",
    "C45_range_found",
    "C45_search_ends_refuted"
   ],
   "note": "counts, sizes, multiplicities and positions for one distribution, constant multiplicity and given sizes; for several distributions only if the shares of super-droplets are whole numbers dividing sd_conc (otherwise refuted: integer division loses up to two thirds of the particles); positions for cells meeting the domain (refuted for corner cells outside it)"
  },
  {
   "property": "C56",
   "status": "partial",
   "theorems": [
    "C56_cells",
    "C56_from_distribution",
    "C56_of_size",
    "C56_rate_partial",
    "C56_never_late",
    "C56_variable_timestep_refuted",
    "C56_interrupted_refuted",
    "C56_instance"
   ],
   "note": "cells and single additions proved; the rate proved for the timestep given at initialisation and sources on for whole periods, refuted for a changed timestep and for sources interrupted within a period"
  },
  {
   "property": "C57",
   "status": "partial",
   "theorems": [
    "C57_matching_partial",
    "C57_cells_mixed_refuted",
    "C57_predictor_corrector_refuted",
    "C57_instance"
   ],
   "note": "proved when the last occupied bin of a cell and the first of the next one differ (told_apart), for all populations, random numbers and sizes; without it cells are mixed up: one gets nothing and another twice its share (refuted); with predictor-corrector advection super-droplets are seen two columns away, outside of the grid for the last two columns (refuted)"
  },
  {
   "property": "C58",
   "status": "partial",
   "theorems": [
    "C58_symmetric",
    "C58_nonneg",
    "C58_defined_partial",
    "C58_values",
    "C58_equal_radii_refuted",
    "C58_enhancement_argument_refuted",
    "C58_length_scale_refuted",
    "C58_instance"
   ],
   "note": "symmetry and sign proved for all kernels; a result exists for all but the turbulent kernels, which read outside of a table for two droplets of equal radius up to 0.1 mm (refuted), get the Reynolds number in place of the dissipation rate (refuted) and use a length scale of 1 m because of an integer quotient (refuted)"
  },
  {
   "property": "C59",
   "status": "partial",
   "theorems": [
    "C59_interpolation",
    "C59_efficiency",
    "C59_double_precision",
    "C59_single_precision_refuted"
   ],
   "note": "proved in double precision (rounding of the limit by Flocq); in single precision the limit rounds to the last radius and droplets of 1.1 mm are looked up outside of the table (refuted)"
  },
  {
   "property": "C60",
   "status": "partial",
   "theorems": [
    "C60_relaxation_partial",
    "C60_several",
    "C60_volume",
    "C60_timing",
    "C60_distributed_refuted",
    "C60_with_source_refuted",
    "C60_random_numbers_refuted",
    "C60_instance"
   ],
   "note": "amounts, sizes, cells and levels proved for a whole number of super-droplets per bin, for all populations and results of sorting; refuted: one super-droplet per bin shared by several processes (each adds a multiple), relaxation after a source in the same step (its super-droplets are not counted, the first one repeatedly), and the length of the vector of random numbers"
  },
  {
   "property": "C61",
   "status": "partial",
   "theorems": [
    "C61_water_partial",
    "C61_water_created_refuted",
    "C61_instance"
   ],
   "note": "heat proved; the sum of water tendencies proved never negative and zero unless autoconversion and accretion together exceed the cloud water per time step; then water appears in the rain from nowhere (refuted)"
  },
  {
   "property": "C62",
   "status": "partial",
   "theorems": [
    "C62_nonnegative_partial",
    "C62_cloud_negative_refuted",
    "C62_vapour_negative_refuted",
    "C62_instance"
   ],
   "note": "rain water and both numbers proved; cloud water proved in saturated air or without collisions and refuted otherwise (evaporation and collisions are limited separately); vapour refuted for long time steps"
  },
  {
   "property": "C63",
   "status": "partial",
   "theorems": [
    "C63_cells",
    "C63_off_partial",
    "C63_off_refuted",
    "C63_activation",
    "C63_condensation",
    "C63_autoconversion",
    "C63_accretion",
    "C63_instance"
   ],
   "note": "every process alone proved, for cells without droplets or drops that have no water; those are removed also with all processes off (refuted). tgamma assumed positive with its recurrence, erfc within 0 and 2"
  },
  {
   "property": "C64",
   "status": "partial",
   "theorems": [
    "C64_sedimentation",
    "C64_from_below_refuted",
    "C64_instance"
   ],
   "note": "proved when the tendencies so far leave non-negative rain; otherwise the flux reverses and rain enters through the bottom of the domain (refuted)"
  },
  {
   "property": "C65",
   "status": "proved",
   "theorems": [
    "C65_fall_speeds",
    "erf_exists",
    "gamma_exists"
   ],
   "note": "for every function with the derivative of the error function; the integral over all sizes is the limit of integrals"
  },
  {
   "property": "C66",
   "status": "partial",
   "theorems": [
    "C66_droplet",
    "C66_converges",
    "C66_conservation_partial",
    "C66_constants",
    "C66_created_refuted"
   ],
   "note": "each droplet proved; the total per cell proved never to decrease and to be conserved while the air keeps some of the gas; when droplets take up more than there is (each as if alone) the air is set to zero and gas has been created (refuted by a cloud of pH 5 and nitric acid)"
  },
  {
   "property": "C67",
   "status": "partial",
   "theorems": [
    "C67_constants",
    "C67_ions",
    "C67_charge",
    "C67_dilute",
    "C67_neutral_unique",
    "C67_solved",
    "C67_state",
    "C67_alkaline_refuted",
    "C67_alkaline_witness",
    "C67_instance"
   ],
   "note": "proved when the neutral concentration lies within the search bracket (pH -1 to 8); outside of it (refuted, with an ammonia solution as a witness) the root finder returns an end of the bracket near pH -1 and the droplet is excluded from chemistry afterwards. Conversion of bracket ends to float in the tolerance test not modelled"
  },
  {
   "property": "C68",
   "status": "proved",
   "theorems": [
    "C68_constants",
    "C68_rates",
    "C68_consistent",
    "C68_bounds",
    "C68_stoichiometry",
    "C68_progress",
    "C68_instance"
   ],
   "note": "reals; odeint runge_kutta4 modelled as the classical scheme"
  },
  {
   "property": "C69",
   "status": "partial",
   "theorems": [
    "C69_never_lost",
    "C69_spread_partial",
    "C69_ozone_refuted",
    "C69_switch",
    "C69_conserved_partial",
    "C69_history_partial",
    "C69_pause_refuted",
    "C69_instance",
    "C69_history_instance"
   ],
   "note": "over histories of steps the gases go from what the host last received to what it gives, in equal parts; refuted after a step with dissolution switched off (the stale values are used); totals never decrease without hypotheses, and are conserved while the air does not run out of a gas; spreading of the change proved except for ozone without variable density, which gets all of it in the first substep (refuted)"
  },
  {
   "property": "C70",
   "status": "proved",
   "theorems": [
    "C70_initial",
    "C70_growth",
    "C70_history",
    "C70_instance"
   ],
   "note": "histories of chemistry steps; other processes do not change masses in droplets except coalescence (C01 to C04)"
  },
  {
   "property": "C71",
   "status": "proved",
   "theorems": [
    "C71_candidates",
    "C71_rounding",
    "C71_mean",
    "C71_instance"
   ],
   "note": "the random order is modelled as any permutation, all equally likely (distinct random keys); random numbers of pairs uniform on [0,1] (Riemann integral)"
  },
  {
   "property": "C72",
   "status": "proved",
   "theorems": [
    "C72_energy",
    "C72_time_scale",
    "C72_statistics",
    "C72_pass",
    "C72_still_air",
    "C72_length_scales",
    "C72_instance"
   ],
   "note": "random numbers are any uncorrelated ones with mean zero and unit variance; reals; where the dissipation is zero the perturbation stays as it was"
  },
  {
   "property": "C73",
   "status": "partial",
   "theorems": [
    "C73_tendency",
    "C73_applied",
    "C73_relaxation_partial",
    "C73_relaxation_refuted"
   ],
   "note": "tendency and its application proved; relaxation proved when the time step does not exceed the relaxation time; otherwise the perturbation overshoots and oscillates with growing amplitude (refuted)"
  },
  {
   "property": "C74",
   "status": "partial",
   "theorems": [
    "C74_divergence_partial",
    "C74_variable_dt_refuted",
    "C74_1D_refuted",
    "C74_0D",
    "C74_instance"
   ],
   "note": "proved in two and three dimensions for the time step of initialization; with a variable time step the result is off by the ratio of time steps, and in one dimension it is always zero (refuted)"
  },
  {
   "property": "C75",
   "status": "proved",
   "theorems": [
    "C75_lognormal",
    "C75_moments",
    "C75_small_stdev_refuted",
    "C75_instance"
   ],
   "note": "for stdev above one; below one (nothing checks) concentrations are negative"
  },
  {
   "property": "C76",
   "status": "proved",
   "theorems": [
    "C76_hydrostatic",
    "C76_instance"
   ],
   "note": "reals"
  },
  {
   "property": "C77",
   "status": "partial",
   "theorems": [
    "C77_exchange_partial",
    "C77_never_corrupt",
    "C77_every_run_ends",
    "C77_receive_buffer_refuted",
    "C77_growth_race_refuted",
    "C77_instance"
   ],
   "note": "All interleavings of threads and of the transfer of single elements, any number of devices and attributes. Needs buffers that are large enough before the step, which the code does not ensure: a copy then writes beyond the receive buffer (C77_receive_buffer_refuted), or a device enlarges its receive buffer while its neighbour is copying into it (C77_growth_race_refuted)."
  },
  {
   "property": "C78",
   "status": "partial",
   "theorems": [
    "C78_constructor",
    "C78_accepted",
    "C78_outbuf_layout_partial",
    "C78_outbuf_ignores_refuted",
    "C78_outbuf_refuted",
    "C78_puddle",
    "C78_instance"
   ],
   "note": "constructor and diag_puddle proved; outbuf returns old contents of host vectors, since std::bind copies the vector to be filled (refuted for all diagnostics); what holds is the layout of the array"
  },
  {
   "property": "C79",
   "status": "partial",
   "theorems": [
    "C79_fields_partial",
    "C79_written_partial",
    "C79_profiles_partial",
    "C79_parcel",
    "C79_only",
    "C79_refused_partial",
    "C79_outbuf",
    "C79_dimensions_refuted",
    "C79_size_refuted",
    "C79_profile_halo_refuted",
    "C79_one_element_stride_refuted",
    "C79_one_cell_refuted",
    "C79_instance"
   ],
   "note": "proved for arrays of the right shape and NumPy's own strides, and for profiles without halo; refuted: too many dimensions overwrite memory, sizes are not checked, profiles of Courant numbers are read before their start with the predictor-corrector scheme, arbitrary strides of one-element dimensions, one-cell 1D set-ups"
  },
  {
   "property": "C80",
   "status": "partial",
   "theorems": [
    "C80_keywords",
    "C80_init_partial",
    "C80_init_refuted",
    "C80_profiles",
    "C80_accumulate_refuted",
    "C80_order",
    "C80_dict",
    "C80_sorted",
    "C80_instance"
   ],
   "note": "proved for step_sync, sync_in, step_cond, w_LS, SGS_mix_len and dicts; in init the names th, rv and rhod denote the next parameter each, and kernel_parameters and dry_distros of blk_2m accumulate (refuted)"
  },
  {
   "property": "C81",
   "status": "proved",
   "theorems": [
    "C81_water",
    "C81_dry_aerosol",
    "C81_number",
    "C81_state",
    "C81_instance"
   ],
   "note": "any number of steps without chemistry on one device; attributes of new super-droplets, velocities, fall speeds and kernels are arbitrary. The two conditions of the statement are necessary: C20_variable_density_refuted, C06_no_zero_left_refuted."
  },
  {
   "property": "C82",
   "status": "partial",
   "theorems": [
    "C82_range",
    "C82_kernel",
    "C82_gap",
    "C82_variants",
    "C82_variants_turbulent",
    "C82_nonneg",
    "C82_single_precision_refuted",
    "C82_instance"
   ],
   "note": "all of the statement is proved for double precision with the tables copied from the source; in single precision every drop of 1.1 mm or more makes the code read outside of the tables (C82_single_precision_refuted). That the turbulent kernels have a value is not part of this claim, see C58."
  },
  {
   "property": "C83",
   "status": "partial",
   "theorems": [
    "C83_ends",
    "C83_halo",
    "C83_only_halo",
    "C83_in_bounds",
    "C83_domains",
    "C83_init_buffers",
    "C83_narrow_refuted",
    "C83_buffer_refuted",
    "C83_instance"
   ],
   "note": "proved for parts that are at least as wide as the halo (two cells); refuted for narrower ones (C83_narrow_refuted). Sends are never waited for: after init the arrays may be changed (C83_init_buffers), after xchng_courants alone MPI may still have to read them (C83_buffer_refuted). C83_domains provides what C16 assumes about lft_x1 and rgt_x0."
  },
  {
   "property": "C84",
   "status": "partial",
   "theorems": [
    "C84_flow",
    "C84_courants",
    "C84_ground_refuted",
    "C84_spacing_refuted",
    "C84_instance"
   ],
   "note": "the flow is as claimed; the Courant numbers conserve mass if the advection library's dj equals the spacing of levels (the repository never sets it: with zero they would not, C84_spacing_refuted); since densities below and above the ground differ, droplets at the ground are carried through it in downdraughts (C84_ground_refuted). Numbering of faces as in libmpdata++ (not in the repository); reals instead of single precision."
  },
  {
   "property": "C85",
   "status": "partial",
   "theorems": [
    "C85_one_at_a_time",
    "C85_background",
    "C85_second_advance_refuted",
    "C85_spinup",
    "C85_negative_spinup_refuted",
    "C85_spinup_instance",
    "C85_relaxation",
    "C85_instance"
   ],
   "note": "proved for one call of advance(), which is what the model makes; a second call could destroy the particles under the background thread (C85_second_advance_refuted). Spin-up proved for non-negative lengths; negative ones are accepted and relax towards values never set (C85_negative_spinup_refuted)."
  },
  {
   "property": "C86",
   "status": "partial",
   "theorems": [
    "C86_get_attr",
    "C86_storage",
    "C86_limit",
    "C86_after_exception_refuted",
    "C86_overrun_refuted",
    "C86_instance",
    "C86_initial_composition",
    "C86_growth_refuted"
   ],
   "note": "proved for all histories without an exception; after an exception (n_sd_max exceeded) the number of super-droplets is already changed and get_attr returns too many values, or, after super-droplets have arrived from other processes, writes past the end of its result (refuted). C86_growth_refuted: why sources are refused with chemistry. Arrivals are modelled with their attributes already matched to vectors (the packing is C16)."
  },
  {
   "property": "C87",
   "status": "partial",
   "theorems": [
    "C87_critical_radius",
    "C87_critical_radius_recovers",
    "C87_critical_radius_or_missing",
    "C87_air",
    "C87_air_recovers",
    "C87_source_refuted",
    "C87_never_without_coalescence",
    "C87_oxidation_refuted",
    "C87_short_step_refuted",
    "C87_activation_substeps",
    "C87_no_activation_substeps",
    "C87_first_substep",
    "C87_first_substep_remembered",
    "C87_first_substep_of_new_refuted",
    "C87_adaptive_substep_of_new_refuted",
    "C87_instance",
    "C87_new_instance"
   ],
   "note": "proved for all histories without sources, relaxation, oxidation and coalescence in short timesteps; with sources and relaxation only from the next coalescence (critical radius) or condensation (air) on. False in the code otherwise: the initialisation of these attributes after sources and relaxation is commented out, so that new super-droplets have -1 and zeros in the first condensation (C87_source_refuted; for ever for the critical radius without coalescence), with the consequence that they get no activation substeps and that the first of n substeps has 1/n of the temperature, humidity and density; oxidation does not update the critical radius; coalescence in a timestep with a single activation substep loses it (C87_short_step_refuted)"
  },
  {
   "property": "C88",
   "status": "partial",
   "theorems": [
    "C88_water",
    "C88_spinup",
    "C88_signs",
    "C88_long_step_refuted",
    "C88_instance"
   ],
   "note": "budget and spin-up proved for all runs with a non-negative spin-up in which the adjustment ends; the signs only for timesteps shorter than the times of collection and of falling through a level: nothing limits the collection of cloud water, so that a long timestep makes it negative (C88_long_step_refuted). Advection (libmpdata++, not in the repository) is any function that leaves the density alone and moves water; the order of hooks is that of its euler_b scheme."
  },
  {
   "property": "C89",
   "status": "partial",
   "theorems": [
    "C89_water_partial",
    "C89_signs",
    "C89_spinup",
    "C89_water_created_refuted",
    "C89_cloud_negative_refuted",
    "C89_instance"
   ],
   "note": "budget, spin-up and signs of rain water and of both numbers proved for all runs with a non-negative spin-up, of any timestep. The full claim is false of the code: accretion beyond the cloud water there is creates rain (C89_water_created_refuted; the budget says by how much, and that the scheme never destroys water), and evaporation and collisions in one step make cloud water negative (C89_cloud_negative_refuted; by at most what there was, made up for by the next step). Advection (libmpdata++, not in the repository) is any function that leaves the density alone and moves water; the order of hooks is that of its euler_b scheme."
  },
  {
   "property": "C90",
   "status": "partial",
   "theorems": [
    "C90_requests_partial",
    "C90_as_written",
    "C90_no_bar_refuted",
    "C90_names",
    "C90_recorded",
    "C90_chem_partial",
    "C90_instance"
   ],
   "note": "an exact characterisation (iff) of the accepted texts and of what they ask for; the recorded fields, their values and names for all states. Partial because the code does not meet the full claim: a request without a bar is accepted and read as its upper bound also being its list of moments (C90_no_bar_refuted), and with several ranges the chemical compounds of all ranges are recorded under the same names (last clause of C90_chem_partial). Reading a real number (boost::lexical_cast) is any function; negative moments are parsed but their values are not stated; the file of puddles is not modelled."
  },
  {
   "property": "C91",
   "status": "partial",
   "theorems": [
    "C91_carried_out",
    "C91_refused_early",
    "C91_processes_partial",
    "C91_onishi_refuted",
    "C91_onishi_instance",
    "C91_no_substeps_refuted",
    "C91_reactions_refuted",
    "C91_after_growth_refuted",
    "C91_instance"
   ],
   "note": "an exact characterisation (iff) of the command lines that are carried out, of when others are refused, and of every step of a run. Partial because the code does not meet the full claim: the two Onishi kernels offered by --help cannot be used, even without collisions (C91_onishi_refuted); zero collision substeps are accepted and turn collisions off (C91_no_substeps_refuted); the end of the spin-up turns reactions on that were not asked for (C91_reactions_refuted); options of chemistry without chemistry are refused only after condensation of the first step (C91_after_growth_refuted); without assertions an unknown advection scheme silently is the implicit one (C91_carried_out asks for a known scheme with assertions only). The multi_CUDA backend is treated as not compiled; diagnostics and output (C90) are not calls of this model."
  },
  {
   "property": "C92",
   "status": "partial",
   "theorems": [
    "C92_never_drier_partial",
    "C92_melting_refuted",
    "C92_instance"
   ],
   "note": "by induction over the steps of the runs of C81, in all substepping modes of condensation, with freezing, sublimation, collisions, sources, walls and recycling. Partial because the full claim is false of the code: a crystal sublimates down to 1 nm whatever its dry particle and, when it melts, leaves a droplet smaller than its dry particle, which C92_melting_refuted shows in a run of five steps; the theorem therefore asks that a crystal that melts holds at least the volume of its aerosol (and that sources add droplets not smaller than their aerosol, which C37_initial_wet shows of the sizes the library gives them)."
  },
  {
   "property": "C93",
   "status": "partial",
   "theorems": [
    "C93_range",
    "C93_soluble_partial",
    "C93_uniform",
    "C93_unmixed_refuted",
    "C93_instance"
   ],
   "note": "by induction over the steps of the runs of C81, in all substepping modes, with sources, walls, collisions and recycling. The range of hygroscopicities is proved without restriction (C93_range); with a single hygroscopicity the total follows the dry volume, including what fell out (C93_uniform). Partial because conservation of the total is false of the code when only one kind of aerosol is given at the start and sources bring another: collisions then do not mix hygroscopicities, and C93_unmixed_refuted is a run of two steps (a source, then a collision) in which four fifths of the soluble material vanish; C93_soluble_partial therefore asks for at least two kinds at the start, or no collisions."
  },
  {
   "property": "C94",
   "status": "partial",
   "theorems": [
    "C94_never_lost",
    "C94_conserved_partial",
    "C94_aerosol_grows_by_sulfate",
    "C94_state",
    "C94_instance"
   ],
   "note": "by induction over the steps of runs that chain the models of chemistry, coalescence, boundary conditions, recycling and removal (StepChemModel); everything else in a step may have any outcome. Nothing is ever lost (C94_never_lost) and dry aerosol grows exactly by the sulfate produced, including what is on the ground or left (C94_aerosol_grows_by_sulfate), without restriction. Partial because exact conservation is false of the code when a cell runs out of a gas, which is then created (C66_created_refuted); C94_conserved_partial asks for some gas in every substep."
  },
  {
   "property": "C95",
   "status": "partial",
   "theorems": [
    "C95_water",
    "C95_dry_aerosol",
    "C95_number",
    "C95_state",
    "C95_instance"
   ],
   "note": "by induction over the steps of runs in which each process performs the parts of StepModel, super-droplets are exchanged by the asynchronous protocol of DistModel in any order of events, and each process recycles and removes (StepMpiModel); runs in which no process throws; without chemistry, which the code forbids with MPI. Partial because each exchange is assumed to fit in the receive buffers (C16_receive_buffer_refuted: the code does not guarantee it) and no super-droplet to fly beyond the neighbouring sub-domain in one step; C95_instance runs two processes in a periodic domain whose super-droplets swap."
  },
  {
   "property": "C96",
   "status": "partial",
   "theorems": [
    "C96_ends",
    "C96_one_outcome",
    "C96_goes_on",
    "C96_instance"
   ],
   "note": "for the state after any run of C95 and any first part of a step: accessibility of the moves of DistModel (no infinite exchange), every maximal exchange ends without a communication failure in one and the same state, and throws exactly where there is no room. Partial because the exchange is assumed to fit in the receive buffers (C16_receive_buffer_refuted) and nobody to fly beyond the neighbouring sub-domain."
  },
  {
   "property": "C97",
   "status": "partial",
   "theorems": [
    "C97_range",
    "C97_soluble_partial",
    "C97_instance"
   ],
   "note": "as C93, over the runs of C95: the exchange is shown to keep every function of the attributes other than x (exch_any). Partial as C93: without mixing soluble material is not conserved in collisions (C93_unmixed_refuted), and as C95: receive buffers."
  },
  {
   "property": "C98",
   "status": "partial",
   "theorems": [
    "C98_positive",
    "C98_ice_positive",
    "C98_khvorostyanov_reynolds",
    "C98_larger_faster_partial",
    "C98_larger_faster_refuted",
    "C98_larger_faster_77_partial",
    "C98_sea_level",
    "C98_stokes",
    "C98_stokes_instance",
    "C98_all",
    "C98_air_instance",
    "C98_instance"
   ],
   "note": "the formulae of vterm.hpp are modelled with their coefficients; positivity for all five choices and for ice. Order proved for Khvorostyanov-Curry spheres at any radius, Beard 1976 up to 9.5 um, and the sea-level speed of Beard 1977 from 1 nm to 2 mm including the change of polynomial at 20 um (polynomials are bounded by Taylor expansions over covering intervals, checked by computation in the kernel, then the mean value theorem). Partial: above 2.7 mm the polynomial decreases (C98_larger_faster_refuted); not treated: order for nonspherical drops, Beard 1976 above 9.5 um, and the altitude factor of Beard 1977 outside of 10 nm to 20 um. C98_all: after the update, in air with the viscosity of the library and 180 to 350 K, all super-droplets have a positive fall speed. C98_stokes pins units and coefficients: agreement with Stokes's law; C98_sea_level: the altitude factor is 1 there."
  },
  {
   "property": "C99",
   "status": "partial",
   "theorems": [
    "C99_table",
    "C99_order",
    "C99_out_of_range_refuted",
    "C99_instance"
   ],
   "note": "for every droplet of 0.5 um to 3 mm radius, any cell. Partial because outside of that range the speed of the nearest bin is used: a droplet of 0.1 um falls more than twice too fast in any air (C99_out_of_range_refuted)."
  },
  {
   "property": "C100",
   "status": "partial",
   "theorems": [
    "C100_launch_seen",
    "C100_alone_seen",
    "C100_refused",
    "C100_backend",
    "C100_not_refused",
    "C100_ends_fit",
    "C100_ends_as_exchanged",
    "C100_other_launchers_refuted",
    "C100_rank_alone_refuted",
    "C100_instance"
   ],
   "note": "for the four launchers named in ran_with_mpi.hpp (MPICH, Open MPI, LAM, MVAPICH2), any environment in which no rank is set without a size, decimal numbers read by a model of atoi. Partial because it is refuted for other launchers: with only variables of PMIx or Slurm every process silently simulates the whole domain (C100_other_launchers_refuted), and a rank without a size is undefined behaviour (C100_rank_alone_refuted)."
  }
 ]
}