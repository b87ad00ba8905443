{"id": "C01", "title": "Coalescence pairs each super-droplet at most once and only within its cell", "statement": "In one coalescence pass of step_async, super-droplets collide only in disjoint pairs of two super-droplets residing in the same grid cell; a super-droplet that is not a member of a colliding pair leaves the pass with every attribute (multiplicity, wet radius, dry radius, fall speed, kappa, chemical masses) unchanged.", "quantifier": "every population, every assignment of super-droplets to cells, every random in-cell order, every random draw, every kernel value", "why_tests_cant": "The random permutation and random numbers make the number of schedules factorial in the population; a test sees a few of them and cannot exclude a pair straddling two cells or overlapping pairs.", "anchors": ["src/impl/coalescence/particles_impl_coal.ipp: coal, collider", "src/impl/housekeeping/particles_impl_hskpng_sort.ipp"]}
{"id": "C02", "title": "Coalescence never makes a multiplicity wrap and collides at most floor(n_a/n_b) times", "statement": "For a colliding pair with multiplicities n_a >= n_b the number of collisions performed is min(floor(p) + [u < frac(p)], floor(n_a/n_b)); afterwards the larger multiplicity is n_a - c*n_b (never negative, hence no unsigned wrap) and the smaller one is unchanged; the number of real droplets in the cell decreases by exactly c*n_b.", "quantifier": "all pairs of unsigned multiplicities (including zero), all collision probabilities >= 0, all random numbers in [0,1)", "why_tests_cant": "Unsigned wrap happens only for particular probability/ratio combinations that sampling rarely hits.", "anchors": ["src/impl/coalescence/particles_impl_coal.ipp: collide, collider"]}
{"id": "C03", "title": "Coalescence conserves liquid water, dry matter, dissolved chemicals and soluble mass", "statement": "One coalescence pass leaves, in every grid cell, the sums over super-droplets of n*rw^3 and n*rd^3 (and of n*chem for each chemical, and of n*kappa*rd^3 when kappa mixing is active) exactly unchanged (in exact arithmetic).", "quantifier": "every population, every random order, every random draw, every kernel", "why_tests_cant": "Conservation is a statement over all pairs and all collision counts; a test checks a tolerance on a few runs, masking small systematic leaks.", "anchors": ["src/impl/coalescence/particles_impl_coal.ipp: collide, coal"]}
{"id": "C04", "title": "Kappa of a coalesced droplet reflects both parents", "statement": "When two super-droplets with different hygroscopicity coalesce, the resulting droplet has the dry-volume-weighted mean kappa of its parents, whatever way the two kinds of aerosol entered the simulation (initial condition, source or relaxation).", "quantifier": "all option sets and all populations", "why_tests_cant": "Whether mixing is active depends on the option set; tests exercise only the initial-distribution path.", "anchors": ["src/impl/coalescence/particles_impl_coal.ipp: coal", "src/impl/particles_impl.ipp"]}
{"id": "C05", "title": "Recycling conserves the number of real droplets and clones attributes", "statement": "Recycling zero-multiplicity super-droplets keeps the total multiplicity (the number of real particles) unchanged; every super-droplet after recycling is either untouched, or is one of the two halves (ceil/floor) of a super-droplet that existed before, with all its other attributes equal to those of the split one; the number of super-droplets changes only by removal of those with zero multiplicity.", "quantifier": "all vectors of multiplicities and all attribute vectors", "why_tests_cant": "The outcome depends on the whole multiset of multiplicities; corner cases (no splittable, no ones, more zeros than donors) are combinatorial.", "anchors": ["src/impl/housekeeping/particles_impl_rcyc.ipp: rcyc"]}
{"id": "C06", "title": "After recycling or removal there is no super-droplet with zero multiplicity", "statement": "After the end-of-step clean-up no super-droplet of zero multiplicity is left in the simulation.", "quantifier": "all vectors of multiplicities, with recycling on or off", "why_tests_cant": "Needs all relations between the number of zeros, ones and splittable super-droplets.", "anchors": ["src/impl/housekeeping/particles_impl_rcyc.ipp: rcyc", "src/impl/housekeeping/particles_impl_hskpng_remove.ipp: hskpng_remove_n0", "src/impl/distributed_memory/particles_impl_post_copy.ipp"]}
{"id": "C07", "title": "Removal of zero-multiplicity super-droplets loses nothing else", "statement": "Removing super-droplets of zero multiplicity keeps exactly those with non-zero multiplicity, in the same order, with all attribute vectors still aligned (the k-th entry of each attribute belongs to the same super-droplet), and sets the number of super-droplets accordingly.", "quantifier": "all populations, all numbers of attribute vectors", "why_tests_cant": "Alignment of a dozen parallel vectors must hold for all patterns of zeros.", "anchors": ["src/impl/housekeeping/particles_impl_hskpng_remove.ipp: hskpng_remove_n0", "src/impl/housekeeping/particles_impl_hskpng_resize.ipp: hskpng_resize_npart"]}
{"id": "C08", "title": "Periodic boundaries map positions into the domain by a whole number of domain lengths", "statement": "After applying a periodic boundary condition every coordinate lies in [left edge, right edge) and differs from the coordinate before by an integer multiple of the domain length, provided it was no further than ten domain lengths to the left of the domain.", "quantifier": "all real positions, all domain sizes and offsets", "why_tests_cant": "Continuum of positions; the constant ten is a guard tests never reach.", "anchors": ["src/impl/boundary_conditions/particles_impl_bcnd.ipp: periodic", "src/impl/boundary_conditions/particles_impl_bcnd.ipp: bcnd"]}
{"id": "C09", "title": "Open and vertical boundaries remove exactly the super-droplets outside, and the puddle counts exactly those that fell through the bottom", "statement": "After boundary conditions with open side walls / non-periodic top and bottom, exactly the super-droplets outside the domain have multiplicity zero, all the others are unchanged, and the accumulated 'puddle' diagnostics (liquid volume, dry volume, number, chemical and ice masses) grew exactly by the sum over super-droplets that left through the bottom and had not been removed by another boundary.", "quantifier": "all populations, all positions, all domain extents", "why_tests_cant": "Order of the masks matters (corner exits); tests of precipitation check one exit pattern.", "anchors": ["src/impl/boundary_conditions/particles_impl_bcnd.ipp: bcnd", "src/particles_diag.ipp: diag_puddle"]}
{"id": "C10", "title": "Cell index of a super-droplet is in range and its cell contains it", "statement": "For every position inside the domain the index of the super-droplet's cell is smaller than the number of cells, the cell's box contains the position, and the flat index and the (i,j,k) triple determine each other (z fastest).", "quantifier": "all positions, all grid sizes in 0D, 1D, 2D, 3D", "why_tests_cant": "Continuum of positions and unbounded grid sizes.", "anchors": ["src/impl/housekeeping/particles_impl_hskpng_ijk.ipp: hskpng_ijk, ravel_ijk, unravel_ijk"]}
{"id": "C11", "title": "Staggered-grid neighbour tables address the right Courant numbers", "statement": "For each cell the left/right, fore/hind, below/above face indices used for advection, velocity divergence etc. are in bounds of the corresponding Courant array and address the two faces of that cell; the two faces are distinct and shared with the neighbouring cells.", "quantifier": "all grid sizes and halo widths, in 1D, 2D, 3D", "why_tests_cant": "Index algebra over unbounded sizes; tests use one or two small grids.", "anchors": ["src/impl/initialization/particles_impl_init_grid.ipp: init_grid"]}
{"id": "C12", "title": "Cell volumes add up to the volume of the Lagrangian domain", "statement": "Cell volumes reported/used by the library are non-negative, equal to the volume of the intersection of the cell with the super-droplet domain, and sum up to the volume of that domain.", "quantifier": "all grids, all domain offsets x0,x1,y0,y1,z0,z1 accepted by init", "why_tests_cant": "Domain offsets are a continuum; tests use zero offsets.", "anchors": ["src/impl/initialization/particles_impl_init_grid.ipp: dv_eval", "src/impl/initialization/particles_impl_init_sanity_check.ipp"]}
{"id": "C13", "title": "Calls of init/sync_in/step_cond/step_sync/step_async are accepted exactly in protocol order", "statement": "Any sequence of API calls is accepted iff init comes first and once, and thereafter calls follow the cycle sync_in, step_cond (or step_sync for both), step_async; a call out of order throws and leaves particle state untouched. After any history at most one of 'condensation pending' and 'async pending' holds.", "quantifier": "all finite call histories with arbitrary options and arguments", "why_tests_cant": "Histories are unbounded; tests cover the legal cycle and one or two illegal calls.", "anchors": ["src/particles_step.ipp: sync_in, step_cond, step_sync, step_async", "src/particles_init.ipp: init", "src/impl/initialization/particles_impl_init_sanity_check.ipp"]}
{"id": "C14", "title": "A failed init can be detected: no stepping is possible after a rejected configuration", "statement": "If init throws because the configuration or arrays are rejected, subsequent sync_in/step calls throw as well, and init can be called again with corrected arguments.", "quantifier": "all configurations rejected by init", "why_tests_cant": "Error path histories are not covered by tests.", "anchors": ["src/impl/initialization/particles_impl_init_sanity_check.ipp: init_called", "src/particles_step.ipp: sync_in"]}
{"id": "C15", "title": "Domain decomposition partitions the domain", "statement": "When the domain is distributed over n devices/processes, the per-rank numbers of columns sum to the total, the column ranges are disjoint and ordered and tile 0..nx-1, sub-domain edges of adjacent ranks coincide, the first starts at x0, the last ends at x1, and the source region is partitioned likewise.", "quantifier": "all nx, all numbers of ranks, all domain offsets and source extents", "why_tests_cant": "nx, size and offsets unbounded; non-divisible sizes and source regions covering several ranks are rarely tested.", "anchors": ["src/detail/distmem_opts.hpp: get_dev_nx, distmem_opts"]}
{"id": "C16", "title": "Distributed-memory exchange neither loses nor duplicates super-droplets", "statement": "Exchanging super-droplets between neighbouring sub-domains preserves the multiset of (globally positioned) super-droplets with non-zero multiplicity with all their attributes; the receiver gets all attribute vectors aligned; exceeding n_sd_max raises an error instead of overwriting.", "quantifier": "all populations on all ranks of a periodic or open ring, any number of ranks, any number of attribute vectors", "why_tests_cant": "Needs multi-process runs with all combinations of flows; buffer-slice errors only show for particular counts.", "anchors": ["src/impl/distributed_memory/particles_impl_pack.ipp", "src/impl/distributed_memory/particles_impl_unpack.ipp", "src/impl/distributed_memory/particles_impl_mpi_exchange.ipp", "src/impl_multi_gpu/particles_multi_gpu_impl_step_async_and_copy.ipp"]}
{"id": "C17", "title": "Advection moves a super-droplet with the velocity interpolated from the two faces of its cell", "statement": "The explicit scheme displaces a super-droplet by dx times the linear interpolation of the face Courant numbers at its position; the implicit scheme solves the same with the end position; the predictor-corrector averages two. With face Courant numbers not exceeding one in absolute value a super-droplet never travels further than one cell, and does not cross a wall through which the flow is zero.", "quantifier": "all positions, all face Courant numbers, all cells", "why_tests_cant": "Continuum.", "anchors": ["src/impl/advection/particles_impl_adve.ipp: adve_helper, adve_calc"]}
{"id": "C18", "title": "Condensation never shrinks a droplet below its dry size and moves it in the direction of its growth rate", "statement": "In each condensation substep the squared wet radius stays >= the squared dry radius (if it was), does not decrease when the growth rate is positive, does not increase when it is negative, is unchanged when the rate is zero, and changes by at most a fixed multiple of the explicit Euler increment.", "quantifier": "all droplets, all ambient states, all timesteps, all growth-rate functions", "why_tests_cant": "Root finder paths depend on continuous parameters; a violation occurs only in corner cases.", "anchors": ["src/impl/condensation/common/particles_impl_cond_common.ipp: advance_rw2"]}
{"id": "C19", "title": "The TOMS748 root finder stays in its bracket and terminates", "statement": "For a bracket [a,b] with a sign change the root finder returns a point of [a,b]; it evaluates the function at most max_iter+const times; at the returned bracket the function still changes sign; an exact zero found is returned.", "quantifier": "all functions, all brackets, all precisions of the library's tolerance, all positive iteration limits", "why_tests_cant": "Functions are arbitrary; interpolation steps may leave the bracket only for adversarial shapes.", "anchors": ["include/libcloudph++/common/detail/toms748.hpp: toms748_solve"]}
{"id": "C20", "title": "Condensation conserves water and converts latent heat consistently", "statement": "Over step_cond the water vapour mixing ratio of each cell changes by exactly minus the change of the liquid (and ice) water mixing ratio carried by super-droplets in that cell, and potential temperature by the corresponding latent heating, for any number of substeps and any growth of droplets; cells without super-droplets are unchanged.", "quantifier": "all populations, all substep counts, all growth rates, all densities", "why_tests_cant": "Continuum of inputs, sums over cells.", "anchors": ["src/impl/common/particles_impl_update_th_rv.ipp", "src/impl/condensation/percell/particles_impl_cond.ipp", "src/impl/condensation/perparticle/cond_perparticle_advance_rw2.ipp"]}
{"id": "C21", "title": "Per-cell substepping applies the host-model tendency exactly once", "statement": "With per-cell condensation substeps the ambient variable seen in substep k is the old value plus k/s of the change made by the host model, so after all s substeps exactly the new value is reached (in absence of condensation).", "quantifier": "all old/new values, all substep numbers", "why_tests_cant": "Unbounded substep numbers and real values.", "anchors": ["src/impl/condensation/percell/sstp_percell_step.ipp"]}
{"id": "C22", "title": "Per-particle substepping with mixing leaves all super-droplets of a cell with the same ambient state", "statement": "With per-particle substepping with mixing, after the substeps all super-droplets of a cell carry the same ambient vapour and potential temperature, equal to the host-model value plus the summed condensation changes, irrespective of execution order.", "quantifier": "all populations, all substep numbers, all growth rates, all write orders", "why_tests_cant": "Parallel write order cannot be enumerated by tests.", "anchors": ["src/impl/condensation/perparticle/apply_perparticle_cond_change_to_percell_rv_and_th.ipp", "src/impl/condensation/perparticle/apply_perparticle_drw3_to_perparticle_rv_and_th.ipp"]}
{"id": "C23", "title": "Adaptive substepping applies exactly the whole tendency of the timestep", "statement": "With adaptive per-particle substepping, whatever number of substeps is chosen for a super-droplet, the fractions of the host-model tendency applied to it during the timestep sum up to one.", "quantifier": "all maximal substep numbers, all convergence histories, activation on or off", "why_tests_cant": "The outcome depends on the convergence history in each droplet; combination of convergence and activation is rare.", "anchors": ["src/impl/condensation/perparticle/perparticle_nomixing_adaptive_sstp_cond.ipp", "src/impl/condensation/perparticle/apply_noncond_perparticle_sstp_delta.ipp"]}
{"id": "C24", "title": "Freezing and melting conserve water mass and keep phases exclusive", "statement": "A freezing super-droplet's ice mass equals its previous liquid mass and it has no liquid left; a melting one's liquid mass equals its previous ice mass and has no ice left; a super-droplet is never both liquid and ice after any sequence of freezing and melting; the ambient potential temperature changes by the latent heat of fusion of the mass changed.", "quantifier": "all radii, temperatures, supersaturations, random numbers and histories", "why_tests_cant": "Real-valued inputs and histories.", "anchors": ["src/impl/ice/particles_impl_ice_nucl_melt.ipp", "include/libcloudph++/common/ice_nucleation.hpp"]}
{"id": "C25", "title": "Diagnostic selections and moments are exactly the sums over the selected super-droplets", "statement": "diag_*_rng(min,max) selects exactly the super-droplets with attribute in [min,max); the _cons variants select the intersection with the previous selection; diag_*_mom(k) gives in each cell the sum over selected super-droplets of n*attr^k (specific: per unit mass of dry air); and diagnosing does not change the simulation state.", "quantifier": "all populations, all ranges, all sequences of diag calls, all moment orders", "why_tests_cant": "Sequences of diag calls are unbounded.", "anchors": ["src/particles_diag.ipp", "src/impl/diagnose_SD_attributes/particles_impl_moms.ipp"]}
{"id": "C26", "title": "outbuf returns the last diagnosed quantity for every cell", "statement": "outbuf() returns an array with one entry per cell: the last diagnosed value for cells with super-droplets and zero for the other cells, and calling it again returns the same array.", "quantifier": "all populations and all diag histories", "why_tests_cant": "Depends on which cells are occupied and on call history.", "anchors": ["src/impl/diagnose_SD_attributes/particles_impl_fill_outbuf.ipp", "src/particles_ctor.ipp: outbuf"]}
{"id": "C27", "title": "Bulk saturation adjustment (nwtrph) conserves water and keeps mixing ratios non-negative", "statement": "blk_1m adj_cellwise_nwtrph leaves rv+rc of each cell unchanged, never makes rv or rc negative, changes th consistently with the condensed mass, does nothing if condensation is switched off and rejects ambiguous th definitions.", "quantifier": "all non-negative rv, rc, all th, rhod, p, any number of iterations", "why_tests_cant": "Continuum, including non-converging Newton iterations.", "anchors": ["include/libcloudph++/blk_1m/adj_cellwise.hpp: adj_cellwise_nwtrph"]}
{"id": "C28", "title": "Bulk saturation adjustment (RK4) conserves water and respects the switches", "statement": "blk_1m adj_cellwise leaves rv+rc+rr unchanged, keeps rc and rr non-negative; evaporates cloud before rain; with cevp off cloud never evaporates, with revp off rain never evaporates, with cond off nothing condenses; rain evaporation is bounded by its rate times dt.", "quantifier": "all states, all tolerances, any number of iterations until termination", "why_tests_cant": "Iteration counts unbounded.", "anchors": ["include/libcloudph++/blk_1m/adj_cellwise.hpp: adj_cellwise_nwtrph, adj_cellwise_rk4"]}
{"id": "C29", "title": "Bulk warm-rain tendencies conserve water and obey thresholds and switches", "statement": "blk_1m rhs_cellwise adds to the rain tendency exactly what it subtracts from cloud tendency; the amount is k*max(0,rc-rc0) if autoconversion is on plus 2.2*rc*rr^0.875 if accretion is on; it is non-negative; other inputs are unchanged and previous tendencies are accumulated.", "quantifier": "all states and options, all grids", "why_tests_cant": "Continuum.", "anchors": ["include/libcloudph++/blk_1m/rhs_cellwise.hpp: rhs_cellwise", "include/libcloudph++/blk_1m/formulae.hpp"]}
{"id": "C30", "title": "Bulk rain evaporation tendency conserves water, is limited by available rain, and can be switched off", "statement": "blk_1m rhs_cellwise_revap moves water between rain and vapour only, cools accordingly, never evaporates more than rr/dt, and does nothing if opts.revp is false.", "quantifier": "all states and options", "why_tests_cant": "Continuum, option combinations.", "anchors": ["include/libcloudph++/blk_1m/rhs_cellwise.hpp: rhs_cellwise_revap"]}
{"id": "C31", "title": "Bulk ice tendencies conserve total water and cannot make a species negative over a timestep", "statement": "blk_1m rhs_cellwise_ice tendencies of rv, rc, rr, ria, rib sum to zero; each individual conversion is limited by its reservoir over dt; an Euler step with the given dt starting from non-negative mixing ratios yields non-negative ones; th tendency is the latent heat of the conversions.", "quantifier": "all states and options", "why_tests_cant": "Five-dimensional continuum with many branches.", "anchors": ["include/libcloudph++/blk_1m/rhs_cellwise.hpp: rhs_cellwise_ice"]}
{"id": "C32", "title": "Bulk sedimentation conserves mass in the column", "statement": "blk_1m rhs_columnwise adds tendencies whose density-weighted column sum equals the returned surface flux (nothing enters through the top); with sedimentation off it returns zero and changes nothing; fluxes are downward.", "quantifier": "all column heights and profiles", "why_tests_cant": "Column height unbounded.", "anchors": ["include/libcloudph++/blk_1m/rhs_columnwise.hpp"]}
{"id": "C33", "title": "Ice growth look-up tables are accessed in bounds", "statement": "For every temperature the ice growth coefficient look-up reads only existing table entries and returns a value between neighbouring table entries.", "quantifier": "all temperatures", "why_tests_cant": "Out of bounds read shows up only below a particular temperature, and silently.", "anchors": ["include/libcloudph++/blk_1m/formulae.hpp: coeff_alpha, coeff_beta"]}
{"id": "C34", "title": "Temporary storage is never handed out twice and is enough for all configurations", "statement": "Temporary vectors borrowed internally are exclusive to the borrower until returned; in all accepted configurations the number simultaneously borrowed never exceeds the number allocated.", "quantifier": "all acquire/release histories and all configurations", "why_tests_cant": "Configurations are combinatorial; exhaustion is UB in release builds.", "anchors": ["src/detail/tmp_vector_pool.hpp", "src/impl/particles_impl.ipp: tmp_drp_no", "src/impl/advection/particles_impl_adve.ipp"]}
{"id": "C35", "title": "Variable timesteps keep substeps at most as long as configured, and are rejected when not enabled", "statement": "With variable timestep enabled, a timestep dt uses ceil(s*dt/dt_init) substeps when s>1, so that the substep length does not exceed the configured one; with dt<=0 the configured dt and substeps are used; supplying dt without enabling the switch throws.", "quantifier": "all dt, all configured substep numbers, all histories of dt", "why_tests_cant": "Continuum and histories.", "anchors": ["src/impl/particles_impl_adjust_timesteps.ipp"]}
{"id": "C36", "title": "Automatic increase of coalescence substeps has an effect", "statement": "When multiple collisions are detected with constant-multiplicity initialisation, the number of coalescence substeps increases for the following steps.", "quantifier": "all histories", "why_tests_cant": "Requires histories with multiple collisions.", "anchors": ["src/particles_step.ipp: step_async", "src/impl/particles_impl_adjust_timesteps.ipp", "src/impl/coalescence/particles_impl_coal.ipp"]}
{"id": "C37", "title": "Kappa-Koehler equilibrium radius exists in the bracket searched and is a zero of the equilibrium condition", "statement": "For relative humidity below one, the equilibrium wet volume neglecting curvature exactly balances water activity with RH, is at least the dry volume, and the equilibrium with curvature lies between the dry volume and that value; for kappa=0 it is the dry volume.", "quantifier": "all dry volumes, 0<=kappa, 0<=RH<1, temperatures", "why_tests_cant": "Continuum; a bracket without sign change makes the root finder meaningless.", "anchors": ["include/libcloudph++/common/kappa_koehler.hpp"]}
{"id": "C38", "title": "Conversions between dry and standard potential temperature are mutually inverse", "statement": "dry2std and std2dry of potential temperature are inverse of each other for every mixing ratio, and temperature, pressure, vapour-pressure relations are mutually consistent.", "quantifier": "all th, r", "why_tests_cant": "Continuum.", "anchors": ["include/libcloudph++/common/theta_dry.hpp", "include/libcloudph++/common/theta_std.hpp", "include/libcloudph++/common/moist_air.hpp"]}
{"id": "C39", "title": "Eulerian arrays are mapped to Lagrangian cells one to one, also with strides and halo", "statement": "The mapping from library cells to elements of the host arrays passed in through arrinfo is injective, in bounds and addresses element (i,j,k) of the array at sum of index*stride, for cells, and for Courant arrays including halo faces which are mapped periodically.", "quantifier": "all grid sizes, strides, halos", "why_tests_cant": "Index algebra over unbounded sizes.", "anchors": ["src/impl/initialization/particles_impl_init_e2l.ipp", "include/libcloudph++/lgrngn/arrinfo.hpp"]}
{"id": "C40", "title": "Sedimentation and subsidence displace super-droplets only vertically and by velocity times timestep", "statement": "Sedimentation lowers each super-droplet by its fall speed times dt; subsidence lowers by the subsidence rate of its cell times dt; nothing else changes.", "quantifier": "all populations", "why_tests_cant": "All fall speeds, cells.", "anchors": ["src/impl/sedimentation/particles_impl_sedi.ipp", "src/impl/subsidence/particles_impl_subs.ipp"]}
{"id": "C41", "title": "Cached fall speeds are always either up to date or marked invalid when used", "statement": "At the moment fall speed is used for sedimentation or collision every super-droplet's fall speed corresponds to its current size; updating invalid ones leaves others unchanged.", "quantifier": "all histories of coalescence, condensation and sedimentation", "why_tests_cant": "Cache invalidation histories.", "anchors": ["src/impl/housekeeping/particles_impl_hskpng_vterm.ipp", "src/impl/coalescence/particles_impl_coal.ipp", "src/particles_step.ipp"]}
{"id": "C42", "title": "Configuration checks accept exactly consistent configurations", "statement": "init rejects inconsistent option combinations (listed in the documentation of opts_init) irrespective of all the other options, and accepts the consistent ones.", "quantifier": "all option combinations and arrays", "why_tests_cant": "Combinatorial number of option sets.", "anchors": ["src/impl/initialization/particles_impl_init_sanity_check.ipp"]}
{"id": "C43", "title": "In-cloud time counts consecutive time above the activation radius", "statement": "A super-droplet's in-cloud time equals dt times the number of steps since it was last not activated, reset to zero when deactivated, and a coalesced droplet inherits the longer one.", "quantifier": "all histories of activation", "why_tests_cant": "Histories.", "anchors": ["src/impl/diagnose_SD_attributes/particles_impl_update_incloud_time.ipp", "src/impl/coalescence/particles_impl_coal.ipp"]}
{"id": "C44", "title": "Sorting super-droplets groups them by cell and per-cell counts are exact", "statement": "After sorting, the order of super-droplets is a permutation of all of them, ordered by cell; the per-cell counts list exactly the non-empty cells in increasing order with the exact number of super-droplets in each.", "quantifier": "all populations, all random keys", "why_tests_cant": "All permutations.", "anchors": ["src/impl/housekeeping/particles_impl_hskpng_sort.ipp", "src/impl/housekeeping/particles_impl_hskpng_count.ipp"]}
{"id": "C45", "title": "Super-droplets created in a cell lie in that cell and inside the domain, with the requested count", "statement": "Initial positions drawn for a cell lie in the intersection of the cell and the domain; the number of super-droplets created for each cell is as requested by options, and the multiplicities integrate to the prescribed concentration.", "quantifier": "all grids, offsets, random numbers, options", "why_tests_cant": "Continuum.", "anchors": ["src/impl/initialization/particles_impl_init_xyz.ipp", "src/impl/initialization/particles_impl_init_count_num.ipp", "src/impl/initialization/particles_impl_init_SD_with_distros_sd_conc.ipp", "src/impl/initialization/particles_impl_init_n.ipp"]}
{"id": "C46", "title": "The advection scheme falls back to Euler only for the step whose Courant numbers require it", "statement": "With predictor-corrector advection configured, a step advects with the Euler scheme exactly when some x Courant number valid for that step exceeds 2 in magnitude, and the fallback does not outlive the step.", "quantifier": "all histories of calls and arrays", "why_tests_cant": "Histories of calls.", "anchors": ["src/particles_step.ipp: sync_in, step_async"]}
{"id": "C47", "title": "Within a step everything that moves particles precedes the boundary conditions, exchange, removal and re-indexing", "statement": "In every accepted step_async advection, turbulence, sedimentation, subsidence, source and relaxation come before the single application of boundary conditions, followed by exchange, recycling or removal, cell index update and counting; a rejected call moves nothing.", "quantifier": "all option sets and histories", "why_tests_cant": "All option combinations and histories.", "anchors": ["src/particles_step.ipp: step_async", "src/impl/distributed_memory/particles_impl_post_copy.ipp"]}
{"id": "C48", "title": "A process disabled in the initial options never runs", "statement": "Whatever options later calls are given, no process whose switch was off at construction (collisions, sedimentation, subsidence, turbulence, source, relaxation, ice, chemistry) is ever performed.", "quantifier": "all histories of calls and options", "why_tests_cant": "All option combinations and histories.", "anchors": ["src/particles_step.ipp: step_cond, step_async"]}
{"id": "C49", "title": "Saturation vapour pressure obeys the Clausius-Clapeyron equation and orders ice and liquid saturation", "statement": "The saturation vapour pressures over liquid and ice satisfy the Clausius-Clapeyron equation with the latent heats used by the rest of the library, coincide at the triple point, increase with temperature, ice saturation is lower below and higher above the triple point, latent heats add up (sublimation = vaporisation + fusion), and the saturation mixing ratio is the one whose vapour pressure is the saturation pressure.", "quantifier": "all temperatures and pressures", "why_tests_cant": "Continuum, derivatives.", "anchors": ["include/libcloudph++/common/const_cp.hpp: p_vs, p_vsi, r_vs, r_vsi, l_v, l_s, l_f", "include/libcloudph++/common/moist_air.hpp: p_v"]}
{"id": "C50", "title": "Aerosol sources and relaxation act every so many steps", "statement": "While the source is requested in consecutive accepted asynchronous steps, a source of super-step length n acts in the first of them and in every n-th after it, and relaxation in every supstp_rlx-th over supstp_rlx time steps; a step without the request restarts the count, and calls that are rejected do not count.", "quantifier": "all histories of calls, all options, all super-step lengths", "why_tests_cant": "The period only shows over long histories with interruptions and rejected calls.", "anchors": ["src/particles_step.ipp", "src/impl/sources_and_relaxation_of_SDs/particles_impl_src_dry_distros_simple.ipp"]}
{"id": "C51", "title": "Droplets grow in air more humid than their surface and shrink in drier air", "statement": "In every condensation substep with a positive time step a droplet grows exactly when the ambient relative humidity (limited to RH_max) exceeds the kappa-Koehler saturation ratio over its surface, shrinks exactly when it is below (unless it is at its dry size), and ventilation never slows vapour and heat transport down below that of a droplet at rest.", "quantifier": "all droplets, ambient states and time steps, including those left behind by collisions", "why_tests_cant": "Continuum of states; the failing states only arise from earlier collisions.", "anchors": ["src/impl/condensation/common/particles_impl_cond_common.ipp: advance_rw2", "include/libcloudph++/common/maxwell-mason.hpp", "include/libcloudph++/common/ventil.hpp", "include/libcloudph++/common/kelvin_term.hpp"]}
{"id": "C52", "title": "Deposition keeps ice crystals ice and grows them exactly in ice-supersaturated air", "statement": "A deposition step leaves liquid droplets untouched, keeps both semi-axes of an ice crystal positive, lengthens them when the air is supersaturated with respect to ice, and shortens them (down to a nanometre) when it is subsaturated.", "quantifier": "all crystals, ambient states and time steps", "why_tests_cant": "Continuum of states.", "anchors": ["src/impl/condensation/common/particles_impl_cond_common.ipp: advance_ice_ac", "include/libcloudph++/common/maxwell-mason.hpp: rdrdt_i"]}
{"id": "C53", "title": "Freezing has the stated statistics, whatever the time step", "statement": "The probability that a drop freezes within a step is in [0,1), is zero for a zero step, grows with the step, with the insoluble surface and, without insoluble matter, with the drop's volume, and the probability of staying liquid over a given time does not depend on how the time is divided into steps; with singular freezing, a particle freezes at or above a temperature exactly if its random number is at most the frozen fraction given by the active site density and its insoluble surface, and particles without insoluble matter freeze at -38 C.", "quantifier": "all drop sizes, insoluble surfaces, temperatures, time steps and random numbers in (0,1)", "why_tests_cant": "Continuum of inputs; statistics cannot be settled by samples.", "anchors": ["include/libcloudph++/common/ice_nucleation.hpp: p_freeze, T_freeze_CDF_inv"]}
{"id": "C54", "title": "Freezing temperatures of new super-droplets are drawn afresh", "statement": "Whenever super-droplets are created in a run with ice and singular freezing (in the initial state, for each aerosol type and size, or from a source), the freezing temperature of each follows from its insoluble surface and a random number drawn for it at that time; existing super-droplets keep theirs.", "quantifier": "all numbers of aerosol types, batches of super-droplets and contents of scratch memory", "why_tests_cant": "Depends on what earlier computations left in scratch memory.", "anchors": ["src/impl/initialization/particles_impl_init_T_freeze.ipp: init_T_freeze", "src/impl/initialization/particles_impl_init_SD_with_distros.ipp", "src/detail/urand.hpp: generate_n"]}
{"id": "C55", "title": "The mass density estimate uses the number of super-droplets of the cell it is made for", "statement": "diag_wet_mass_dens(r, sig0) followed by outbuf() gives in each cell the kernel estimate of the mass density of the selected droplets at radius r, with the bandwidth sig0 divided by the fifth root of the number of super-droplets in that cell, and zero in cells without super-droplets; integrated over the logarithm of radius it is the mass of the selected droplets per volume.", "quantifier": "all populations, distributions of super-droplets over cells (including empty cells), selections, radii and bandwidths", "why_tests_cant": "Depends on which cells are empty, i.e. on the whole history of the population.", "anchors": ["src/impl/diagnose_SD_attributes/particles_impl_mass_dens.ipp: mass_dens_estim", "src/particles_diag.ipp: diag_wet_mass_dens"]}
{"id": "C56", "title": "A source adds aerosol in its region at its rate", "statement": "While opts.src is set, particles of each source are added in exactly the cells whose centres lie in the box src_x0..src_z1, in each of them the given number of super-droplets per addition with the given size or sizes spread over the distribution; the real particles added over any time are the rate times the time the source was on (scaled like the initial aerosol), up to rounding of multiplicities and one period ahead.", "quantifier": "all grids, boxes, rates, numbers of super-droplets, periods, histories of switching and of time steps, and random numbers", "why_tests_cant": "Depends on the whole history of steps and a continuum of parameters.", "anchors": ["src/impl/initialization/particles_impl_init_count_num.ipp: init_count_num_src", "src/impl/sources_and_relaxation_of_SDs/particles_impl_src_dry_sizes.ipp", "src/impl/sources_and_relaxation_of_SDs/particles_impl_src_dry_distros_simple.ipp", "src/particles_step.ipp: step_async"]}
{"id": "C57", "title": "The source that matches existing aerosol adds the same amount as one that does not", "statement": "With src_type::matching, each addition brings to every cell of the source region the rate times the time between additions, for each size bin either by raising the multiplicity of one existing super-droplet of that cell and bin, or, if there is none, by one new super-droplet of that size; other cells are not changed and no multiplicity is lowered.", "quantifier": "all populations of existing super-droplets, grids, boxes, distributions, numbers of bins and random numbers", "why_tests_cant": "Depends on how the existing super-droplets of all cells fall into bins, i.e. on the whole history.", "anchors": ["src/impl/sources_and_relaxation_of_SDs/particles_impl_src_dry_distros_matching.ipp: src_dry_distros_matching"]}
{"id": "C58", "title": "Collision kernels are symmetric, non-negative and defined", "statement": "Every coalescence kernel that the library accepts gives, for every pair of super-droplets in the same air, a number that is not negative and does not depend on which of the two comes first; the turbulent kernels use the dissipation rate of the cell and the Kolmogorov scale of the flow.", "quantifier": "all kernels, tables, multiplicities, radii, fall speeds, densities, viscosities, dissipation rates and parameters of the user", "why_tests_cant": "Continuum of inputs; boundaries of tables are met by few radii.", "anchors": ["src/detail/kernels.hpp: calc", "src/detail/kernel_onishi_nograv.hpp: kernel_onishi_nograv", "src/detail/wang_collision_enhancement.hpp: wang_collision_enhancement_t", "src/impl/initialization/particles_impl_init_kernel.ipp: init_kernel"]}
{"id": "C59", "title": "Tabulated collision efficiencies are looked up in bounds and interpolated", "statement": "With every kernel that uses tabulated collision efficiencies, for every pair of radii, however small or large, the efficiency is read within the table and is the bilinear interpolation of the values at the four tabulated pairs of radii around it (the last ones for droplets beyond the table), exact at the tabulated radii and never beyond the extreme values of the table, in single and in double precision.", "quantifier": "all tables, pairs of radii and roundings", "why_tests_cant": "Continuum of inputs; out-of-bounds reads do not show in results.", "anchors": ["src/detail/kernel_interpolation.hpp: interpolated_efficiency", "src/detail/kernel_utils.hpp: kernel_index, kernel_vector_index"]}
{"id": "C60", "title": "Relaxation brings missing aerosol back at its time scale and never beyond", "statement": "While opts.rlx is set, every supstp_rlx steps and separately for each relaxed distribution, size bin and horizontal level in the range of altitudes, the particles of the given range of kappa and of the bin present in the whole level are compared with the number expected from the distribution, the volume of the level and (unless independent of density) the air density; if more than rlx_conc_tolerance of it is missing, rlx_sd_per_bin super-droplets appear in random cells of the level, with sizes in the bin, that together bring the missing number times min(1, supstp_rlx dt / rlx_timescale), up to rounding; otherwise nothing is added. The total never exceeds what is expected, also in distributed runs and together with a source.", "quantifier": "all domains, populations, distributions, numbers of bins and super-droplets per bin, time scales, results of unstable sorts, random numbers and histories of switching", "why_tests_cant": "Depends on the population of a whole level and on the results of unstable sorts.", "anchors": ["src/impl/sources_and_relaxation_of_SDs/particles_impl_rlx_dry_distros.ipp: rlx_dry_distros", "src/particles_step.ipp: step_async", "src/detail/distmem_opts.hpp"]}
{"id": "C61", "title": "The double-moment bulk scheme conserves water and energy in a cell", "statement": "Whatever blk_2m::rhs_cellwise adds to the tendencies of vapour, cloud and rain water of a cell sums to zero, for every state, time step and choice of processes, and the tendency of the potential temperature changes by the latent heat of the water that leaves the vapour.", "quantifier": "all cells, tendencies, options and time steps", "why_tests_cant": "Limiters of several processes interact; their combinations depend on a continuum of states and time steps.", "anchors": ["include/libcloudph++/blk_2m/rhs_cellwise.hpp: rhs_cellwise", "include/libcloudph++/blk_2m/accretion_formulae.hpp", "include/libcloudph++/blk_2m/autoconversion_formulae.hpp"]}
{"id": "C62", "title": "The double-moment bulk scheme keeps mixing ratios and numbers non-negative", "statement": "A forward Euler step with the tendencies from blk_2m::rhs_cellwise for the same time step, from non-negative values and no other tendencies, gives non-negative vapour, cloud and rain water and numbers of droplets and drops.", "quantifier": "all cells, options and time steps", "why_tests_cant": "Depends on the order of limiters and on a continuum of states.", "anchors": ["include/libcloudph++/blk_2m/rhs_cellwise.hpp: rhs_cellwise"]}
{"id": "C63", "title": "Each process of the double-moment bulk scheme has its documented effect and none when switched off", "statement": "blk_2m::rhs_cellwise computes every cell on its own and fails, with all tendencies as they were, exactly when both or none of th_dry and const_p are set. With all processes off nothing changes. Activation alone acts in supersaturated air only and raises the number of droplets to that of the aerosol activated at the supersaturation (limited by RH_max), never beyond the aerosol there is; each new droplet has 1 um. Condensation alone grows or evaporates cloud water towards saturation at the diffusional rate of droplets of the mean radius, removes droplets only with all of their water, never grows rain and evaporates rain keeping its mean size. Autoconversion alone moves water at Khairoutdinov and Kogan's rate into drops of 25 um, accretion alone without changing the number of drops, and both remove droplets of the mean mass.", "quantifier": "all cells, options, aerosol modes and time steps", "why_tests_cant": "Continuum of states; the switches and thresholds multiply the cases.", "anchors": ["include/libcloudph++/blk_2m/rhs_cellwise.hpp: rhs_cellwise", "include/libcloudph++/blk_2m/activation_formulae.hpp", "include/libcloudph++/blk_2m/cond_evap_formulae.hpp", "include/libcloudph++/blk_2m/common_formulae.hpp", "include/libcloudph++/blk_2m/collision_sink_formulae.hpp"]}
{"id": "C64", "title": "Sedimentation of rain in the double-moment bulk scheme conserves mass and stays non-negative", "statement": "blk_2m::rhs_columnwise moves rain water and drops downwards only: what leaves a level enters the one below, the density-weighted sum of the changes equals the returned flux through the bottom, which is never into the domain, and no level loses more than it will have after the time step with the tendencies so far, so non-negative values stay non-negative. Switched off it changes nothing and returns zero.", "quantifier": "all columns, numbers of levels, tendencies, densities, time steps and layer depths", "why_tests_cant": "Induction over levels; limiters depend on all previous tendencies.", "anchors": ["include/libcloudph++/blk_2m/rhs_columnwise.hpp: rhs_columnwise"]}
{"id": "C65", "title": "Fall speeds of rain in the double-moment bulk scheme are means over the drop size distribution", "statement": "The fall speeds used for rain mass and number are the averages of the fall speed of single drops (four power laws of Simmel et al.) over the exponential distribution of diameters with the given mass and number, weighted by mass and unweighted, times the ratio of standard to actual air density; they are never negative and vanish without enough rain.", "quantifier": "all masses, numbers and densities", "why_tests_cant": "Closed forms of integrals with the error function; a wrong term shows only in some range of sizes.", "anchors": ["include/libcloudph++/blk_2m/terminal_vel_formulae.hpp: v_term_m, v_term_n, int_1, int_2, int_3, int_4", "include/libcloudph++/blk_2m/common_formulae.hpp: lambda_r"]}
{"id": "C66", "title": "Uptake of trace gases: droplets approach Henry's law equilibrium, no gas is lost", "statement": "In a step with dissolving switched on, the amount of each of the six gases (with its dissociation products) in each dilute droplet moves monotonically towards the amount in Henry's-law equilibrium with the gas pressure before the step (diffusion and interface limited, implicit in time), never beyond it, and converges to it under repetition; droplets that are not dilute are unchanged. The gas taken up by all droplets of a cell is removed from the air of that cell, so gas plus dissolved amount is constant per cell, and gas content never becomes negative.", "quantifier": "all temperatures, pressures of gas, radii, acidities, time steps, populations of super-droplets in all cells", "why_tests_cant": "Conservation sums over any population after a sort; the limit case where the air runs out of gas is rarely hit by tests.", "anchors": ["src/impl/chemistry/particles_impl_chem_henry.ipp: chem_henry, chem_Henry_fun, ambient_chem_calculator", "include/libcloudph++/common/henry.hpp: mass_trans"]}
{"id": "C67", "title": "Dissociation: H+ is the solution of electroneutrality", "statement": "With dissociation switched on, the H+ found for a droplet is the unique concentration for which the charges of H+, OH-, and all ions of dissolved SO2, CO2, HNO3, NH3 and H2SO4 in dissociation equilibrium sum to zero (within the tolerance of the root finder), for all compositions; droplets are processed exactly when their ionic strength is below 0.02 mol/l.", "quantifier": "all amounts of the five substances, volumes, temperatures", "why_tests_cant": "A root of a nine-term rational function for every composition; brackets and tolerance only matter for some compositions.", "anchors": ["src/impl/chemistry/particles_impl_chem_dissoc.ipp: chem_minfun, chem_electroneutral, chem_dissoc", "src/impl/chemistry/particles_impl_chem_strength.ipp: set_chem_flag, chem_flag_ante", "include/libcloudph++/common/dissoc.hpp"]}
{"id": "C68", "title": "Oxidation of sulphur: rate laws, stoichiometry, no negative amounts", "statement": "With reactions switched on, S(IV) is oxidised to S(VI) in dilute droplets by O3 and H2O2 at the published rates, limited so that no more is used up in a step than there is; sulphur is conserved, one mole of oxidant is used per mole of S(VI), no amount becomes negative, other species do not change, and the dry volume grows by the mass of sulphate formed over the given density. If S(IV) and an oxidant are present sulphate grows.", "quantifier": "all compositions, temperatures, acidities, time steps and droplets", "why_tests_cant": "Four stages of a Runge-Kutta scheme with limiters; sign for all stiff rates cannot be tested.", "anchors": ["src/impl/chemistry/particles_impl_chem_react.ipp: chem_rhs_helper, chem_rhs, chem_new_rd3, chem_react", "include/libcloudph++/common/react.hpp"]}
{"id": "C69", "title": "A step of chemistry: substeps, switches, conservation", "statement": "A step of chemistry with any number of substeps and any combination of its three processes keeps positions, numbers and wet radii; the change of gases given from outside is spread evenly over the substeps; the amount of N(V), N(-III), C(IV) and of sulphur (S(IV) and S(VI)) in air and droplets of each cell is conserved and no amount becomes negative. With all three processes off nothing changes; with any of them on but chemistry off at initialization the call throws.", "quantifier": "all options, numbers of substeps, populations, histories of substeps", "why_tests_cant": "Composition of clean-ups, limiters and substeps over any number of substeps.", "anchors": ["src/particles_step.ipp: step_cond", "src/impl/chemistry/particles_impl_sstp_chem.ipp: sstp_percell_step_chem, sstp_save_chem", "src/impl/chemistry/particles_impl_chem_ante.ipp: chem_vol_ante, chem_cleanup"]}
{"id": "C70", "title": "Composition of dry particles", "statement": "A new droplet of any dry size holds equal numbers of moles of N(-III), S(VI) and H+ and nothing else, and ammonium bisulphate made of them weighs as much as the dry particle of the given density. Over any history of chemistry steps, the mass of the dry particle minus its S(VI) stays what it was: the dry volume grows exactly by the sulphate formed, and never shrinks.", "quantifier": "all dry sizes, densities, options, compositions, histories of chemistry steps", "why_tests_cant": "A conservation law over all histories and all compositions.", "anchors": ["src/impl/initialization/particles_impl_init_chem.ipp: init_chem_aq, chem_init_NH4, chem_init_S6, chem_init_H", "src/impl/chemistry/particles_impl_chem_react.ipp: chem_new_rd3"]}
{"id": "C71", "title": "Candidate pairs are sampled without bias; mean number of collisions", "statement": "Over all random orders of super-droplets, equally likely, any two super-droplets of a cell holding k of them are candidates in a share floor(k/2)/(k(k-1)) of the orders in either role, whatever the sorting algorithm does with equal keys. Averaged over the orders and over the random number of the pair, the number of droplets lost in collisions of i with j is dt/dv times the kernel times min(n_i, n_j), as if every pair was tried with its physical probability, unless the number of collisions is limited by the ratio of multiplicities.", "quantifier": "all populations, cells, kernels, sorting algorithms, pairs of super-droplets, all random orders (counted) and all random numbers (integrated)", "why_tests_cant": "A statement on the distribution of results over all random orders; tests sample a few of them with statistical noise.", "anchors": ["src/impl/coalescence/particles_impl_coal.ipp: collider, scale_factor, coal", "src/impl/housekeeping/particles_impl_hskpng_sort.ipp: hskpng_sort_helper"]}
{"id": "C72", "title": "Subgrid turbulence: perturbations of velocity", "statement": "With turbulent advection (or condensation) switched on, each component of the velocity perturbation of each super-droplet follows the Ornstein-Uhlenbeck process of Grabowski and Abade 2017: the kinetic energy and the time scale follow from the dissipation rate in the cell of the droplet and the mixing length of its level; over any number of steps of any lengths the mean decays as exp(-t/tau), the variance tends to 2/3 of the energy at rate exp(-2t/tau) and the covariance with the initial value decays as exp(-t/tau), independently of how time is divided into steps. Nothing else about super-droplets changes; in air without dissipation perturbations do not change.", "quantifier": "all populations, dissipation rates, mixing lengths, options, numbers and lengths of steps, distributions of initial velocities, all sequences of uncorrelated random numbers of mean zero and unit variance", "why_tests_cant": "A statement on statistics over any number of time steps and any random numbers.", "anchors": ["include/libcloudph++/common/GA17_turbulence.hpp: tke, tau, update_turb_vel", "include/libcloudph++/common/SGS_length_scale.hpp", "src/impl/housekeeping/particles_impl_hskpng_tke.ipp", "src/impl/housekeeping/particles_impl_hskpng_turb_vel.ipp", "src/particles_step.ipp: step_async"]}
{"id": "C73", "title": "Subgrid turbulence: perturbation of supersaturation relaxes", "statement": "With turbulent condensation switched on, the tendency of the supersaturation perturbation of a super-droplet is 3e-4 w' minus the perturbation over a relaxation time inversely proportional to the sum of radii of droplets per volume of its cell; substeps of condensation add up to the tendency times the time step; in the absence of vertical perturbations it relaxes towards zero.", "quantifier": "all populations, sizes, perturbations, time steps, numbers of substeps", "why_tests_cant": "Sums over any population; stability of the scheme depends on the number of droplets and the time step.", "anchors": ["include/libcloudph++/common/GA17_turbulence.hpp: tau_relax, dot_turb_ss", "src/impl/housekeeping/particles_impl_hskpng_turb_ss.ipp", "src/impl/condensation/common/apply_perparticle_sgs_supersat.ipp"]}
{"id": "C74", "title": "Diagnosed divergence of velocity", "statement": "diag_vel_div followed by outbuf returns in every cell of every device the divergence of the velocity field from which the caller made the Courant numbers on cell walls, for 1 to 3 dimensions, any layout of host arrays and any halo, and changes neither particles nor fields nor the selection; without space dimensions it does nothing.", "quantifier": "all grids, devices, layouts of arrays, flows, cells", "why_tests_cant": "Index arithmetic over all grids, decompositions and layouts.", "anchors": ["src/particles_diag.ipp: diag_vel_div, add_div", "src/impl/initialization/particles_impl_init_grid.ipp", "src/impl/initialization/particles_impl_init_e2l.ipp"]}
{"id": "C75", "title": "Lognormal distributions offered to users", "statement": "The two lognormal functions describe one distribution, as a function of ln r and of r: their integrals over all sizes are n_tot, mean_r is the median radius and exp of the mean of ln r, ln stdev is the standard deviation of ln r, and the k-th moment of r is n_tot mean_r^k exp(k^2 (ln stdev)^2 / 2) for all k.", "quantifier": "all median radii, standard deviations above one, numbers, orders of moments", "why_tests_cant": "Improper integrals for all parameters.", "anchors": ["include/libcloudph++/common/lognormal.hpp: n_e, n"]}
{"id": "C76", "title": "Hydrostatic pressure profile offered to users", "statement": "hydrostatic::p gives p_0 at z_0, is positive and strictly decreases with height below the height at which it vanishes, and is there the only profile through p_0 in hydrostatic balance with the density of moist air of constant potential temperature and mixing ratio as computed by the library's own theta_std::rhod.", "quantifier": "all heights below the top, potential temperatures, mixing ratios, surface pressures; uniqueness among all differentiable profiles", "why_tests_cant": "A differential equation at all heights and uniqueness among all profiles.", "anchors": ["include/libcloudph++/common/hydrostatic.hpp: p", "include/libcloudph++/common/theta_std.hpp: rhod", "include/libcloudph++/common/moist_air.hpp: R, mix", "include/libcloudph++/common/earth.hpp: g"]}
{"id": "C77", "title": "Multi-GPU exchange of super-droplets under all interleavings", "statement": "In step_async of the multi_CUDA backend with two or more devices, however the host threads, the asynchronous copies between devices, the events and the barrier are interleaved: no deadlock, every run ends, no access outside of a buffer, and at the end all devices together hold exactly the super-droplets there were, with all their attributes, at positions changed only by the walls, each on the device whose sub-domain contains it; if a device would exceed n_sd_max the program is terminated.", "quantifier": "all numbers of devices, numbers of attributes, populations, both kinds of side walls, all interleavings of threads and of the transfer of single elements", "why_tests_cant": "Data races and deadlocks between threads and copy engines show up in few interleavings, and tests run on one machine with few devices.", "anchors": ["src/impl_multi_gpu/particles_multi_gpu_impl_step_async_and_copy.ipp: step_async_and_copy", "src/particles_multi_gpu_step.ipp: step_async", "src/detail/gpu_assert.hpp: barrier_t", "src/impl/boundary_conditions/particles_impl_bcnd.ipp: bcnd", "src/impl/distributed_memory/particles_impl_unpack.ipp: unpack_n, unpack_real"]}
{"id": "C78", "title": "Multi-GPU backend: accepted options, outbuf and diag_puddle", "statement": "The constructor of multi_CUDA accepts exactly the configurations that can be shared out and refuses the rest; outbuf returns for every cell of the whole grid what was diagnosed there by the device to which the cell belongs; diag_puddle returns sums over devices.", "quantifier": "all grids, numbers of devices, diagnostics, accumulated outputs", "why_tests_cant": "All grids and numbers of devices; needs several graphics cards.", "anchors": ["src/impl_multi_gpu/particles_multi_gpu_impl.ipp: impl", "src/particles_multi_gpu_diag.ipp: outbuf, diag_puddle, add_puddle", "src/impl/diagnose_SD_attributes/particles_impl_fill_outbuf.ipp: fill_outbuf"]}
{"id": "C79", "title": "Python: NumPy arrays passed as fields and profiles", "statement": "A float64 C-contiguous array passed from Python is read and written so that cell or wall (i, j, k) uses element [i, j, k], or [k] of a profile, always inside the array; every other array is refused with an exception and without effect; the buffer of outbuf() has one element per cell.", "quantifier": "all grids, devices, arrays of any type, shape and layout, cells and walls", "why_tests_cant": "Strides and dimensionality of all possible arrays; an access outside of an array often goes unnoticed.", "anchors": ["bindings/python/util.hpp: np2ai, sanity_checks", "bindings/python/lgrngn.hpp: outbuf, sz", "src/impl/initialization/particles_impl_init_e2l.ipp: init_e2l"]}
{"id": "C80", "title": "Python: arguments by name and assigned options", "statement": "In every accepted call of init, step_sync, sync_in and step_cond an argument given by name reaches the parameter of that name, positional ones arrive in order and the rest have their defaults; an option assigned from Python has the value assigned last; a dict of distributions gives one entry per item.", "quantifier": "all calls with any mixture of positional and keyword arguments, all histories of assignments, all dicts", "why_tests_cant": "Combinations of arguments and histories of assignments are unlimited.", "anchors": ["bindings/python/lib.cpp: init, step_sync, sync_in, step_cond", "bindings/python/lgrngn.hpp: set_kp, set_w_LS, set_SGS_mix_len, set_dd, set_sdd", "bindings/python/blk_2m.hpp: set_dd", "include/libcloudph++/lgrngn/distro_t.hpp: kappa_rd_insol_t"]}
{"id": "C81", "title": "Budgets of water, aerosol and particle number over whole runs", "statement": "Over any sequence of time steps (step_sync and step_async, with condensation, ice processes, collisions, motion, sources, boundaries and recycling in any combination of options), the water in the domain and on the ground changes exactly by what the host model does to rv, what sources bring and what leaves through open side walls and the top; the same holds for the dry volume of aerosol; the number of particles changes likewise but is reduced by collisions. All super-droplets stay in cells of the grid and none is left without droplets. Conditions: condensation with options for which single passes conserve water (C20), recycling that finds enough donors (C06).", "quantifier": "all initial states, grids, boundary types, numbers of steps, options per step, host-model fields, kernels, random numbers, sorting results, thread schedules, sources", "why_tests_cant": "A leak in any process, or in a combination of processes in one step, only shows in long runs and in some configurations; tests compare a few runs with tolerances.", "anchors": ["src/particles_step.ipp: step_sync, sync_in, step_cond, step_async", "src/impl/boundary_conditions/particles_impl_bcnd.ipp: bcnd", "src/impl/distributed_memory/particles_impl_post_copy.ipp: post_copy", "include/libcloudph++/lgrngn/particles.hpp: particles_proto_t, diag_puddle"]}
{"id": "C82", "title": "Efficiencies of the collision kernels the library comes with", "statement": "With the tables that the library ships (Hall, Hall-Davis, Vohl-Davis and three Hall-Pinsky tables, 20301 numbers each) and in double precision, for all pairs of droplets: the kernel has a value, between zero and four times the geometric kernel; not above the geometric kernel unless both radii are between 35 and 100 micrometres, and equal to it if both are at least 100 micrometres; with Hall's table and its variants, drops of 300 micrometres or more never collect droplets below 14; the Davis and Pinsky variants equal Hall's kernel as soon as the greater radius is at least 31 or 22 micrometres; no kernel with non-negative parameters is negative.", "quantifier": "all kernels, all radii, multiplicities, fall speeds, states of the air and rounding rules for ties", "why_tests_cant": "There are 20301 numbers per table and infinitely many pairs of radii between them; one wrong digit or a missing number shifts the rest of a table.", "anchors": ["src/detail/kernel_definitions/hall_efficiencies.hpp", "src/detail/kernel_definitions/hall_davis_no_waals_efficiencies.hpp", "src/detail/kernel_definitions/vohl_davis_no_waals_efficiencies.hpp", "src/detail/kernel_definitions/hall_pinsky_stratocumulus_efficiencies.hpp", "src/detail/kernel_definitions/hall_pinsky_1000mb_grav_efficiencies.hpp", "src/detail/kernel_definitions/hall_pinsky_cumulonimbus_efficiencies.hpp", "src/impl/initialization/particles_impl_init_kernel.ipp: init_kernel", "src/detail/kernel_interpolation.hpp: interpolated_efficiency"]}
{"id": "C83", "title": "Halos of Courant numbers and domain edges between MPI processes", "statement": "With any number of MPI processes, in one, two or three dimensions, init and step_sync always return (no deadlock), whatever the order in which processes run and messages are delivered; afterwards each process has, in the two columns of halo that the predictor-corrector scheme uses, the Courant numbers of its neighbours, so that all arrays are parts of one field of the whole domain, periodic unless the side walls are open; nothing but the halo is written and no access is outside of the arrays; each process knows where its neighbours' domains end.", "quantifier": "all numbers of processes, grids, widths of the parts, fields of Courant numbers, interleavings of processes and of the MPI library", "why_tests_cant": "Interleavings of processes cannot be enumerated; a test with a few processes on one machine sees a few of them, and wrong halos only matter for droplets near the edges.", "anchors": ["src/impl/distributed_memory/particles_impl_xchng_courants.ipp: xchng_courants", "src/impl/distributed_memory/particles_impl_xchng_domains.ipp: xchng_domains", "src/impl/particles_impl.ipp: halo_size, halo_x, halo_y, halo_z", "src/particles_init.ipp: init", "src/particles_step.ipp: sync_in"]}
{"id": "C84", "title": "Flow of the kinematic model", "statement": "For every grid and set-up, the air flow prescribed by the 2D kinematic model that comes with the library has no divergence of mass in any cell, is periodic in the horizontal, does not cross ground and top, rises in one half of the domain and sinks in the other, nowhere faster than w_max; the Courant numbers given to the particles conserve the mass of air in every cell; droplets at the ground are not carried through it by the air.", "quantifier": "all grid sizes, domain sizes, maximal velocities and vertical profiles; all cells", "why_tests_cant": "Tests run a few grids and look at plots; whether mass is conserved in each cell for every grid is an identity, hidden by rounding in any run.", "anchors": ["models/kinematic_2D/cases/icmw8_case1.hpp: psi, rhod, setopts, intcond", "models/kinematic_2D/src/kin_cloud_2d_lgrngn.hpp: hook_ante_loop", "models/kinematic_2D/src/kin_cloud_2d_lgrngn_chem.hpp: hook_ante_loop"]}
{"id": "C85", "title": "Kinematic model: background steps, spin-up, relaxation", "statement": "With the asynchronous step run in a background thread, the kinematic model never uses the particles while that thread works on them, never waits for ever and never fails its own assertions, and the particles go through the same sequence of calls as with one thread, for every output interval and number of steps; rain formation is off in exactly the first spinup timesteps (with supersaturation limited to 1%) and as the user asked afterwards; relaxation acts only after the spin-up, towards the state at its end.", "quantifier": "all numbers of timesteps, output intervals, spin-up lengths, options; all interleavings of the two threads", "why_tests_cant": "When the background thread ends is up to the scheduler and the GPU; a race shows up rarely if at all in tests.", "anchors": ["models/kinematic_2D/src/kin_cloud_2d_lgrngn.hpp: hook_ante_loop, hook_post_step, get_rain, set_rain", "models/kinematic_2D/src/kin_cloud_2d_lgrngn_chem.hpp: hook_post_step", "models/kinematic_2D/src/kin_cloud_2d_common.hpp: hook_ante_loop, hook_ante_step, update_rhs", "models/kinematic_2D/src/kin_cloud_2d_blk_1m.hpp: get_rain, set_rain", "models/kinematic_2D/src/kin_cloud_2d_blk_2m.hpp: get_rain, set_rain"]}
{"id": "C86", "title": "Attributes read back one per super-droplet", "statement": "After any history of creating, removing, recycling, receiving and changing super-droplets, get_attr(name) returns exactly one value per super-droplet, and the i-th values for all names belong to the same super-droplet; names that are unknown, ice attributes without ice and freezing temperatures with time-dependent freezing are refused, and nothing else is; coordinates of dimensions the domain does not have are zeros. The initial masses of dissolved compounds are, however many groups of super-droplets initialisation creates, those of each super-droplet's own dry particle. After an exception get_attr still returns one value per super-droplet.", "quantifier": "all options, all histories of changes of the population, all names, all contents left behind by removals; all numbers of groups at initialisation", "why_tests_cant": "The storage is a set of option-dependent vectors and three packed ones whose layout depends on the number of super-droplets; tests read back a few attributes after initialisation.", "anchors": ["src/impl/diagnose_SD_attributes/particles_impl_fill_outbuf.ipp: fill_attr_outbuf", "src/particles_ctor.ipp: get_attr", "src/impl/particles_impl.ipp: distmem_real_vctrs", "src/impl/housekeeping/particles_impl_hskpng_resize.ipp: hskpng_resize_npart", "src/impl/housekeeping/particles_impl_hskpng_remove.ipp: hskpng_remove_n0", "src/impl/initialization/particles_impl_init_chem.ipp: init_chem, init_chem_aq", "src/impl/distributed_memory/particles_impl_unpack.ipp: unpack_n, unpack_real"]}
{"id": "C87", "title": "What super-droplets remember is right whenever condensation uses it", "statement": "With per-particle condensation substeps, a super-droplet remembers between timesteps the air it saw at the end of the previous condensation and (with activation substeps) its critical radius. Whenever step_cond starts condensation, these are right for every super-droplet: the air of the cell in which it was at the end of the last condensation (or at the initialisation, or where it was created), and the critical radius that belongs to its present dry radius and kappa, after any history of condensation, oxidation, collisions (with any number of substeps), motion, sources, relaxation, removal, recycling, with timesteps of varying length. A super-droplet that knows its critical radius gets the activation substeps when it crosses it, and the first substep of one whose surroundings have not changed takes place in exactly that air.", "quantifier": "every population, every sequence of calls with every combination of processes and timesteps, every execution order and random numbers of coalescence", "why_tests_cant": "the values are used silently, one timestep after the event that should have set them; tests would need every order of processes", "anchors": ["src/particles_step.ipp:step_cond, step_async", "src/impl/housekeeping/particles_impl_hskpng_rc2.ipp", "src/impl/condensation/common/sstp_save.ipp", "src/impl/coalescence/particles_impl_coal.ipp:invalidator", "src/impl/condensation/perparticle/perparticle_nomixing_adaptive_sstp_cond.ipp", "src/impl/sources_and_relaxation_of_SDs/particles_impl_src.ipp", "src/impl/particles_impl_adjust_timesteps.ipp"]}
{"id": "C88", "title": "Whole runs of the kinematic model with single-moment microphysics lose water only as rain at the ground", "statement": "For every run of the kinematic model with single-moment bulk microphysics, of any length, on any grid, with any options, initial fields and flow: after any number of timesteps the density-weighted sum of vapour, cloud water and rain is the initial one, minus the rain that reached the ground in each timestep (density times fall speed times mixing ratio in the lowest level), plus what the relaxation of vapour added, which acts only after the spin-up and towards the horizontal means at its end. Cloud water and rain that are not given start from zero. Until the end of the spin-up no rain appears and the water in the domain does not change at all. Cloud water and rain never become negative.", "quantifier": "every grid, initial state, option set, number of timesteps, spin-up length and every advection that only moves water", "why_tests_cant": "the budget is a sum over a whole run of three separately called schemes; tests look at single cells or compare pictures", "anchors": ["models/kinematic_2D/src/kin_cloud_2d_blk_1m.hpp:hook_ante_loop, hook_post_step, update_rhs, condevap", "models/kinematic_2D/src/kin_cloud_2d_common.hpp", "models/kinematic_2D/src/opts_blk_1m.hpp", "include/libcloudph++/blk_1m/adj_cellwise.hpp", "include/libcloudph++/blk_1m/rhs_cellwise.hpp", "include/libcloudph++/blk_1m/rhs_columnwise.hpp"]}
{"id": "C89", "title": "Whole runs of the kinematic model with double-moment microphysics neither gain nor lose water, and keep amounts non-negative", "statement": "For every run of the kinematic model with double-moment bulk microphysics, of any length, on any grid, with any options, initial fields and flow: after any number of timesteps the density-weighted sum of vapour, cloud water and rain is the initial one, minus the rain that reached the ground, plus what the relaxation of vapour added, which acts only after the spin-up and towards the horizontal means at its end. Until the end of the spin-up autoconversion is off and activation sees at most 1% of supersaturation; no rain and no rain drops appear in a run that starts without, and the water in the domain does not change at all. Rain water, cloud water and the numbers of droplets and of rain drops never become negative, however long the timestep.", "quantifier": "every grid, initial state, option set, number and length of timesteps, spin-up length and every advection that only moves water", "why_tests_cant": "the budget is a sum over a whole run of two separately called schemes with limiters that interact; tests look at single cells or compare pictures", "anchors": ["models/kinematic_2D/src/kin_cloud_2d_blk_2m.hpp:hook_ante_loop, update_rhs, set_rain", "models/kinematic_2D/src/kin_cloud_2d_common.hpp", "models/kinematic_2D/src/opts_blk_2m.hpp", "include/libcloudph++/blk_2m/rhs_cellwise.hpp", "include/libcloudph++/blk_2m/rhs_columnwise.hpp"]}
{"id": "C90", "title": "The statistics asked for on the command line of the kinematic model are the ones recorded, each under its own name", "statement": "The options --out_dry, --out_wet, --out_chem and --out_wet_pH of the kinematic model hold requests of the form lo:hi|m,m,...;... A text is accepted exactly if it is such a sequence, white space aside, and then says what is written in it: the ranges, their bounds and the moments, in that order. At every output each moment of each request is recorded: the sum over the super-droplets of a cell in the range of dry (wet) radius, of the number of droplets times the power of the radius, per mass of dry air; besides the number of super-droplets per cell, and the third moment of wet radius for each range of dry radius, and nothing else. Different quantities, ranges and moments are recorded under different names, and recording does not change the state.", "quantifier": "every command line text, every list of ranges and moments, every state of the super-droplets and of the environment", "why_tests_cant": "the texts are unbounded and the grammar is permissive; the values depend on the whole state; a name collision silently overwrites a field in the output file", "anchors": ["models/kinematic_2D/src/opts_lgrngn.hpp:parse_moms", "models/kinematic_2D/src/outmom.hpp:outmom_t", "models/kinematic_2D/src/kin_cloud_2d_lgrngn.hpp:diag, aux_name", "models/kinematic_2D/src/kin_cloud_2d_lgrngn_chem.hpp:diag_chem, diag_pH"]}
{"id": "C91", "title": "A run of the kinematic model with super-droplets is refused at its start or carried out, and then performs exactly the processes asked for", "statement": "The program icicle with --micro=lgrngn or --micro=lgrngn_chem comes to its end exactly for command lines whose backend was compiled in, whose kernel, terminal-velocity formula and advection scheme are ones the program offers, with super-droplets, a time step and condensation substeps that are not zero, and with chemistry exactly in the driver that has it. All others are refused before droplets change. In a run that is carried out every step performs condensation and chemistry in equal substeps that add up to the time step, advection with the scheme asked for, sedimentation and collisions except during the spin-up, recycling, each exactly if asked for, and nothing else.", "quantifier": "every command line, every build (backends, MPI, assertions), every grid of at least two points in each direction, every step of a run of any length, every flow and every outcome of collisions", "why_tests_cant": "the command line has many independent options, the library checks them in several places at different times, and what a step does depends on the spin-up and on the whole history of calls", "anchors": ["models/kinematic_2D/src/opts_lgrngn.hpp:setopts_micro", "models/kinematic_2D/src/kin_cloud_2d_lgrngn.hpp:hook_ante_loop, hook_post_step, set_rain", "models/kinematic_2D/src/kin_cloud_2d_lgrngn_chem.hpp:set_chem", "src/lib.cpp:factory", "src/impl/initialization/particles_impl_init_kernel.ipp:init_kernel", "src/particles_step.ipp"]}
{"id": "C92", "title": "A liquid droplet is never smaller than its dry particle, over whole runs", "statement": "If at the start of a run every liquid super-droplet has a wet radius of at least its dry radius, then after any number of steps - with condensation and evaporation in any substepping mode, freezing, sublimation and melting, collisions, motion, sources, boundary conditions and recycling - every liquid super-droplet still has a wet radius of at least its dry radius.", "quantifier": "every such state, every grid and options of a run without chemistry, every run of any length, every outcome of collisions and motion, every time step", "why_tests_cant": "the wet size is written by condensation, collisions, freezing, melting, recycling and sources in separate files, each relying on what the others left behind; a violation needs the right sequence of steps", "anchors": ["src/impl/condensation/common/particles_impl_cond_common.ipp", "src/impl/coalescence/particles_impl_coal.ipp:collide", "src/impl/ice/particles_impl_ice_nucl_melt.ipp", "src/impl/ice/particles_impl_ice_dep.ipp", "src/impl/housekeeping/particles_impl_rcyc.ipp", "src/particles_step.ipp"]}
{"id": "C93", "title": "Soluble material is conserved and hygroscopicity stays within its range, over whole runs", "statement": "Over any run the total soluble material (multiplicity times hygroscopicity times dry volume, summed over all super-droplets) changes only by what sources bring and what leaves the domain; and the hygroscopicity of every super-droplet stays between the smallest and the largest value given at the start and by sources, its dry volume positive.", "quantifier": "every initial state, every set of aerosol kinds at the start and in sources, every run of any length with every outcome of collisions, motion, sources, boundary conditions and recycling", "why_tests_cant": "whether hygroscopicities are mixed in collisions is decided once from the options at the start, while sources bring other aerosol later; a test with one kind of aerosol, or with all kinds known at the start, conserves the total", "anchors": ["src/impl/coalescence/particles_impl_coal.ipp:weighted_summator", "src/impl/coalescence/particles_impl_coal.ipp:collide", "src/impl/housekeeping/particles_impl_rcyc.ipp", "src/impl/sources_and_relaxation_of_SDs/particles_impl_src.ipp", "src/impl/boundary_conditions/particles_impl_bcnd.ipp", "src/particles_step.ipp"]}
{"id": "C94", "title": "Budgets of nitrogen, carbon and sulphur over whole runs with chemistry", "statement": "Over any run with chemistry, the moles of nitrogen(V), nitrogen(-III), carbon(IV) and sulphur in the trace gases, in the droplets and on the ground change only by what the host model does to the gas fields and what leaves the domain; the mass of dry aerosol changes only by the sulfate produced in oxidation; masses never become negative.", "quantifier": "every initial state and composition, every run of any length with every outcome of dissolution, dissociation, oxidation, collisions, motion, boundary conditions and recycling, every number of substeps and every set of switches", "why_tests_cant": "a lost update anywhere between the processes of a step (the compounds merged in collisions, copied in recycling, collected in the puddle, saved with the gases) shows only as a drift of a total over long runs; tests of single processes in a parcel do not see it", "anchors": ["src/particles_step.ipp", "src/impl/chemistry/particles_impl_chem_henry.ipp", "src/impl/chemistry/particles_impl_chem_react.ipp", "src/impl/coalescence/particles_impl_coal.ipp:summator", "src/impl/housekeeping/particles_impl_rcyc.ipp", "src/impl/housekeeping/particles_impl_hskpng_remove.ipp", "src/impl/boundary_conditions/particles_impl_bcnd.ipp"]}
{"id": "C95", "title": "Budgets over whole runs on several MPI processes", "statement": "Over any run of a simulation divided among any number of MPI processes, the water in the whole domain (vapour, liquid and ice) and on the ground, and the dry aerosol, change only by what the host model, sources and open boundaries do; the number of particles never grows except by sources and shrinks only in collisions: exchanging super-droplets between processes neither loses nor duplicates any. Every super-droplet ends each step in a cell of the process that holds it, and no process holds more than n_sd_max.", "quantifier": "every number of processes of two or more, periodic or open domains, every division into sub-domains, every run of any length, every order in which messages are sent, delivered and unpacked, every outcome of condensation, collisions, motion, boundary conditions and recycling", "why_tests_cant": "a super-droplet sent but not deleted, or deleted but not sent, or sent with stale attributes appears only for particular numbers of droplets crossing on particular steps, and in particular message orders; tests run few processes for few steps", "anchors": ["src/particles_step.ipp", "src/impl/distributed_memory/particles_impl_mpi_exchange.ipp", "src/impl/distributed_memory/particles_impl_pack.ipp", "src/impl/boundary_conditions/particles_impl_bcnd.ipp", "src/particles_ctor.ipp", "src/impl/distributed_memory/particles_impl_post_copy.ipp"]}
{"id": "C96", "title": "The exchange between MPI processes never hangs and has one outcome, at every step of a run", "statement": "Whenever, in a run of any length, the processes come to the exchange of super-droplets, it ends in all of them after finitely many moves, whatever the order in which the processes run and messages are delivered; every process then holds the same super-droplets in the same order whatever that order was, and a process throws exactly if what it had and what arrived is more than n_sd_max (those it has just sent still count).", "quantifier": "every number of processes of two or more, periodic or open domains, every run of any length, every state in which the exchange begins, every order of sends, deliveries and unpacking", "why_tests_cant": "deadlocks and races between nonblocking messages depend on their timing and on which super-droplets cross at which step", "anchors": ["src/impl/distributed_memory/particles_impl_mpi_exchange.ipp", "src/impl/distributed_memory/particles_impl_pack.ipp", "src/impl/distributed_memory/particles_impl_unpack.ipp", "src/particles_step.ipp"]}
{"id": "C97", "title": "Soluble material and hygroscopicity over whole runs on several MPI processes", "statement": "Over any run of a simulation divided among MPI processes, hygroscopicities stay within the range of those given at the start and in sources whichever processes a super-droplet visits, and when collisions mix hygroscopicities (or there are none) the soluble material in the whole domain changes only by what sources bring and what leaves through open walls or falls out.", "quantifier": "every number of processes, every run of any length, every outcome of condensation, collisions, motion, message order and recycling, every range of hygroscopicities", "why_tests_cant": "an attribute left out of the list of those that travel with a super-droplet, or unpacked into the wrong vector, changes the composition of aerosol only in runs with several kinds of aerosol on several processes", "anchors": ["src/impl/particles_impl.ipp: distmem_real_vctrs", "src/impl/distributed_memory/particles_impl_mpi_exchange.ipp", "src/impl/coalescence/particles_impl_coal.ipp:weighted_summator", "src/particles_step.ipp"]}
{"id": "C98", "title": "Fall speeds are positive, and larger droplets fall faster", "statement": "With every formula of terminal velocity the fall speed of a droplet or ice crystal of nonzero size is positive, hence never equal to the mark -1 of a fall speed to be recomputed; in the same air a larger droplet falls faster than a smaller one; the Khvorostyanov-Curry speed of spheres corresponds to the Reynolds number of that theory.", "quantifier": "every radius, every temperature, pressure, density and viscosity of air (for Beard 1977 drops above 20 um: of the atmosphere), every formula", "why_tests_cant": "the formulae are products of empirical polynomials in logarithms and powers of small numbers, piecewise in radius; a wrong coefficient, sign or unit, or a jump between pieces, shows at some radii and conditions only", "anchors": ["include/libcloudph++/common/vterm.hpp", "src/impl/housekeeping/particles_impl_hskpng_vterm.ipp", "src/impl/coalescence/particles_impl_coal.ipp"]}
{"id": "C99", "title": "The table of fall speeds agrees with the formula it is made from", "statement": "With beard77fast the fall speed of every droplet equals the one of beard77 within 1%, and within 0.1% away from 20 um where that formula jumps; and the sea-level fall speeds of the table do not decrease with size.", "quantifier": "every radius, every state of air", "why_tests_cant": "the table has ten thousand bins on a logarithmic axis; an index off by one, a bin edge in place of its midpoint or a wrong end of the range shifts every speed by a fraction of a percent, or only those of the last bins", "anchors": ["src/impl/initialization/particles_impl_init_vterm.ipp", "src/impl/housekeeping/particles_impl_hskpng_vterm.ipp", "src/detail/config.hpp", "include/libcloudph++/common/vterm.hpp"]}
{"id": "C100", "title": "Parallel launches are recognised, and sub-domains fit together", "statement": "If the processes of a parallel run are started with a library compiled without MPI, or from Python, asking for a simulation object fails in every one of them instead of starting independent copies; a process that is alone is not refused. The object returned is always of the backend asked for. In a run of several processes and of several graphics cards in each, the right end of every sub-domain and the left end of the next one are of the same kind: through MPI between processes, through copies between cards of one process, open at the walls of the domain and only there.", "quantifier": "every environment, rank and number of processes, every launcher, every backend, every way the library was compiled, every number of processes and of sub-domains in each, open or periodic domains", "why_tests_cant": "environments of launchers are not at hand in unit tests, and faults of the first, the last or the only sub-domain show only for particular numbers of processes and devices", "anchors": ["src/lib.cpp:factory", "src/detail/ran_with_mpi.hpp", "src/particles_ctor.ipp", "src/impl_multi_gpu/particles_multi_gpu_impl.ipp", "bindings/python/lgrngn.hpp:factory", "src/detail/bcond.hpp"]}
