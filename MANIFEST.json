{
 "claims": [
  {
   "property": "C01",
   "status": "proved",
   "theorems": [
    "C01_split_time"
   ],
   "note": "exact real durations; any number of operators"
  },
  {
   "property": "C02",
   "status": "proved",
   "theorems": [
    "C02_first_failure_stops",
    "C02_observation_is_transparent"
   ],
   "note": ""
  },
  {
   "property": "C03",
   "status": "proved",
   "theorems": [
    "C03_time_reversible",
    "C03_commuting_exact",
    "C03_godunov_order",
    "C03_godunov_not_reversible"
   ],
   "note": ""
  },
  {
   "property": "C04",
   "status": "proved",
   "theorems": [
    "C04_split_directions"
   ],
   "note": ""
  },
  {
   "property": "C05",
   "status": "proved",
   "theorems": [
    "C05_no_overshoot"
   ],
   "note": ""
  },
  {
   "property": "C06",
   "status": "proved",
   "theorems": [
    "C06_failed_steps_leave_no_trace",
    "C06_retry_size"
   ],
   "note": ""
  },
  {
   "property": "C07",
   "status": "proved",
   "theorems": [
    "C07_failure_without_backup_ends_run"
   ],
   "note": ""
  },
  {
   "property": "C08",
   "status": "partial",
   "theorems": [
    "C08_output_only_when_due",
    "C08_final_state_is_output",
    "C08_output_once_partial",
    "C08_output_once_refuted"
   ],
   "note": "Outputs only when due and final output proved. 'Never twice' is false of the code: refuted by C08_output_once_refuted (failed step directly after an output); C08_output_once_partial proves it for runs without failures."
  },
  {
   "property": "C09",
   "status": "proved",
   "theorems": [
    "C09_next_output_time",
    "C09_shall_output_now",
    "C09_due_at_next",
    "C09_zero_frequency_undefined"
   ],
   "note": ""
  },
  {
   "property": "C10",
   "status": "proved",
   "theorems": [
    "C10_next_is_minimum",
    "C10_shall_iff_some_member",
    "C10_invokes_due_members_in_order"
   ],
   "note": ""
  },
  {
   "property": "C11",
   "status": "proved",
   "theorems": [
    "C11_first_registration_wins"
   ],
   "note": ""
  },
  {
   "property": "C12",
   "status": "proved",
   "theorems": [
    "C12_observation_is_transparent",
    "C12_every_level_advances_by_dt",
    "C12_no_step_on_missing_levels",
    "C12_without_subcycling"
   ],
   "note": ""
  },
  {
   "property": "C13",
   "status": "proved",
   "theorems": [
    "C13_reported_dt_is_stable_everywhere",
    "C13_without_subcycling",
    "C13_steps_are_stable"
   ],
   "note": ""
  },
  {
   "property": "C14",
   "status": "proved",
   "theorems": [
    "C14_error_in_coarse_units",
    "C14_success_means_no_failure",
    "C14_retry",
    "C14_without_subcycling"
   ],
   "note": ""
  },
  {
   "property": "C15",
   "status": "proved",
   "theorems": [
    "C15_event_order",
    "C15_event_order_with_regridding"
   ],
   "note": ""
  },
  {
   "property": "C16",
   "status": "proved",
   "theorems": [
    "C16_composite_conservation",
    "C16_coarse_level_total",
    "C16_register_of_fine_level"
   ],
   "note": ""
  },
  {
   "property": "C17",
   "status": "proved",
   "theorems": [
    "C17_update_cells",
    "C17_update_conserves",
    "C17_forward_integrator"
   ],
   "note": ""
  },
  {
   "property": "C18",
   "status": "proved",
   "theorems": [
    "C18_chunked_row",
    "C18_update",
    "C18_sequential_fluxes",
    "C18_numeric_fluxes"
   ],
   "note": ""
  },
  {
   "property": "C19",
   "status": "proved",
   "theorems": [
    "C19_layouts_are_bijections",
    "C19_strides"
   ],
   "note": ""
  },
  {
   "property": "C20",
   "status": "partial",
   "theorems": [
    "C20_subview_same_elements",
    "C20_subview_box_partial",
    "C20_nested_subviews",
    "C20_subview_box_refuted"
   ],
   "note": "Same elements for every box and every nesting; extents for non-empty boxes; refuted for empty boxes (permuted extents)."
  },
  {
   "property": "C21",
   "status": "partial",
   "theorems": [
    "C21_slice_partial",
    "C21_slice_elements",
    "C21_slice_refuted"
   ],
   "note": "Elements for all slices; extents for ranges of positive length; refuted for empty ranges."
  },
  {
   "property": "C22",
   "status": "proved",
   "theorems": [
    "C22_intersect",
    "C22_contains",
    "C22_grow_shrink",
    "C22_neighbours",
    "C22_embed_neighborhood"
   ],
   "note": ""
  },
  {
   "property": "C23",
   "status": "proved",
   "theorems": [
    "C23_for_each_index",
    "C23_memory_order"
   ],
   "note": ""
  },
  {
   "property": "C24",
   "status": "partial",
   "theorems": [
    "C24_rows_rank1_rank3",
    "C24_rows_rank2_partial",
    "C24_zero_width_refuted",
    "C24_empty_subview_refuted"
   ],
   "note": "Rank 1 and 3: all extents; rank 2: all shapes with first_view_ok; refuted for zero width (endless loop) and empty sub views of full width."
  },
  {
   "property": "C25",
   "status": "partial",
   "theorems": [
    "C25_equal_mappings_partial",
    "C25_strided_refuted"
   ],
   "note": "Dense mappings proved; strided mappings refuted (strides are ignored by ==)."
  },
  {
   "property": "C26",
   "status": "proved",
   "theorems": [
    "C26_consistent",
    "C26_rankine_hugoniot",
    "C26_upwind",
    "C26_lanes"
   ],
   "note": "HLL flux, interface state and pressure for any equation and signal speeds; lanes of the vectorised and masked versions."
  },
  {
   "property": "C27",
   "status": "proved",
   "theorems": [
    "C27_density_stays_positive",
    "C27_water_height"
   ],
   "note": "One cell for any transported component and any enclosing signal speeds; any number of steps of shallow water on a patch with transmissive boundary. Signal speeds must enclose both cell velocities (Einfeldt's need not)."
  },
  {
   "property": "C28",
   "status": "proved",
   "theorems": [
    "C28_maximum_principle",
    "C28_bounds",
    "C28_total_variation",
    "C28_local_variation",
    "C28_lanes"
   ],
   "note": "Patch with transmissive boundary, any size and number of steps, plus the single-cell and local forms for arbitrary surroundings; dt must respect the stencils of the neighbouring cells too (example shows it is necessary)."
  },
  {
   "property": "C29",
   "status": "proved",
   "theorems": [
    "C29_maximum_principle",
    "C29_bounds",
    "C29_total_variation",
    "C29_exact_shift"
   ],
   "note": "Godunov advection in one direction; CFL one gives an exact shift for any number of steps."
  },
  {
   "property": "C30",
   "status": "proved",
   "theorems": [
    "C30_limiters",
    "C30_gradient_limiters",
    "C30_unlimited"
   ],
   "note": "Every limiter function of Limiter.hpp and every component-wise gradient limiter, for all reals; the 'unlimited' central gradient is shown not to satisfy it."
  },
  {
   "property": "C31",
   "status": "proved",
   "theorems": [
    "C31_no_new_extrema",
    "C31_constant_data",
    "C31_limiters_flat",
    "C31_cut_cells"
   ],
   "note": "Reconstruction with the limited gradient over all data, flat data, lanes, and the cut-cell limiter."
  },
  {
   "property": "C32",
   "status": "partial",
   "theorems": [
    "C32_sequential_partial",
    "C32_sequential_refuted",
    "C32_vectorised_partial",
    "C32_vectorised_initialised",
    "C32_vectorised_refuted"
   ],
   "note": "False for the code: the sequential loop leaves out the last stencil of every line (FluxMethod.hpp:300-303 shrinks by the stencil size instead of size-1) and the vectorised tail uses a mask of which only one lane is initialised (FluxMethod.hpp:373). Both are proved as _refuted; _partial theorems give exactly the stencils accounted for."
  },
  {
   "property": "C33",
   "status": "proved",
   "theorems": [
    "C33_primitive_roundtrip",
    "C33_self_consistent",
    "C33_complete_roundtrips",
    "C33_conservative_roundtrip",
    "C33_positive_pressure",
    "C33_masked_lanes"
   ],
   "note": "Over the reals; every dimension and every gamma > 1; vectorised masked conversion covered lane by lane."
  },
  {
   "property": "C34",
   "status": "proved",
   "theorems": [
    "C34_reflection",
    "C34_reflection_commutes",
    "C34_axis"
   ],
   "note": "Any dimension for the reflection itself; the commutation with fluxes as stated."
  },
  {
   "property": "C35",
   "status": "partial",
   "theorems": [
    "C35_two_dimensions",
    "C35_three_dimensions_partial",
    "C35_three_dimensions_refuted",
    "C35_rotated_states"
   ],
   "note": "Two dimensions complete; in three dimensions the antiparallel case returns a point reflection (determinant -1), refuted with a witness."
  },
  {
   "property": "C36",
   "status": "partial",
   "theorems": [
    "C36_consistent_lane",
    "C36_consistent_scalar_partial",
    "C36_consistent_larrouturou_partial",
    "C36_wrong_sign_refuted",
    "C36_three_dimensions_refuted",
    "C36_agree_partial",
    "C36_pressure"
   ],
   "note": "Vectorised flux consistent in all dimensions; scalar flux: 1D/2D without Larrouturou or with non-negative mass flux. Refuted: wrong sign of scalar fluxes for negative mass flux (Larrouturou), 3D scalar flux never assigns density and normal momentum."
  },
  {
   "property": "C37",
   "status": "partial",
   "theorems": [
    "C37_ordered_partial",
    "C37_enclosing_refuted"
   ],
   "note": "Signals are ordered and enclose the Roe velocity; the claim that they enclose both cell velocities is refuted with a witness."
  },
  {
   "property": "C38",
   "status": "partial",
   "theorems": [
    "C38_returned_partial",
    "C38_bounded_below_partial",
    "C38_throws",
    "C38_nonnegative",
    "C38_affine",
    "C38_concave",
    "C38_negative_residual_refuted",
    "C38_nan_refuted",
    "C38_concave_converges",
    "C38_concave_halving"
   ],
   "note": "The residual of a returned value is at most the tolerance from above (C38_returned_partial) and bounded below for monotone f; an iteration which does not converge within the maximum throws. False in general: residuals below minus the tolerance and NaN residuals are returned silently (refutations)."
  },
  {
   "property": "C39",
   "status": "proved",
   "theorems": [
    "C39_between",
    "C39_uniform",
    "C39_branches",
    "C39_weights"
   ],
   "note": "Weighted average, uniform flux, agreement of the vectorised and scalar branches, and that the fractions supply such weights."
  },
  {
   "property": "C40",
   "status": "proved",
   "theorems": [
    "C40_step",
    "C40_rates",
    "C40_history",
    "C40_rows",
    "C40_short_delay"
   ],
   "note": "C40_step, C40_rates, C40_history, C40_rows for options with non-negative rates (0 < Yign/Yinit/tau <= 1, R2_A >= 0); C40_short_delay shows that the hypothesis is needed (tau < Yign/Yinit makes fuel grow)."
  },
  {
   "property": "C41",
   "status": "partial",
   "theorems": [
    "C41_burn_partial",
    "C41_exchange",
    "C41_rows",
    "C41_cold_refuted",
    "C41_creation_refuted"
   ],
   "note": "Below T_switch each step moves 2^-26 from the second species into the fuel and removes Q*rho*2^-26 of energy (C41_cold_refuted); a cell without fuel above T_switch gets 2^-26 of fuel (C41_creation_refuted). What holds: C41_burn_partial for fuel >= 1e-5 above the switch, C41_exchange and C41_rows always."
  },
  {
   "property": "C42",
   "status": "partial",
   "theorems": [
    "C42_history_partial",
    "C42_fuel",
    "C42_pressure",
    "C42_default_pressure",
    "C42_energy",
    "C42_mode",
    "C42_update",
    "C42_speed_refuted"
   ],
   "note": "Speed range, pressure on the characteristic curve and exact fuel balance for every history of finite updates (C42_history_partial, C42_fuel); pressure bounds hold iff c_0*atan(...) <= pi/2 (C42_pressure), which the default options meet (C42_default_pressure); energy balance, mode hysteresis and exact outcome of an update. For arbitrary inputs the claim is false: the rotation speed becomes NaN when the rotor energy would become negative, because std::clamp keeps NaN (C42_speed_refuted)."
  },
  {
   "property": "C43",
   "status": "partial",
   "theorems": [
    "C43_call",
    "C43_klein_since",
    "C43_demo_since",
    "C43_switch_since",
    "C43_demo_refuted",
    "C43_deflagration_refuted"
   ],
   "note": "An opening time not later than now exists whenever gas flows in, a blocked valve reflects (C43_call, all four types). The recorded time is characterised exactly per type; that it is the start of the uninterrupted opening holds for the Klein valve (C43_klein_since) and fails for the reduced model valve (C43_demo_refuted) and the deflagration valve (C43_deflagration_refuted)."
  },
  {
   "property": "C44",
   "status": "proved",
   "theorems": [
    "C44_schedule",
    "C44_negative_offset"
   ],
   "note": "For every history incl. restarts, offset and interval not negative; C44_negative_offset shows what happens for a negative offset."
  },
  {
   "property": "C45",
   "status": "partial",
   "theorems": [
    "C45_buffer_partial",
    "C45_distance_partial",
    "C45_upper_side_refuted"
   ],
   "note": "2d buffer: tagged afterwards iff tagged before or in the half open neighbourhood [i-w,i+w)x[j-w,j+w) of a cell with tag 1 or 2; the upper side misses the cells exactly w away (C45_upper_side_refuted holds for every patch and width)."
  },
  {
   "property": "C46",
   "status": "partial",
   "theorems": [
    "C46_1d_outside_refuted",
    "C46_1d_neighbours_refuted",
    "C46_1d_removal_refuted",
    "C46_1d_partial",
    "C46_3d_partial",
    "C46_3d_untagged_refuted"
   ],
   "note": "1d: out of bounds access exactly if the first looked-at cell is tagged; left neighbour stays untagged; tags can be removed. 3d: tags cells although nothing is tagged. What does hold is in the _partial theorems."
  },
  {
   "property": "C47",
   "status": "partial",
   "theorems": [
    "C47_scalar",
    "C47_volumes",
    "C47_vectorised_partial",
    "C47_agreement_partial",
    "C47_long_rows_refuted",
    "C47_other_directions_refuted",
    "C47_zeros_refuted"
   ],
   "note": "Scalar versions exact for every rank. The vectorised version is right for the first w cells of each row only (C47_long_rows_refuted), ignores other directions and tags zeros."
  },
  {
   "property": "C48",
   "status": "partial",
   "theorems": [
    "C48_statistics",
    "C48_order",
    "C48_gather_partial",
    "C48_gather_refuted"
   ],
   "note": "Statistics of one counter: mean, bounds, variance, order independence, reset. The gathered statistics over ranks agree with the single counter's only under equal counts and no empty ranks (partial); counterexample refuted theorem for the general case."
  },
  {
   "property": "C49",
   "status": "partial",
   "theorems": [
    "C49_recorded_partial",
    "C49_event",
    "C49_moved_from",
    "C49_assignment_refuted"
   ],
   "note": "One record per event for construction, move construction and destruction. Move assignment onto a running timer loses its measurement (refuted); partial theorem excludes it."
  },
  {
   "property": "C50",
   "status": "partial",
   "theorems": [
    "C50_aliasing_refuted",
    "C50_circular_refuted",
    "C50_corruption_refuted",
    "C50_small_blocks_refuted",
    "C50_sizes_partial",
    "C50_release_partial",
    "C50_release_refuted"
   ],
   "note": "Refuted: every allocation from an empty bucket leaves the block on the free list, so the next allocation of that size returns the same live block; writes by the owner corrupt the list. Proved: size segregation without writes, every upstream block is released exactly once (with a wrong size)."
  },
  {
   "property": "C51",
   "status": "proved",
   "theorems": [
    "C51_distance",
    "C51_sign",
    "C51_zero",
    "C51_component",
    "C51_exterior",
    "C51_degenerate",
    "C51_flip"
   ],
   "note": "Exact distance, sign by crossing parity, for any number of vertices and chunk size; the sign is constant on components of the complement of a closed polygon, negative on the outer one, and flips at each edge. One vertex gives minus infinity, none is undefined behaviour."
  },
  {
   "property": "C52",
   "status": "proved",
   "theorems": [
    "C52_union",
    "C52_union_distance",
    "C52_invert",
    "C52_rotate",
    "C52_revolution",
    "C52_halfspace"
   ],
   "note": "Union, inversion (De Morgan), rigid rotation, body of revolution and half spaces, including the distances."
  },
  {
   "property": "C53",
   "status": "proved",
   "theorems": [
    "C53_fill",
    "C53_patch",
    "C53_periodic",
    "C53_corner",
    "C53_corner_wrong_order"
   ],
   "note": "Reflective boundary: one box, one patch (AMReX wrapper with an arbitrary layer decomposition of the ghost region), periodic directions, corners for two conditions in sequence; in the wrong order corners keep stale data (C53_corner_wrong_order)."
  },
  {
   "property": "C54",
   "status": "partial",
   "theorems": [
    "C54_times_agree_partial",
    "C54_times_agree_up_to_three_levels",
    "C54_times_agree_without_subcycling",
    "C54_times_agree_refuted",
    "C54_published_after_last_subcycle",
    "C54_coarse_cycles_partial",
    "C54_cycles_partial",
    "C54_cycles_refuted"
   ],
   "note": "Times agree for any history and arbitrary level-0 regridding, unconditionally up to three levels and without sub-cycling; with >= 4 levels refuted (a mid-step regrid at level 2 resets level 1's clock). Cycle numbers proved without regridding (level 0: always), refuted with regridding."
  },
  {
   "property": "C55",
   "status": "partial",
   "theorems": [
    "C55_buffer",
    "C55_buffer_back",
    "C55_patch",
    "C55_part_of_patch",
    "C55_more_layers_refuted"
   ],
   "note": "CopyToBuffer/CopyFromBuffer round trips and failure on short buffers for every list of depths; Store/Load through the views of MakeView and of Subview for every patch, rank and memory. C55_more_layers_refuted: with more than one layer of cells in a direction the equation does not have, vector components are taken from wrong cells."
  },
  {
   "property": "C56",
   "status": "partial",
   "theorems": [
    "C56_type_erasure_partial",
    "C56_type_erasure_refuted"
   ],
   "note": "Type erasure is transparent except for Strang with three operators (refuted)."
  },
  {
   "property": "C57",
   "status": "partial",
   "theorems": [
    "C57_run_terminates",
    "C57_unconditional_termination_refuted"
   ],
   "note": "Termination proved for honest solvers; unconditional termination refuted."
  },
  {
   "property": "C58",
   "status": "partial",
   "theorems": [
    "C58_copy_partial",
    "C58_copy_can_be_queried_refuted"
   ],
   "note": "The copy holds the published state after PreAdvanceHierarchy; querying it earlier is undefined (refuted)."
  },
  {
   "property": "C59",
   "status": "partial",
   "theorems": [
    "C59_slice_last_partial",
    "C59_layout_right_refuted"
   ],
   "note": "layout_left and strided views proved; layout_right refuted."
  },
  {
   "property": "C60",
   "status": "proved",
   "theorems": [
    "C60_mixed_extents"
   ],
   "note": ""
  },
  {
   "property": "C61",
   "status": "proved",
   "theorems": [
    "C61_maximum_principle",
    "C61_total_variation",
    "C61_linear_exact"
   ],
   "note": "MUSCL-Hancock with minmod-type limiters for linear advection: maximum principle, total variation, exactness on linear data."
  },
  {
   "property": "C62",
   "status": "partial",
   "theorems": [
    "C62_scalar_partial",
    "C62_vectorised_partial",
    "C62_three_dimensions_refuted",
    "C62_mach_number_refuted"
   ],
   "note": "Exact in 1D/2D and in 3D with Larrouturou (vectorised) for Msq = 1; refuted for 3D without Larrouturou (wrong velocity component) and for Msq <> 1."
  },
  {
   "property": "C63",
   "status": "partial",
   "theorems": [
    "C63_mass_fractions",
    "C63_scalar_refuted"
   ],
   "note": "Proved for the vectorised flux; refuted for the scalar flux when the mass flux is negative."
  },
  {
   "property": "C64",
   "status": "proved",
   "theorems": [
    "C64_partition",
    "C64_shielded",
    "C64_branches"
   ],
   "note": "Row function for every vector width; partition, shielding and exclusivity of the singly shielded parts."
  },
  {
   "property": "C65",
   "status": "proved",
   "theorems": [
    "C65_conservation",
    "C65_through",
    "C65_wall",
    "C65_closed",
    "C65_free_stream"
   ],
   "note": "One direction, one component, a line of cells of arbitrary length; the geometry relation between fractions, volume and centroid is a hypothesis (it holds with equality for planar walls)."
  },
  {
   "property": "C66",
   "status": "proved",
   "theorems": [
    "C66_small_cells"
   ],
   "note": "Same setting as C65."
  },
  {
   "property": "C67",
   "status": "partial",
   "theorems": [
    "C67_branches_partial",
    "C67_covered_refuted"
   ],
   "note": "Proved for rows without covered cells. False for packs which mix covered and open cells: alpha is overwritten by 1 before it is tested (TimeIntegrator.cpp:84,152)."
  },
  {
   "property": "C68",
   "status": "partial",
   "theorems": [
    "C68_vectorised",
    "C68_scalar_right_partial",
    "C68_scalar_left_partial"
   ],
   "note": "Vectorised version in all dimensions; scalar version in one and two dimensions (in three it leaves components unassigned, C36), to the left only without Larrouturou."
  },
  {
   "property": "C69",
   "status": "proved",
   "theorems": [
    "C69_cut_cells"
   ],
   "note": "TagCutCells, any rank and boxes."
  },
  {
   "property": "C70",
   "status": "partial",
   "theorems": [
    "C70_lower_partial",
    "C70_upper_partial",
    "C70_defined",
    "C70_compression_refuted",
    "C70_mirror_partial",
    "C70_mirror_refuted"
   ],
   "note": "Proved when the required flow does not compress the inner gas; for compressing flow the mass flux is wrong (formulas assume signals u+-a instead of the Roe estimate) and the upper side has a sign error in its threshold."
  },
  {
   "property": "C71",
   "status": "proved",
   "theorems": [
    "C71_transmissive",
    "C71_constant",
    "C71_view"
   ],
   "note": "Transmissive and constant condition on a patch and on a single view."
  },
  {
   "property": "C72",
   "status": "partial",
   "theorems": [
    "C72_signals_partial",
    "C72_signals_refuted"
   ],
   "note": "Scalar and masked versions use half of the Roe sound speed, the array version the whole one; containment and agreement for non-colliding gas proved, equality refuted."
  },
  {
   "property": "C73",
   "status": "proved",
   "theorems": [
    "C73_components"
   ],
   "note": "Every list of depths and state; formatted names are modelled as pairs (name, number)."
  },
  {
   "property": "C74",
   "status": "proved",
   "theorems": [
    "C74_pointers",
    "C74_packs"
   ],
   "note": "Begin/Advance/Load by pointer, LoadN/StoreN for every view of a part of a patch; the number of cells is at most the pack width."
  },
  {
   "property": "C75",
   "status": "proved",
   "theorems": [
    "C75_entropy_solution",
    "C75_exists",
    "C75_vacuum"
   ],
   "note": "Full claim, for the zero of the pressure function; the computed zero is covered by C77."
  },
  {
   "property": "C76",
   "status": "proved",
   "theorems": [
    "C76_signals"
   ],
   "note": "Full claim for exact middle states."
  },
  {
   "property": "C77",
   "status": "partial",
   "theorems": [
    "C77_middle_state_partial",
    "C77_converges",
    "C77_converges_below",
    "C77_vacuum_exception",
    "C77_stuck_refuted"
   ],
   "note": "Velocity error at most half the tolerance unless the residual is below minus the tolerance; convergence proved if the first Newton step is positive (quantitative bound); exception for separating gases. The full claim is false: a step to exactly zero pressure is never left."
  },
  {
   "property": "C78",
   "status": "proved",
   "theorems": [
    "C78_consistent",
    "C78_godunov"
   ],
   "note": "Full claim."
  },
  {
   "property": "C79",
   "status": "proved",
   "theorems": [
    "C79_entropy_solution",
    "C79_exists",
    "C79_dry"
   ],
   "note": "Full claim, for the zero of the height function; the computed zero is covered by C81."
  },
  {
   "property": "C80",
   "status": "proved",
   "theorems": [
    "C80_signals"
   ],
   "note": "Full claim for exact middle states."
  },
  {
   "property": "C81",
   "status": "partial",
   "theorems": [
    "C81_middle_state_partial",
    "C81_converges",
    "C81_converges_below",
    "C81_dry_exception",
    "C81_stuck_refuted"
   ],
   "note": "Velocity error at most the tolerance unless the residual is below minus the tolerance; convergence proved if the first Newton step is positive (quantitative bound); exception for dry ground. The full claim is false: a step to exactly zero height is never left."
  },
  {
   "property": "C82",
   "status": "partial",
   "theorems": [
    "C82_consistent",
    "C82_momentum_flux_refuted",
    "C82_godunov_water"
   ],
   "note": "State and flux of water proved. The claim is false for the flux of momentum: the code multiplies by the momentum instead of the velocity."
  },
  {
   "property": "C83",
   "status": "proved",
   "theorems": [
    "C83_update_cells",
    "C83_conserves",
    "C83_at_rest",
    "C83_areas"
   ],
   "note": "Weighted conservation law per cell and in total, unchanged rest, invariant over all histories for the cached areas. The correction at coarse-fine faces (which ignores areas) is not part of this model."
  },
  {
   "property": "C84",
   "status": "partial",
   "theorems": [
    "C84_exact_flow",
    "C84_no_source",
    "C84_round_tube_refuted"
   ],
   "note": "Everything proved except the last part of the sentence, which is refuted: the rate is D'/D of the given diameter, half of A'/A of a round tube."
  },
  {
   "property": "C85",
   "status": "partial",
   "theorems": [
    "C85_schedule",
    "C85_not_too_often",
    "C85_measurement",
    "C85_no_measurement",
    "C85_zero_offset_refuted",
    "C85_interval_refuted"
   ],
   "note": "The schedule is characterised for every history if the offset is positive. Refuted for the default offset 0 (ignored, the first ignition is an interval late); the interval is not a minimal distance between ignitions (missed ones are made up for)."
  },
  {
   "property": "C86",
   "status": "partial",
   "theorems": [
    "C86_profile_partial",
    "C86_momentum_refuted"
   ],
   "note": "Profile, density, composition and untouched cells proved; the momentum is lost in all cells up to the end of the ramp (refuted)."
  },
  {
   "property": "C87",
   "status": "partial",
   "theorems": [
    "C87_converges",
    "C87_packs_converge",
    "C87_masked",
    "C87_negative_refuted"
   ],
   "note": "Convergence and accuracy proved for single mixtures, for packs and for masked packs, assuming the heat capacity bounds for all temperatures (not only for the valid range of the polynomials). Positivity is refuted: an energy below that of 0 K is answered with a negative temperature."
  },
  {
   "property": "C88",
   "status": "partial",
   "theorems": [
    "C88_mass_fractions",
    "C88_mass_fractions_kept",
    "C88_empty_refuted",
    "C88_mole_fractions",
    "C88_get_mole_fractions_refuted",
    "C88_pressure",
    "C88_lanes",
    "C88_lane_negative_refuted",
    "C88_string",
    "C88_string_duplicate_refuted",
    "C88_string_unknown_refuted",
    "C88_assign_refuted"
   ],
   "note": "Proved for inputs with at least one positive entry; refuted: fractions without positive entry give an empty mixture, GetMoleFractions returns concentrations, packs without mask use absolute values, repeated names in the string, an unknown name leaves the reactor without mass fractions, assignment keeps the old pack state. The parser of the string is left out."
  },
  {
   "property": "C89",
   "status": "partial",
   "theorems": [
    "C89_rates_conserve_energy",
    "C89_solutions_conserve",
    "C89_source_term",
    "C89_stale_energy_refuted",
    "C89_cache",
    "C89_maxdT_refuted",
    "C89_maxdT_density_refuted"
   ],
   "note": "Proved for the exact solution of the rate equations (the solver is an arbitrary function that returns it; discretisation errors of the solver are outside the model). Refuted: the energy after a step uses the enthalpies of the last evaluation of the right-hand side; AdvanceAndFindMaxdT measures all rises from the first temperature and does not update the concentrations to the density."
  },
  {
   "property": "C90",
   "status": "proved",
   "theorems": [
    "C90_completion"
   ],
   "note": "Energy is kept up to the tolerance of the iteration; the bounds on the heat capacity are assumed for all temperatures. Momentum has one component in the model."
  },
  {
   "property": "C91",
   "status": "partial",
   "theorems": [
    "C91_radau_codes",
    "C91_retry_undefined_refuted",
    "C91_retry_autonomous",
    "C91_retry_time_refuted",
    "C91_cvode_feedback",
    "C91_cvode_overshoot_refuted",
    "C91_cvode_errors_refuted",
    "C91_cvode_end_time"
   ],
   "note": "Codes of Radau except -3 and the feedback loop of CVODE are proved. Refuted: the retry of Radau after code -3 passes a pointer to the wrong object and integrates twice to half the final time; codes of CVODE are ignored, a failing step loops forever, and the feedback loop ends after the final time."
  },
  {
   "property": "C92",
   "status": "partial",
   "theorems": [
    "C92_jump_conditions",
    "C92_compression",
    "C92_head_on_refuted"
   ],
   "note": "Proved: jump conditions hold exactly if the gas is at rest or flows along the normal; compression exactly for supersonic shocks. Refuted for flow against or oblique to the normal."
  },
  {
   "property": "C93",
   "status": "partial",
   "theorems": [
    "C93_set_pressure",
    "C93_set_pressure_direction_refuted",
    "C93_species_refuted",
    "C93_energy_counted_twice_refuted",
    "C93_no_acceleration_refuted",
    "C93_mixture_outflow",
    "C93_mixture_refuted",
    "C93_perfect_gas_speed_refuted"
   ],
   "note": "Proved: SetIsentropicPressure keeps entropy and gives a consistent state, total enthalpy up to the stagnation pressure; outflow of mixtures at the upper boundary. Refuted: directions, mass fractions, energy of the generic expansion, missing acceleration at embedded boundaries, velocities of mixtures in the other cases, speed for perfect gases."
  },
  {
   "property": "C94",
   "status": "partial",
   "theorems": [
    "C94_pressure_and_velocity",
    "C94_mach_number_refuted",
    "C94_direction_refuted"
   ],
   "note": "Proved: pressure and velocity are those of the required Mach number. Refuted: the density has a wrong exponent, so Mach number and entropy are wrong; the direction is always positive."
  },
  {
   "property": "C95",
   "status": "partial",
   "theorems": [
    "C95_density_kept",
    "C95_conservation",
    "C95_periodic_conservation",
    "C95_maximum_principle",
    "C95_kinetic_energy",
    "C95_equilibrium",
    "C95_stable_dt_refuted",
    "C95_copy_refuted"
   ],
   "note": "Proved: density, conservation, maximum principle, decay of kinetic energy, equilibrium. Refuted: the reported stable step is unlimited although larger steps amplify; copies drop the options."
  },
  {
   "property": "C96",
   "status": "partial",
   "theorems": [
    "C96_outflow",
    "C96_perfect_gas",
    "C96_untouched",
    "C96_inflow_refuted",
    "C96_remainder_refuted",
    "C96_species_refuted"
   ],
   "note": "Proved for outward flow: termination, velocities, positivity, accuracy of the Runge-Kutta steps at the time reached. Refuted: nothing happens for flow towards the axis; time beyond a multiple of r / u is dropped; partial densities have an additional factor rho."
  },
  {
   "property": "C97",
   "status": "partial",
   "theorems": [
    "C97_advance",
    "C97_first_failure",
    "C97_stable_dt",
    "C97_level_hooks",
    "C97_hierarchy_hooks",
    "C97_post_failure_refuted"
   ],
   "note": "All parts proved for arbitrary nesting except that failures of a source term's hook after a level step are reported (refuted)."
  },
  {
   "property": "C98",
   "status": "partial",
   "theorems": [
    "C98_wall_state",
    "C98_wall_force",
    "C98_no_leak",
    "C98_tangential_flow",
    "C98_leaving_refuted"
   ],
   "note": "C98_wall_state and C98_wall_force hold for gases which leave the wall with less than the velocity c/gamma (and velocities below about 10^3000); C98_leaving_refuted shows that at exactly c/gamma the solver returns no state. What happens between c/gamma and the vacuum limit 2c/(gamma-1) is open. C98_no_leak and C98_tangential_flow need no such restriction."
  },
  {
   "property": "C99",
   "status": "proved",
   "theorems": [
    "C99_decides",
    "C99_bounded",
    "C99_sound"
   ],
   "note": "Real arithmetic; the linear systems are solved exactly; DBL_MAX in the ratio test is taken for infinity."
  },
  {
   "property": "C100",
   "status": "proved",
   "theorems": [
    "C100_limited",
    "C100_unchanged",
    "C100_extremum"
   ],
   "note": "Real arithmetic. Reads of neighbours outside of the patch are not modelled; the cell data are total functions of the index."
  },
  {
   "property": "C101",
   "status": "partial",
   "theorems": [
    "C101_linear",
    "C101_solid",
    "C101_monotone",
    "C101_channel_refuted",
    "C101_plate_refuted",
    "C101_primitive_refuted"
   ],
   "note": "Proved under the conditions of the statement (C101_linear, C101_solid, C101_monotone); refuted in the code for narrow channels, thin plates (failed assertion) and primitive variables. Real arithmetic, two space dimensions, the least squares problem is solved exactly, std::sort is the insertion sort of libstdc++ (the comparison is reflexive, so formally undefined)."
  },
  {
   "property": "C102",
   "status": "partial",
   "theorems": [
    "C102_linear",
    "C102_centroid_partial",
    "C102_closed_refuted"
   ],
   "note": "C102_linear for all cases; the centroid for open faces (C102_centroid_partial), refuted for partly closed faces (C102_closed_refuted). Real arithmetic, two space dimensions."
  },
  {
   "property": "C103",
   "status": "partial",
   "theorems": [
    "C103_states",
    "C103_slopes_partial",
    "C103_momentum_refuted"
   ],
   "note": "C103_states for all cases; C103_slopes_partial: slopes of the mirrored function without reflecting its components; C103_momentum_refuted. Real arithmetic, two space dimensions."
  },
  {
   "property": "C104",
   "status": "partial",
   "theorems": [
    "C104_linear_partial",
    "C104_gradient_refuted",
    "C104_stored",
    "C104_stale_refuted"
   ],
   "note": "Value and x gradient (C104_linear_partial), storing (C104_stored); y gradient refuted (C104_gradient_refuted), ignored failure refuted (C104_stale_refuted). The integration region (CGAL clipping) is an arbitrary list of parts."
  },
  {
   "property": "C105",
   "status": "proved",
   "theorems": [
    "C105_left",
    "C105_right",
    "C105_linear"
   ],
   "note": "Both orientations; corollary for linear data with the wall on the left. Real arithmetic, two space dimensions."
  },
  {
   "property": "C106",
   "status": "partial",
   "theorems": [
    "C106_rows",
    "C106_mean",
    "C106_conservation",
    "C106_wedge_refuted",
    "C106_double_refuted"
   ],
   "note": "Proved with the stated conditions (C106_rows, C106_mean, C106_conservation); refuted for doubly shielded faces and wedges."
  },
  {
   "property": "C107",
   "status": "proved",
   "theorems": [
    "C107_stencils",
    "C107_balance"
   ],
   "note": "Real arithmetic, two space dimensions; flux functions arbitrary."
  },
  {
   "property": "C108",
   "status": "proved",
   "theorems": [
    "C108_elements",
    "C108_atoms",
    "C108_noble_gases",
    "C108_solutions"
   ],
   "note": "Real arithmetic. The tables of reactions, third bodies, rate constants and production formulas are transcribed from the five files; the theorems are about all concentrations, temperatures, pressures. The balance of each formula is evaluated inside the kernel (vm_compute) over rational numbers."
  },
  {
   "property": "C109",
   "status": "proved",
   "theorems": [
    "C109_loss",
    "C109_absent",
    "C109_step"
   ],
   "note": "Real arithmetic; Aramco mechanisms up to 4600 K, where their rates are numbers (C111)."
  },
  {
   "property": "C110",
   "status": "partial",
   "theorems": [
    "C110_mass_burke",
    "C110_mass_rounded",
    "C110_solutions",
    "C110_mass_zhao_refuted",
    "C110_molar_masses",
    "C110_molar_masses_refuted"
   ],
   "note": "Burke exact, Gri and Aramco up to rounding of constants, Zhao refuted (C110_mass_zhao_refuted), molar masses with the exceptions that C110_molar_masses_refuted shows."
  },
  {
   "property": "C111",
   "status": "partial",
   "theorems": [
    "C111_rates_defined",
    "C111_hot_refuted"
   ],
   "note": "All mechanisms, the Aramco ones up to 4600 K; refuted from 5000 K on. Real arithmetic: overflow is not modelled."
  },
  {
   "property": "C112",
   "status": "proved",
   "theorems": [
    "C112_falloff",
    "C112_plog",
    "C112_tables"
   ],
   "note": "Real arithmetic; fall-off for fc between 0 and 1 and coefficients at least 1e-60, the floor of the code."
  },
  {
   "property": "C113",
   "status": "partial",
   "theorems": [
    "C113_names",
    "C113_names_refuted"
   ],
   "note": "Two mechanisms proved, the other three refuted for the named species."
  },
  {
   "property": "C114",
   "status": "partial",
   "theorems": [
    "C114_primitive",
    "C114_characteristics",
    "C114_lanes",
    "C114_mach_refuted"
   ],
   "note": "Proved for reference Mach number 1 (and for PerfectGas, which has none); refuted for all others (C114_mach_refuted). Real arithmetic."
  },
  {
   "property": "C115",
   "status": "partial",
   "theorems": [
    "C115_no_pressure_gradient",
    "C115_refuted",
    "C115_density_refuted",
    "C115_scalars_refuted"
   ],
   "note": "Proved without pressure gradient for density, momentum, pressure, species; refuted otherwise."
  },
  {
   "property": "C116",
   "status": "partial",
   "theorems": [
    "C116_positive",
    "C116_refuted"
   ],
   "note": "Proved under a bound of the time step that depends on gamma; refuted for CFL number 4/5. Real arithmetic."
  },
  {
   "property": "C117",
   "status": "proved",
   "theorems": [
    "C117_same_flux",
    "C117_cut_cells",
    "C117_uniform"
   ],
   "note": "Real arithmetic; array versions are the same in every lane (comments in the model)."
  },
  {
   "property": "C118",
   "status": "proved",
   "theorems": [
    "C118_mirror"
   ],
   "note": "For MinMod slopes of primitive variables."
  },
  {
   "property": "C119",
   "status": "partial",
   "theorems": [
    "C119_means",
    "C119_total",
    "C119_range",
    "C119_bounds_refuted"
   ],
   "note": "Means, totals and range for all sizes which do not end at the same position; the read beyond the end is proved for all coarser cells with a common end."
  },
  {
   "property": "C120",
   "status": "partial",
   "theorems": [
    "C120_ghost_cells",
    "C120_equal_cells",
    "C120_ratio_refuted"
   ],
   "note": "Both sides and directions for all sizes without common end; undefined for all integer coarsening ratios."
  },
  {
   "property": "C121",
   "status": "partial",
   "theorems": [
    "C121_average",
    "C121_distribution",
    "C121_range",
    "C121_admissible",
    "C121_dimensions",
    "C121_normal",
    "C121_direction",
    "C121_direction_refuted"
   ],
   "note": "Balance, independence of the decomposition, range, positivity, dimensions; connections in other directions than x are refuted."
  },
  {
   "property": "C122",
   "status": "partial",
   "theorems": [
    "C122_lower_side",
    "C122_uniform",
    "C122_upper_side_refuted",
    "C122_closed"
   ],
   "note": "Lower end proved; upper end refuted; uniform flux and closed connections at both ends."
  },
  {
   "property": "C123",
   "status": "partial",
   "theorems": [
    "C123_first_version",
    "C123_second_version_partial",
    "C123_second_version_refuted",
    "C123_stable_dt",
    "C123_copy_refuted"
   ],
   "note": "First version and time step proved; second version only for leading connections, refuted otherwise; copies of contexts refuted."
  },
  {
   "property": "C124",
   "status": "proved",
   "theorems": [
    "C124_stages",
    "C124_linear",
    "C124_uniform"
   ],
   "note": "`C124_stages` ranges over whole grids of conservative states; floating point rounding is not modelled."
  },
  {
   "property": "C125",
   "status": "partial",
   "theorems": [
    "C125_mirror",
    "C125_straight",
    "C125_order_refuted",
    "C125_positive_refuted",
    "C125_diffusion",
    "C125_friction"
   ],
   "note": "The order in space and the positivity at faces are refuted, see `C125_order_refuted` and `C125_positive_refuted`; the remaining statements are proved."
  },
  {
   "property": "C126",
   "status": "partial",
   "theorems": [
    "C126_contact",
    "C126_growth",
    "C126_courant",
    "C126_stable_refuted"
   ],
   "note": "Stability of the returned time step is refuted by `C126_stable_refuted`; `C126_growth` says for which steps waves of three cells grow."
  },
  {
   "property": "C127",
   "status": "partial",
   "theorems": [
    "C127_value",
    "C127_faces",
    "C127_straight",
    "C127_mirror",
    "C127_scale_refuted"
   ],
   "note": "Independence of the unit is refuted by `C127_scale_refuted`; the other statements are proved."
  },
  {
   "property": "C128",
   "status": "partial",
   "theorems": [
    "C128_half_step",
    "C128_uniform",
    "C128_contact",
    "C128_carried",
    "C128_mirror",
    "C128_cut_cells",
    "C128_closed_refuted",
    "C128_positive_refuted"
   ],
   "note": "Positivity at the faces and the zero flux at closed faces are refuted by `C128_positive_refuted` and `C128_closed_refuted`; the other statements are proved."
  },
  {
   "property": "C129",
   "status": "partial",
   "theorems": [
    "C129_inverse",
    "C129_half_step",
    "C129_straight",
    "C129_uniform",
    "C129_contact",
    "C129_cut_cells",
    "C129_cut_cells_refuted",
    "C129_cut_flux",
    "C129_versions_partial"
   ],
   "note": "Cut cells with limiters for which limiter(0, x) is not zero are refuted by `C129_cut_cells_refuted`; the other statements are proved."
  },
  {
   "property": "C130",
   "status": "partial",
   "theorems": [
    "C130_state",
    "C130_patch",
    "C130_mixture",
    "C130_normal_velocity_refuted"
   ],
   "note": "That only the normal velocity decides is refuted by `C130_normal_velocity_refuted`; the other statements are proved."
  },
  {
   "property": "C131",
   "status": "partial",
   "theorems": [
    "C131_ghost",
    "C131_boundary_flux",
    "C131_rejected",
    "C131_accepted",
    "C131_complete_refuted"
   ],
   "note": "Completeness of the search for bounds is refuted by `C131_complete_refuted`; the other statements are proved."
  },
  {
   "property": "C132",
   "status": "partial",
   "theorems": [
    "C132_required",
    "C132_required_oblique_refuted",
    "C132_average",
    "C132_jirasek_partial",
    "C132_consistent",
    "C132_supersonic_refuted",
    "C132_choked_refuted",
    "C132_backflow_refuted"
   ],
   "note": "`C132_jirasek_partial`: the mass flow is bounded from above only, since the iteration accepts every value below the tolerance (C38). The `_refuted` theorems show the failures for oblique, supersonic, choked and backward flow."
  },
  {
   "property": "C133",
   "status": "partial",
   "theorems": [
    "C133_outflow",
    "C133_rest",
    "C133_against",
    "C133_inflow_partial",
    "C133_scalars_refuted",
    "C133_enthalpy_refuted",
    "C133_reference_refuted"
   ],
   "note": "`C133_inflow_partial`: the total enthalpy is right only under a condition on the tube, `C133_enthalpy_refuted` shows the failure; `C133_scalars_refuted` and `C133_reference_refuted` the failures for passive scalars and reference Mach numbers."
  },
  {
   "property": "C134",
   "status": "partial",
   "theorems": [
    "C134_consistent",
    "C134_upwind",
    "C134_exact_for_straight_profiles",
    "C134_keeps_uniform_quotient_and_velocity",
    "C134_conserves",
    "C134_stable_dt",
    "C134_steps_are_stable",
    "C134_one_thread",
    "C134_threads_refuted",
    "C134_bounds_refuted",
    "C134_positive_refuted"
   ],
   "note": "Refuted: `C134_threads_refuted` (unprotected minimum), `C134_bounds_refuted`, `C134_positive_refuted`; the other statements are proved."
  },
  {
   "property": "C135",
   "status": "proved",
   "theorems": [
    "C135_divergence",
    "C135_PTdensity",
    "C135_linear",
    "C135_bounds"
   ],
   "note": "Every statement is proved."
  },
  {
   "property": "C136",
   "status": "partial",
   "theorems": [
    "C136_momentum",
    "C136_pressure",
    "C136_unique",
    "C136_projection",
    "C136_constants",
    "C136_momentum_any_k_refuted",
    "C136_projection_after_step_refuted",
    "C136_harmonic_constants_refuted"
   ],
   "note": "Refuted: `C136_momentum_any_k_refuted`, `C136_projection_after_step_refuted`, `C136_harmonic_constants_refuted`; the other statements are proved for an axis of length one and an operator without a leftover coefficient."
  },
  {
   "property": "C137",
   "status": "proved",
   "theorems": [
    "C137_forward",
    "C137_conserves",
    "C137_background",
    "C137_uniform"
   ],
   "note": "Proved for an axis of rotation of length one (or no rotation). The linear solver is any function which keeps the period and has the residual eps."
  },
  {
   "property": "C138",
   "status": "proved",
   "theorems": [
    "C138_gauss_seidel",
    "C138_gauss_seidel_harmonic",
    "C138_last_equation",
    "C138_masked",
    "C138_jacobi",
    "C138_normalize",
    "C138_normalize_masked",
    "C138_diagonal",
    "C138_boxes"
   ],
   "note": "Every statement is proved."
  },
  {
   "property": "C139",
   "status": "proved",
   "theorems": [
    "C139_restriction",
    "C139_interpolation",
    "C139_balance",
    "C139_bilinear",
    "C139_coefficients"
   ],
   "note": "Every statement is proved."
  },
  {
   "property": "C140",
   "status": "proved",
   "theorems": [
    "C140_mirror",
    "C140_neumann",
    "C140_compatible"
   ],
   "note": "Every statement is proved."
  },
  {
   "property": "C141",
   "status": "partial",
   "theorems": [
    "C141_shows_finest_partial",
    "C141_restricted_shows_finest_partial",
    "C141_something_to_show",
    "C141_distribution",
    "C141_zero_marker_refuted",
    "C141_xlower_partial",
    "C141_xlower_refuted",
    "C141_axes_reshaped",
    "C141_axes_declared_refuted",
    "C141_cut_cells_partial",
    "C141_cut_restricted_partial",
    "C141_cut_ranks_refuted",
    "C141_cut_ghosts_refuted"
   ],
   "note": "Proved for non-zero first components without cut cells (any ranks), and with cut cells on one rank. Refuted: zero in the first component means uncovered; volume fractions are added up over ranks (coarse level on rank 0, ghost cells); restricted outputs with cut cells show zero outside of the finest patches; xlower ignores the box; the declared extents do not match the storage order."
  },
  {
   "property": "C142",
   "status": "partial",
   "theorems": [
    "C142_finest_state_partial",
    "C142_one_level",
    "C142_outside",
    "C142_zero_component_refuted",
    "C142_tubes_refuted"
   ],
   "note": "Proved for components without zeros, for a single level, and for points outside. Refuted: a component that is zero in the finest cell is replaced by the coarser level; all tubes get the coordinates of the first one."
  },
  {
   "property": "C143",
   "status": "partial",
   "theorems": [
    "C143_series",
    "C143_crash",
    "C143_resume_refuted",
    "C143_shape_partial",
    "C143_levels_refuted",
    "C143_old_files_kept",
    "C143_plenum_probes",
    "C143_tube_probes_refuted"
   ],
   "note": "Proved except: a file left behind by a crash is not repaired when appended to; slabs of another size are cut off; probes of tubes append to the files of earlier runs."
  },
  {
   "property": "C144",
   "status": "partial",
   "theorems": [
    "C144_mean",
    "C144_distribution",
    "C144_admissible",
    "C144_outside_refuted",
    "C144_accumulate"
   ],
   "note": "Proved for boxes whose cells lie in exactly one patch each. Refuted for boxes that leave the patches: missing cells count as zero."
  },
  {
   "property": "C145",
   "status": "partial",
   "theorems": [
    "C145_flow_partial",
    "C145_flow_refuted",
    "C145_shared_faces_refuted",
    "C145_state_partial",
    "C145_temperature_refuted",
    "C145_tube_fluxes",
    "C145_tube_species_energy",
    "C145_tubes",
    "C145_control_plenum",
    "C145_control_tube",
    "C145_balance",
    "C145_steady",
    "C145_positive_partial",
    "C145_positive_refuted"
   ],
   "note": "Proved: fluxes at the ends of tubes, means over tubes, balances over all histories, steady states, positivity below a bound of the time step. Refuted: the flow is taken at the left faces of the last cells instead of the boundary; faces between patches count twice; the temperature is divided by the gas constant although p = rho T everywhere else; no bound on the time step is enforced."
  },
  {
   "property": "C146",
   "status": "partial",
   "theorems": [
    "C146_bounds",
    "C146_positive",
    "C146_value_partial",
    "C146_mean_refuted",
    "C146_file_partial",
    "C146_columns_refuted"
   ],
   "note": "Proved: range, positivity, covered cells, which samples are averaged, meaning of the columns. Refuted: the first sample of a cell is skipped, a cell with one sample gets the next one, a cell at the end only the last one; a number of columns other than six is not detected."
  },
  {
   "property": "C147",
   "status": "partial",
   "theorems": [
    "C147_reduce",
    "C147_min",
    "C147_initial_refuted",
    "C147_team_refuted",
    "C147_mean_partial",
    "C147_ghosts_refuted",
    "C147_tiles_refuted",
    "C147_level_refuted",
    "C147_inner_box"
   ],
   "note": "Proved: reductions and minima for all schedules, inner boxes up to the size of the box, the mean if each cell lies in exactly one visited box. Refuted: initial values other than zero are summed once per thread; teams larger than at construction access memory outside; the mean adds ghost cells of neighbouring patches and counts a patch once per tile; it is zero on levels without cells in the box."
  },
  {
   "property": "C148",
   "status": "partial",
   "theorems": [
    "C148_stable",
    "C148_stable_every",
    "C148_stable_refuted",
    "C148_advance",
    "C148_block_partial",
    "C148_block_refuted"
   ],
   "note": "Proved: stable step, advance with failures, blocks for nonnegative numbers with a plenum. Refuted: tubes beyond the sources are ignored by the stable step and accessed out of bounds by the advance; negative block numbers are out of bounds; further plena cannot be chosen; without plena block 0 is the first tube."
  },
  {
   "property": "C149",
   "status": "partial",
   "theorems": [
    "C149_inside",
    "C149_axis_partial",
    "C149_axis_refuted",
    "C149_points_refuted",
    "C149_file",
    "C149_file_refuted"
   ],
   "note": "Proved: characterisation of the inside, the line is inside for tubes that start upwards and end downwards, files of valid lines. Refuted: other tubes, for example a straight one upwards has its centre line outside; one point is undefined behaviour; an invalid line loses all values of the file."
  },
  {
   "property": "C150",
   "status": "proved",
   "theorems": [
    "C150_gather",
    "C150_face_average"
   ],
   "note": "Proved for all sequences of calls of SaveData with enough components."
  },
  {
   "property": "C151",
   "status": "partial",
   "theorems": [
    "C151_unique_partial",
    "C151_unique_refuted",
    "C151_averages",
    "C151_averages_refuted",
    "C151_directory",
    "C151_directory_partial",
    "C151_directory_refuted"
   ],
   "note": "Proved: numbering if no given name looks like a numbered one, names of averages, termination and freshness of the directory of a new snapshot. Refuted: numbered names may equal given ones; averages may get the name of a field on cells; the fourth snapshot of one name makes two older snapshots share a directory."
  },
  {
   "property": "C152",
   "status": "partial",
   "theorems": [
    "C152_sign",
    "C152_side",
    "C152_depth_partial",
    "C152_distance_partial",
    "C152_distance_refuted"
   ],
   "note": "Proved: signs everywhere, distances in the cone away from the axis and outside in three regions. Refuted: in the remaining outer regions the value is larger than the distance to some point of the cone. Close to the axis, within the root of machine epsilon, only the signs are proved."
  },
  {
   "property": "C153",
   "status": "proved",
   "theorems": [
    "C153_covers",
    "C153_tight",
    "C153_coarse",
    "C153_around"
   ],
   "note": "Proved in any number of dimensions."
  },
  {
   "property": "C154",
   "status": "partial",
   "theorems": [
    "C154_wall",
    "C154_levels_refuted"
   ],
   "note": "Proved for a section next to the domain of the level. Refuted for refined levels: the section is used with the indices of the coarse level, so that a section above the coarse domain overwrites cells inside of the refined domain."
  },
  {
   "property": "C155",
   "status": "partial",
   "theorems": [
    "C155_filter",
    "C155_format_partial",
    "C155_format_refuted",
    "C155_old_partial",
    "C155_old_refuted",
    "C155_directory"
   ],
   "note": "Proved: ranks, black list, lines of messages with at least two characters, old files of rank 0, directories. Refuted: messages of one character are dropped; old log files of other ranks are overwritten."
  },
  {
   "property": "C156",
   "status": "proved",
   "theorems": [
    "C156_levels",
    "C156_space",
    "C156_abort"
   ],
   "note": "Proved for all domains and ratios; the limit of 29 levels is the one of int for the number of ghost cells (4 * 2^29 overflows)."
  },
  {
   "property": "C157",
   "status": "partial",
   "theorems": [
    "C157_average",
    "C157_exists",
    "C157_massflow_partial",
    "C157_massflow_refuted"
   ],
   "note": "Proved: mean, existence, entropy, velocity, and the last sentence for inner gases that already have the mass flow. Refuted in all other cases: the two Mach numbers are exchanged in the relation of the pressures, so an accelerated gas gets more mass flow and more enthalpy than required."
  },
  {
   "property": "C158",
   "status": "proved",
   "theorems": [
    "C158_faces",
    "C158_tiles"
   ],
   "note": "Proved for all boxes and tilings."
  },
  {
   "property": "C159",
   "status": "partial",
   "theorems": [
    "C159_options",
    "C159_box",
    "C159_vector_refuted",
    "C159_direction_refuted",
    "C159_script_partial",
    "C159_script_refuted"
   ],
   "note": "Proved: options, defaults, boxes with three numbers for each bound, distribution of a script which all processes find. Refuted: vectors with one number for each axis throw in one and two dimensions; every number is a direction; if one process does not find the file (or process 0 cannot open it) the others wait forever."
  },
  {
   "property": "C160",
   "status": "proved",
   "theorems": [
    "C160_riemann",
    "C160_python",
    "C160_ghost",
    "C160_errors",
    "C160_default"
   ],
   "note": "Proved. The type of a patch is assumed to fit its volume fractions (AMReX computes both). Ghost cells get data from a Riemann problem but not from a Python function (C160_ghost)."
  },
  {
   "property": "C161",
   "status": "partial",
   "theorems": [
    "C161_tags",
    "C161_nested",
    "C161_samrai_partial",
    "C161_samrai_refuted"
   ],
   "note": "Proved for AMReX with and without embedded boundaries. With SAMRAI the box is not refined: the claim holds on the coarsest level (C161_samrai_partial) and fails on each finer one (C161_samrai_refuted)."
  },
  {
   "property": "C162",
   "status": "proved",
   "theorems": [
    "C162_alone",
    "C162_same",
    "C162_others",
    "C162_failure",
    "C162_restart"
   ],
   "note": "Proved. Assumes at least as many tubes in the context, and options in the vector, as source terms; the code does not check this."
  },
  {
   "property": "C163",
   "status": "proved",
   "theorems": [
    "C163_simd",
    "C163_sequential",
    "C163_agree",
    "C163_view"
   ],
   "note": "Proved for completions that depend on the conservative state only; targets may be larger than the source (smaller for the free function)."
  },
  {
   "property": "C164",
   "status": "proved",
   "theorems": [
    "C164_table",
    "C164_keeps",
    "C164_restart",
    "C164_no_file",
    "C164_directory"
   ],
   "note": "Proved on the process that writes. HDF5 is modelled by lists that grow; crashes inside of HDF5, missing datasets and directories are not modelled. If every number up to the largest int is in use, the file is overwritten (excluded by a hypothesis)."
  },
  {
   "property": "C165",
   "status": "proved",
   "theorems": [
    "C165_data",
    "C165_single",
    "C165_coordinates"
   ],
   "note": "Proved for one process. That a value of zero on a finer level is replaced by the coarser one is part of the statement here and treated as a defect in C142."
  },
  {
   "property": "C166",
   "status": "partial",
   "theorems": [
    "C166_copy_partial",
    "C166_copy_refuted",
    "C166_again_partial"
   ],
   "note": "Proved for levels without values on faces and for dimensions other than two; refuted for planes with values on faces, where the copy dereferences a null pointer (C166_copy_refuted). Ghost cells are not copied by the code and not compared."
  }
 ]
}