{
 "claims": [
  {
   "property": "C01",
   "status": "proved",
   "theorems": [
    "C01_shoreline_index",
    "C01_rows"
   ],
   "note": "Polymorphic in the number type."
  },
  {
   "property": "C02",
   "status": "proved",
   "theorems": [
    "C02_shoreline_between_dry_and_wet",
    "C02_shoreline_all_submerged",
    "C02_shoreline_linear"
   ],
   "note": "find_shoreline with any interpolant through the data; scipy's bisection loop is modelled. Profile width bounded by 1e18 (100 halvings)."
  },
  {
   "property": "C03",
   "status": "partial",
   "theorems": [
    "C03_no_failure_refuted",
    "C03_no_failure_partial"
   ],
   "note": "Refuted: a profile whose first and last columns are both submerged but has an island raises ValueError (search interval wraps to x[-1]). Partial theorem: characterises exactly when it fails."
  },
  {
   "property": "C04",
   "status": "proved",
   "theorems": [
    "C04_shelf_edge",
    "C04_shelf_edge_zero_alpha"
   ],
   "note": ""
  },
  {
   "property": "C05",
   "status": "proved",
   "theorems": [
    "C05_assertion_never_fires",
    "C05_shoreline_finder",
    "C05_constructor"
   ],
   "note": ""
  },
  {
   "property": "C06",
   "status": "proved",
   "theorems": [
    "C06_sea_level_increments"
   ],
   "note": "Any curve, including one that raises; linear tables through the spec relation on_curve."
  },
  {
   "property": "C07",
   "status": "proved",
   "theorems": [
    "C07_sinusoid",
    "C07_sinusoid_component"
   ],
   "note": "Over the reals."
  },
  {
   "property": "C08",
   "status": "proved",
   "theorems": [
    "C08_interpolation"
   ],
   "note": "kind='linear' only."
  },
  {
   "property": "C09",
   "status": "partial",
   "theorems": [
    "C09_nearest_extrapolation_refuted",
    "C09_outside_table_partial"
   ],
   "note": "Refuted: interp1d is created with bounds_error=True, so the step raises ValueError. Partial: what happens instead, for every time outside the table."
  },
  {
   "property": "C10",
   "status": "proved",
   "theorems": [
    "C10_subsidence_history",
    "C10_uplift_unique",
    "C10_split_step"
   ],
   "note": "kind='linear'. Rejected tables leave the old rate in force."
  },
  {
   "property": "C11",
   "status": "proved",
   "theorems": [
    "C11_bathymetry",
    "C11_constructed"
   ],
   "note": "kind='linear'."
  },
  {
   "property": "C12",
   "status": "proved",
   "theorems": [
    "C12_initial_profile"
   ],
   "note": ""
  },
  {
   "property": "C13",
   "status": "proved",
   "theorems": [
    "C13_sediment_load"
   ],
   "note": "Over the reals; the model shows the internal division never divides by zero."
  },
  {
   "property": "C14",
   "status": "proved",
   "theorems": [
    "C14_load_in_two_parts",
    "C14_load_undone",
    "C14_load_defined"
   ],
   "note": ""
  },
  {
   "property": "C15",
   "status": "proved",
   "theorems": [
    "C15_deflection_conserved",
    "C15_fraction_between_0_and_1",
    "C15_negative_time_refused"
   ],
   "note": "Any relaxation time accepted by the constructor, any history."
  },
  {
   "property": "C16",
   "status": "partial",
   "theorems": [
    "C16_efolding_refuted",
    "C16_instant_refuted",
    "C16_efolding_one_row_partial",
    "C16_instant_one_row_partial",
    "C16_instant_history_partial",
    "C16_efolding_history_partial",
    "C16_relaxation_bounds_partial"
   ],
   "note": "Refuted for grids of more than one row: the relaxed fraction is divided by the number of rows. Partial: exact on one row, for single steps and through any history from construction; on any grid never faster than the e-folding time."
  },
  {
   "property": "C17",
   "status": "proved",
   "theorems": [
    "C17_bulk_densities",
    "C17_rejected_changes_nothing",
    "C17_construction"
   ],
   "note": ""
  },
  {
   "property": "C18",
   "status": "proved",
   "theorems": [
    "C18_load_seen_once",
    "C18_unchanged_load"
   ],
   "note": "Any plate solver. Relaxation conserves the deflection."
  },
  {
   "property": "C19",
   "status": "proved",
   "theorems": [
    "C19_water_load",
    "C19_half_plane",
    "C19_half_plane_linear"
   ],
   "note": ""
  },
  {
   "property": "C20",
   "status": "proved",
   "theorems": [
    "C20_coefficient_rules",
    "C20_coefficients_positive"
   ],
   "note": "After any history. The first row uses the load computed by the previous call (see C21); stated explicitly through level_used."
  },
  {
   "property": "C21",
   "status": "partial",
   "theorems": [
    "C21_same_call_twice_refuted",
    "C21_same_rows_refuted",
    "C21_present_only_partial",
    "C21_second_calculation_partial"
   ],
   "note": "Refuted: the load is refreshed inside the row loop after the first row has used it. Partial: all other rows, all land, everywhere if the load does not depend on sea level, and everywhere from the second call on."
  },
  {
   "property": "C22",
   "status": "partial",
   "theorems": [
    "C22_both_boundaries_refuted",
    "C22_bottom_boundary_partial"
   ],
   "note": "Refuted: k[-1, :] = k[-1, :] leaves the top row zero for ever. Partial: bottom row."
  },
  {
   "property": "C23",
   "status": "proved",
   "theorems": [
    "C23_moves_sediment_only"
   ],
   "note": "Any diffusion solver."
  },
  {
   "property": "C24",
   "status": "partial",
   "theorems": [
    "C24_load_follows_sea_level_refuted",
    "C24_load_after_calculation_partial",
    "C24_k_land"
   ],
   "note": "k_land = load / plain_slope proved for every history. Refuted: assigning sediment_load uses the sea level of construction instead of the current one. Partial: holds after every calculation."
  },
  {
   "property": "C25",
   "status": "partial",
   "theorems": [
    "C25_sand_fraction_refuted",
    "C25_exact_sand_fraction_partial",
    "C25_never_outside_partial"
   ],
   "note": "Refuted in doubles (NaN on a flat delta plain with a mud-free river). Partial: in [0,1] over the reals; never below 0 nor above 1 in any arithmetic, doubles included."
  },
  {
   "property": "C26",
   "status": "partial",
   "theorems": [
    "C26_water_sand_refuted",
    "C26_water_sand_zero_partial"
   ],
   "note": "Refuted: np.divide and np.clip write into a temporary copy, so submerged nodes always have sand fraction 0. Partial: characterises the actual value."
  },
  {
   "property": "C27",
   "status": "partial",
   "theorems": [
    "C27_mud_within_rate_refuted",
    "C27_mud_partial",
    "C27_mud_exact",
    "C27_submerged_beyond_shore"
   ],
   "note": "Refuted in the first column (taper starts at column 1). Partial: everything else; C27_mud_exact gives the exact amount at every node."
  },
  {
   "property": "C28",
   "status": "proved",
   "theorems": [
    "C28_walk_stays_on_grid",
    "C28_shoreline_on_grid"
   ],
   "note": "Over the reals, any interpolator, any parameters."
  },
  {
   "property": "C29",
   "status": "proved",
   "theorems": [
    "C29_layer_counts",
    "C29_archived_column"
   ],
   "note": "Counts in any arithmetic; contents (archived column = unarchived column with its first groups of ten merged, under any deposition and erosion) over the reals."
  },
  {
   "property": "C30",
   "status": "proved",
   "theorems": [
    "C30_archiving_preserves",
    "C30_archived_totals"
   ],
   "note": "Any stack and any range; whole-history thickness through archiving."
  },
  {
   "property": "C31",
   "status": "proved",
   "theorems": [
    "C31_thickness",
    "C31_erosion_from_top",
    "C31_properties_kept"
   ],
   "note": "Any sequence of additions, removals and merges, over the reals."
  },
  {
   "property": "C32",
   "status": "proved",
   "theorems": [
    "C32_model_balanced",
    "C32_load_grid_hundred",
    "C32_deposits_not_carried",
    "C32_sequence_balanced"
   ],
   "note": "Sequence in any arithmetic. SequenceModel over the reals, constructed on a grid whose bedrock lies 100 below the surface (load_grid builds such grids: C32_load_grid_hundred); a grid with another bedrock is balanced only after the first step. C32_deposits_not_carried holds in any arithmetic."
  },
  {
   "property": "C33",
   "status": "proved",
   "theorems": [
    "C33_run_reaches_time"
   ],
   "note": "Exact (real) arithmetic: the run, with or without until and dt, equals a list of updates whose lengths, number and final time are as stated."
  },
  {
   "property": "C34",
   "status": "partial",
   "theorems": [
    "C34_exact_partial",
    "C34_drift_partial",
    "C34_run_in_doubles_refuted"
   ],
   "note": "Refuted in IEEE doubles (machine-checked binary64 run): run(until=1.0, dt=0.1) from 0 ends at 0.9999999999999999. Proved for numbers that are exact in binary and, for any doubles, up to an explicit rounding bound. Missing for the full claim: it is false."
  },
  {
   "property": "C35",
   "status": "partial",
   "theorems": [
    "C35_bedrock_moves_refuted",
    "C35_fields_as_components_left_them_partial"
   ],
   "note": "Refuted: Sequence.update never applies bedrock_surface__increment_of_elevation. Proved instead: bedrock and increment stay as the components left them."
  },
  {
   "property": "C36",
   "status": "partial",
   "theorems": [
    "C36_any_rows_refuted",
    "C36_several_rows_fail_partial",
    "C36_one_row_succeeds_partial"
   ],
   "note": "Refuted: at_row has n_rows entries, the per-layer row record n_rows+2. Proved: always ValueError unless n_rows = 1, and always success for n_rows = 1."
  },
  {
   "property": "C37",
   "status": "proved",
   "theorems": [
    "C37_one_record_per_update",
    "C37_ages_never_decrease"
   ],
   "note": "One record per update in any arithmetic, with the age, sea level, shores and shelf edges recorded; ages of any history of nonnegative steps in exact arithmetic."
  },
  {
   "property": "C38",
   "status": "proved",
   "theorems": [
    "C38_run_takes_every_full_step",
    "C38_from_start",
    "C38_never_ends",
    "C38_never_ends_without_stop"
   ],
   "note": "Over the reals. full_steps pins n to floor((stop-start)/step), 0 if stop < start. The log of component calls is kept by wrapping each component. C38_never_ends shows that step > 0 and a stop are needed."
  },
  {
   "property": "C39",
   "status": "partial",
   "theorems": [
    "C39_same_dt_refuted",
    "C39_zero_dt_refuted",
    "C39_clock_moves_by_step_partial"
   ],
   "note": "Refuted: run_one_step(dt) moves the clock by its own step whatever dt is, and dt = 0 runs the components by a full step. The partial theorem says what is true of every dt."
  },
  {
   "property": "C40",
   "status": "proved",
   "theorems": [
    "C40_increments_applied_once",
    "C40_any_order"
   ],
   "note": "Over the reals."
  },
  {
   "property": "C41",
   "status": "proved",
   "theorems": [
    "C41_water_depth_change",
    "C41_zero_where_dry"
   ],
   "note": "Any arithmetic; the zero on dry nodes over the reals."
  },
  {
   "property": "C42",
   "status": "partial",
   "theorems": [
    "C42_load_matches_refuted",
    "C42_load_matches_partial",
    "C42_requested_weight_partial"
   ],
   "note": "Refuted: erosion is weighed before it is cut off at the sediment present (_update_fields uses the requested deposit). Partial: holds when no cell is eroded by more than its sediment; the requested weight is always what is added."
  },
  {
   "property": "C43",
   "status": "proved",
   "theorems": [
    "C43_processes_in_order",
    "C43_unknown_raises",
    "C43_one_call_each"
   ],
   "note": "load_processes modelled with an arbitrary constructor call; duplicates keep the first position, as in a Python dict."
  },
  {
   "property": "C44",
   "status": "proved",
   "theorems": [
    "C44_match_values"
   ],
   "note": ""
  },
  {
   "property": "C45",
   "status": "partial",
   "theorems": [
    "C45_hemipelagic_refuted",
    "C45_fluvial_section_partial"
   ],
   "note": "Refuted: sediments is not a process, so its section never takes part in the matching. The fluvial section alone decides."
  },
  {
   "property": "C46",
   "status": "proved",
   "theorems": [
    "C46_shared_parameters",
    "C46_conflicts_reported"
   ],
   "note": "Stated on the parameters each class is called with."
  },
  {
   "property": "C47",
   "status": "proved",
   "theorems": [
    "C47_config_at",
    "C47_file_sections",
    "C47_load_config"
   ],
   "note": "Values are compared up to tuple/list (as_list), since sections store tuples."
  },
  {
   "property": "C48",
   "status": "proved",
   "theorems": [
    "C48_updates"
   ],
   "note": "Values are scalars and lists of scalars (plain_sections); a set's iteration order is arbitrary."
  },
  {
   "property": "C49",
   "status": "partial",
   "theorems": [
    "C49_only_changes_refuted",
    "C49_only_changes_partial"
   ],
   "note": "Refuted when the first section is after time 0: the update that reaches it reports the whole section. Partial: proved when the first section alone is at or before 0, after any earlier updates."
  },
  {
   "property": "C50",
   "status": "proved",
   "theorems": [
    "C50_expand_flatten",
    "C50_lossless"
   ],
   "note": ""
  },
  {
   "property": "C51",
   "status": "partial",
   "theorems": [
    "C51_dump_load",
    "C51_equal_times_refuted"
   ],
   "note": "Also shown: false for equal times."
  },
  {
   "property": "C52",
   "status": "partial",
   "theorems": [
    "C52_sections_refuted",
    "C52_files_partial",
    "C52_parameters_partial"
   ],
   "note": "Refuted: with several sections in sequence.toml only the first is used. Partial: proved for files with one section each, the first (and no other) with time 0: the loop passes each step's changes to set_params, and attributes follow the configuration."
  },
  {
   "property": "C53",
   "status": "proved",
   "theorems": [
    "C53_config_files",
    "C53_time_unique"
   ],
   "note": "Names are ASCII."
  },
  {
   "property": "C54",
   "status": "partial",
   "theorems": [
    "C54_options_refuted",
    "C54_options_partial",
    "C54_others_partial",
    "C54_never_fail_partial"
   ],
   "note": "Refuted: of two options of one group only the last has an effect. Partial: proved for an option no later option of its group follows; other parameters keep their values; valid options never fail."
  },
  {
   "property": "C55",
   "status": "partial",
   "theorems": [
    "C55_dots_refuted",
    "C55_dots_partial",
    "C55_together_refuted"
   ],
   "note": "Refuted at depth three (names come out of order); partial for depth one and two. All assignments together lose values already at depth two (C55_together_refuted)."
  },
  {
   "property": "C56",
   "status": "proved",
   "theorems": [
    "C56_existing",
    "C56_never_overwrites",
    "C56_creates"
   ],
   "note": "Options valid and text rendering total for the creating half."
  },
  {
   "property": "C57",
   "status": "proved",
   "theorems": [
    "C57_records",
    "C57_earlier_records_kept"
   ],
   "note": "Any history of grids with a fixed number of nodes; any field selection; times are the sums of the dt passed."
  },
  {
   "property": "C58",
   "status": "proved",
   "theorems": [
    "C58_constructor",
    "C58_setter",
    "C58_steps"
   ],
   "note": "Constructor, setter and steps; no file other than the writer's own is ever touched."
  },
  {
   "property": "C59",
   "status": "partial",
   "theorems": [
    "C59_interval_refuted",
    "C59_interval_partial"
   ],
   "note": "Refuted: interval=0 is accepted and every run_one_step then raises ZeroDivisionError. Partial: every accepted interval >= 1 works on every history of recordable grids."
  },
  {
   "property": "C60",
   "status": "partial",
   "theorems": [
    "C60_layers_refuted",
    "C60_unsteady_refuted",
    "C60_layers_partial"
   ],
   "note": "Refuted: layers are archived (reduced) on the grid but the file's layer dimension never shrinks, so stale layers remain at the end; shown for every interval that is not steady. Partial: the file always starts with the grid's layers, and has nothing else for steady intervals."
  },
  {
   "property": "C61",
   "status": "partial",
   "theorems": [
    "C61_age_refuted",
    "C61_age_partial"
   ],
   "note": "Refuted when the clock's start is not 0 (the writer counts from 0). Partial: exact value of both, equal when start = 0."
  },
  {
   "property": "C62",
   "status": "partial",
   "theorems": [
    "C62_names_refuted",
    "C62_names_partial"
   ],
   "note": "Refuted: an empty selection, or one none of whose names exist, writes all fields. Partial: exact characterisation (iff) when some requested field exists."
  },
  {
   "property": "C63",
   "status": "proved",
   "theorems": [
    "C63_outline",
    "C63_default_limits"
   ],
   "note": "Exact polygon: closed walk along neighbouring columns, follows top and bottom, straight sides. Limits may be one beyond the last column, as searchsorted gives. Over the reals."
  },
  {
   "property": "C64",
   "status": "proved",
   "theorems": [
    "C64_layers_to_plot"
   ],
   "note": "For 0 <= start <= stop; the number of selected layers lies in [num-1, 2 num)."
  },
  {
   "property": "C65",
   "status": "partial",
   "theorems": [
    "C65_refuted",
    "C65_file_partial",
    "C65_level_bedrock_partial"
   ],
   "note": "Refuted: plot_file reads the bedrock at node row `row` but the layers at cell row `row`, so the bedrock is that of another row (of the grid's boundary for a one-row grid), and wrong once flexure or subsidence moves the two differently. Partial: exact elevation drawn; right when the bedrock is the same in all rows."
  },
  {
   "property": "C66",
   "status": "proved",
   "theorems": [
    "C66_accepted",
    "C66_pair",
    "C66_number",
    "C66_dictionary_shape",
    "C66_dictionary_spacing"
   ],
   "note": ""
  },
  {
   "property": "C67",
   "status": "proved",
   "theorems": [
    "C67_read",
    "C67_write"
   ],
   "note": ""
  },
  {
   "property": "C68",
   "status": "partial",
   "theorems": [
    "C68_shore_outside_grid_refuted",
    "C68_shore_outside_grid_partial"
   ],
   "note": "Refuted: a shore landward of the grid is kept and the whole profile is under water. Partial: a shore seaward of the grid is moved inside."
  },
  {
   "property": "C69",
   "status": "proved",
   "theorems": [
    "C69_water_flexure_step",
    "C69_water_flexure_idle"
   ],
   "note": "Any plate solver."
  },
  {
   "property": "C70",
   "status": "proved",
   "theorems": [
    "C70_run_succeeds",
    "C70_init_ready"
   ],
   "note": "Over the reals. Components are required to succeed on ready grids and to leave them ready."
  },
  {
   "property": "C71",
   "status": "proved",
   "theorems": [
    "C71_set_params",
    "C71_unknown_raises"
   ],
   "note": "Components are dictionaries of attributes; setters that validate are not modelled here."
  },
  {
   "property": "C72",
   "status": "partial",
   "theorems": [
    "C72_initial_refuted",
    "C72_initial_partial"
   ],
   "note": "Refuted for times [0, 0]: only the first section is used. Partial: proved when the first section alone is at or before 0."
  },
  {
   "property": "C73",
   "status": "partial",
   "theorems": [
    "C73_never_raises_refuted",
    "C73_never_raises_partial"
   ],
   "note": "Refuted: a list of lists is unhashable and update() and dump() raise TypeError. Partial: proved for scalars and lists of scalars."
  },
  {
   "property": "C74",
   "status": "partial",
   "theorems": [
    "C74_run_refuted",
    "C74_run_partial"
   ],
   "note": "Refuted: a first file with a time after 0 (e.g. only sequence-1.toml, or sequence.toml with sequence-100.toml) raises KeyError. Partial: proved when the first file alone has time 0."
  },
  {
   "property": "C75",
   "status": "partial",
   "theorems": [
    "C75_failed_setup_refuted",
    "C75_failed_setup_partial"
   ],
   "note": "Refuted: an unreadable option leaves an empty bathymetry.csv, which makes the next setup abort. Partial: valid options and total rendering."
  },
  {
   "property": "C76",
   "status": "partial",
   "theorems": [
    "C76_independent_refuted",
    "C76_independent_partial"
   ],
   "note": "Refuted: --set changes the class-level defaults. Partial: when the first command has no options."
  },
  {
   "property": "C77",
   "status": "partial",
   "theorems": [
    "C77_rows_refuted",
    "C77_selection_refuted",
    "C77_all_rows_partial"
   ],
   "note": "Refuted, for every proper selection on every grid with 2 or more rows and a layer: the layers of all the rows are written into the selected rows. Partial: any permutation/selection of full length works."
  },
  {
   "property": "C78",
   "status": "partial",
   "theorems": [
    "C78_coordinates_refuted",
    "C78_coordinates_partial"
   ],
   "note": "Refuted: both are off by exactly one grid spacing (the indices are of the interior, the coordinates of all the nodes). Partial: exact values; x_of_cell and y_of_cell are right."
  },
  {
   "property": "C79",
   "status": "partial",
   "theorems": [
    "C79_defaults_refuted",
    "C79_layers_refuted",
    "C79_no_layers_partial"
   ],
   "note": "Refuted, for every grid with a layer and at least 4 columns: the row and column dimensions include the boundary, the layers do not. Partial: works without layers and row fields."
  },
  {
   "property": "C80",
   "status": "proved",
   "theorems": [
    "C80_regions",
    "C80_unknown_shores"
   ],
   "note": "Over the reals. The layers selected for outlines are those of C64."
  },
  {
   "property": "C81",
   "status": "partial",
   "theorems": [
    "C81_refuted",
    "C81_several_rows_refuted",
    "C81_one_row_partial",
    "C81_recorded_shore_partial"
   ],
   "note": "Refuted: with two or more rows plot_grid always raises (C81_several_rows_refuted, all grids with at least 4 columns). Partial: one row."
  },
  {
   "property": "C82",
   "status": "partial",
   "theorems": [
    "C82_refuted",
    "C82_one_record_refuted",
    "C82_late_start_refuted",
    "C82_partial"
   ],
   "note": "Refuted twice, each for every run: one record only (IndexError), a clock that starts after 0 (ValueError: ages lie outside the recorded times). Partial: start = 0 and at least one step."
  },
  {
   "property": "C83",
   "status": "partial",
   "theorems": [
    "C83_refuted",
    "C83_from_start_partial",
    "C83_from_end_partial"
   ],
   "note": "Refuted: a non-negative layer_stop excludes that layer (a negative one includes it). Partial: both cases exactly."
  },
  {
   "property": "C84",
   "status": "partial",
   "theorems": [
    "C84_refuted",
    "C84_partial"
   ],
   "note": "Refuted: shape (3, 5) with xy_spacing 10.0 raises ValueError, without xy_spacing KeyError. Partial: a pair."
  },
  {
   "property": "C85",
   "status": "proved",
   "theorems": [
    "C85_sequence_column",
    "C85_sequence_number",
    "C85_model_column",
    "C85_model_number",
    "C85_column_thickness"
   ],
   "note": "Columns over the reals, numbers of layers in any arithmetic. Components that change layers (compaction) are excluded by keeps_layers; see C13-C15 for those."
  },
  {
   "property": "C86",
   "status": "partial",
   "theorems": [
    "C86_start_depth_refuted",
    "C86_model_depth_refuted",
    "C86_update_depth_partial",
    "C86_model_depth_before_partial"
   ],
   "note": "Refuted twice: the layer laid when a Sequence is constructed records the depth over a surface raised by its thickness once more; a SequenceModel step records the depth before its deposit. Partial: Sequence updates (components leave the surface on top of the layers, no erosion below the bottom), and what a SequenceModel step records instead."
  },
  {
   "property": "C87",
   "status": "partial",
   "theorems": [
    "C87_start_thickness_refuted",
    "C87_model_start_thickness_refuted",
    "C87_update_thickness_partial",
    "C87_model_thickness_partial"
   ],
   "note": "Refuted for the layers laid at construction: a Sequence records the pending deposit, a SequenceModel 10 for a layer of 100. Partial: every update and every step."
  },
  {
   "property": "C88",
   "status": "partial",
   "theorems": [
    "C88_any_dt_refuted",
    "C88_sea_level_at_clock_partial"
   ],
   "note": "Refuted when a step is given a dt other than the clock's step (see C39). Partial: any number of default steps, any arithmetic."
  },
  {
   "property": "C89",
   "status": "proved",
   "theorems": [
    "C89_clean_start"
   ],
   "note": "Any grid with the model's fields; the load in exact arithmetic."
  },
  {
   "property": "C90",
   "status": "proved",
   "theorems": [
    "C90_update_calls",
    "C90_run_calls"
   ],
   "note": "update() in any arithmetic, run() in exact arithmetic; components may change anything and may raise."
  },
  {
   "property": "C91",
   "status": "proved",
   "theorems": [
    "C91_rounds",
    "C91_run",
    "C91_parameters",
    "C91_no_stop"
   ],
   "note": "In exact arithmetic, configuration times are whole numbers as in the file names; the set_params theorems assume components that do not change their own parameters."
  },
  {
   "property": "C92",
   "status": "partial",
   "theorems": [
    "C92_in_time_refuted",
    "C92_in_time_partial"
   ],
   "note": "Refuted: the loop advances the configuration by 1 per step, so a clock step other than 1 applies parameters at the wrong time. Partial: clock step 1."
  },
  {
   "property": "C93",
   "status": "partial",
   "theorems": [
    "C93_shared_refuted",
    "C93_shared_partial"
   ],
   "note": "Refuted: set_params does not match values, so giving the parameter to one process leaves the other behind. Partial: given to both or to neither."
  },
  {
   "property": "C94",
   "status": "proved",
   "theorems": [
    "C94_setup_then_run"
   ],
   "note": "The text formats are arbitrary functions such that reading gives back what was rendered, with the section's processes added by the template."
  },
  {
   "property": "C95",
   "status": "proved",
   "theorems": [
    "C95_plot_settings",
    "C95_figure",
    "C95_default_figure"
   ],
   "note": "toml and yaml text is an arbitrary parser; the [plot] table, if present, is a table."
  },
  {
   "property": "C96",
   "status": "partial",
   "theorems": [
    "C96_title_refuted",
    "C96_title_partial"
   ],
   "note": "Refuted: PLOT_KEYWORDS has title='', which is always passed, so plot_file never uses its default. Partial: a title that is given on the command line shows."
  },
  {
   "property": "C97",
   "status": "partial",
   "theorems": [
    "C97_steepness_refuted",
    "C97_land_sand_partial"
   ],
   "note": "Refuted: the depth is divided by the signed slope, which is negative on a plain falling seaward, so such rivers are never braided. Partial: the exact fraction with the signed slope, in exact arithmetic (the clipping of the code turns out to be idle)."
  },
  {
   "property": "C98",
   "status": "partial",
   "theorems": [
    "C98_refuted",
    "C98_statement_refuted",
    "C98_alpha_refuted",
    "C98_partial",
    "C98_fluvial_later_partial",
    "C98_sea_level_later_partial",
    "C98_subsidence_later_partial",
    "C98_flexure_later_partial",
    "C98_file_refuted",
    "C98_ignored_partial"
   ],
   "note": "Refuted: a sinusoidal sea level copies its parameters in its constructor, so assigning any of them is accepted and changes nothing; alpha of the shoreline finder cannot be assigned at all. Partial: the parameters listed in the theorem give the very same process and grid, at any later time for the fluvial, sea-level and subsidence processes; assigning an ignored parameter changes nothing."
  },
  {
   "property": "C99",
   "status": "partial",
   "theorems": [
    "C99_refuted",
    "C99_partial",
    "C99_removes_partial",
    "C99_keeps_partial"
   ],
   "note": "Refuted: the dry run makes the model, and the constructor of OutputWriter removes the output file if clobber is true (the default parameters). Partial: no other file changes, and without clobber none does."
  },
  {
   "property": "C100",
   "status": "partial",
   "theorems": [
    "C100_refuted",
    "C100_partial",
    "C100_stops_partial"
   ],
   "note": "Refuted: set_params raises for a section that is no component of the model (e.g. plot, grid, clock, output when absent), so the run ends at that step. Partial: it completes if later sections are those of components; otherwise it always ends with an exception once the change is due."
  },
  {
   "property": "C101",
   "status": "partial",
   "theorems": [
    "C101_refuted",
    "C101_csv",
    "C101_bathymetry_partial",
    "C101_subsidence_partial",
    "C101_sea_level_partial"
   ],
   "note": "Refuted: the sea-level table ends at 200000 years and the default clock at 600000, so a run that names it raises ValueError. Partial: every table is read back to the nearest tenth; the bathymetry gives 20 m - x/1000 on every grid up to 100 km wide and raises on wider ones; the subsidence is zero; the sea level is -t/20000 up to 200000 years."
  },
  {
   "property": "C102",
   "status": "partial",
   "theorems": [
    "C102_refuted",
    "C102_least_curvature_partial",
    "C102_curvature_exists",
    "C102_raises",
    "C102_tilted",
    "C102_bend_partial",
    "C102_second_column_refuted"
   ],
   "note": "Refuted: the sea level is not used, so the result can be on land; and a bend at the second column is reported at the first. Partial: it is the first place of least curvature of the whole profile, unaffected by tilting the profile, and the place of a single bend from the third column on."
  },
  {
   "property": "C103",
   "status": "partial",
   "theorems": [
    "C103_refuted",
    "C103_partial",
    "C103_reported_partial",
    "C103_unknown_setting_refuted"
   ],
   "note": "Refuted: the output of a run of one step (one record) gives an IndexError, and a setting that does not exist a TypeError. Partial: missing variables and rows that do not exist are reported; whatever else goes wrong with reading ends the command with that error."
  },
  {
   "property": "C104",
   "status": "proved",
   "theorems": [
    "C104_fields_found",
    "C104_any_grid",
    "C104_diffuser_first"
   ],
   "note": "Creation, assignment and steps of every process but WaterFlexure and Compact, whose parameters are numbers or tables; the interpolator, the diffuser and the flexure are arbitrary functions."
  },
  {
   "property": "C105",
   "status": "partial",
   "theorems": [
    "C105_refuted",
    "C105_sea_level_refuted",
    "C105_partial"
   ],
   "note": "Refuted: the submarine diffuser sets the sea level to its own parameter. Partial: every node field and every other value is kept by every process."
  },
  {
   "property": "C106",
   "status": "proved",
   "theorems": [
    "C106_selected_elements"
   ],
   "note": "For a new file (mode w); node, link, patch, corner, face and cell locations. Appending is C57."
  },
  {
   "property": "C107",
   "status": "proved",
   "theorems": [
    "C107_step_raises_only",
    "C107_model_made"
   ],
   "note": "configured_raises: over R, any model made by load_model and any history of run_one_step/set_params; the exception is the one of a component whose turn came, on the grid the earlier ones left, and for a class of /repo it has the cause listed in Spec/Configured.v and is not KeyError. well_behaved is the assumption on landlab, SciPy, Compact and WaterFlexure; the causes of failures of load_processes itself are not characterised here (see C104, C105)."
  },
  {
   "property": "C108",
   "status": "proved",
   "theorems": [
    "C108_balanced"
   ],
   "note": "Over R. Includes set_params, any dt, flexure and (well-behaved) compaction."
  },
  {
   "property": "C109",
   "status": "partial",
   "theorems": [
    "C109_refuted",
    "C109_no_effect_partial"
   ],
   "note": "Refuted: sand_density, mud_density and water_density of the flexure and sea_level of the fluvial process never change anything a user can see, in any configuration, arithmetic or history (C109_no_effect_partial). Missing: which other parameters matter; shown for isostasytime by example only."
  },
  {
   "property": "C110",
   "status": "partial",
   "theorems": [
    "C110_refuted",
    "C110_only_listed_partial"
   ],
   "note": "Refuted: the pair (fluvial, sediments, hemipelagic) of params_to_match is dead because only the sections of listed processes are read and 'sediments' can not be listed: [sediments] hemipelagic, which the configuration files of tests/ and data/ set, is silently ignored. Partial: only the sections of processes that run are used."
  },
  {
   "property": "C111",
   "status": "partial",
   "theorems": [
    "C111_refuted",
    "C111_reads_which_partial",
    "C111_writes_which_partial",
    "C111_reads_partial",
    "C111_writes_partial"
   ],
   "note": "Refuted: the diffuser uses and writes \"kd\", the river reads the pending bedrock increment, the flexure uses and writes two lithosphere fields and the shoreline finder reads the deposit thickness without declaring them. Proved: exactly for which classes the claim holds, and the claim for every class once these fields are added."
  },
  {
   "property": "C112",
   "status": "proved",
   "theorems": [
    "C112_order"
   ],
   "note": "Errors are compared as errors only: the two orders may raise different exceptions in the same call. The models are compared from the same created processes."
  },
  {
   "property": "C113",
   "status": "partial",
   "theorems": [
    "C113_refuted",
    "C113_partial"
   ],
   "note": "Refuted: run_one_step(dt) with a dt other than the clock's step moves the sea level by dt but the time of the model by the clock's step (landlab's TimeStepper, as recalled). Proved for steps of the clock's length and set_params other than the component's time; the classes that are not modelled are assumed to leave the sea level alone."
  },
  {
   "property": "C114",
   "status": "proved",
   "theorems": [
    "C114_steps",
    "C114_sum"
   ],
   "note": "Compact and WaterFlexure, which are not modelled, are assumed to leave the bedrock and its increment alone (true of Compact, not of WaterFlexure, which this excludes)."
  },
  {
   "property": "C115",
   "status": "proved",
   "theorems": [
    "C115_order",
    "C115_layer"
   ],
   "note": "The order in any arithmetic, the layer over the reals. leaves_counts: a step of the classes that are not modelled (the compaction package, WaterFlexure) keeps the number of layers of every cell."
  },
  {
   "property": "C116",
   "status": "proved",
   "theorems": [
    "C116_assigns",
    "C116_unlisted"
   ],
   "note": "Any arithmetic. The model keeps no changes of a set_params that raises: what remains of it after the exception is not stated."
  },
  {
   "property": "C117",
   "status": "partial",
   "theorems": [
    "C117_refuted",
    "C117_own_refuted",
    "C117_line_partial",
    "C117_config_partial",
    "C117_class"
   ],
   "note": "Refuted as stated, twice: setup writes isostasytime 0 where the constructor has 7000 (C117_refuted), and a constructor's own default written out overrides what the neighbouring process shares (C117_own_refuted). Proved: a line with the constructor's default of a parameter that is not shared changes nothing (C117_line_partial), configurations that say the same make the same model (C117_config_partial), and so does each constructor (C117_class). Not covered: models with water_flexure (its constructor is an arbitrary function), arithmetic in which a value can differ from itself (NaN)."
  },
  {
   "property": "C118",
   "status": "partial",
   "theorems": [
    "C118_class_partial",
    "C118_refuses",
    "C118_handed",
    "C118_fails_partial",
    "C118_makes",
    "C118_typo"
   ],
   "note": "Over the reals. The error is one of the reasons that hold; when several hold, which one is reported is not stated. Compact and WaterFlexure are arbitrary functions that may refuse anything. The partial theorems leave out sections with the kind of an interpolation and with the keywords that SubmarineDiffuser passes on to the LinearDiffuser of landlab, whose use is not modelled; the others do not need that."
  },
  {
   "property": "C119",
   "status": "proved",
   "theorems": [
    "C119_process",
    "C119_read_only",
    "C119_model",
    "C119_time"
   ],
   "note": "C119_process and C119_read_only in any arithmetic, C119_model and C119_time over the reals. The numbers that a keyword sets and an attribute holds, for the classes of the package: the files of sea_level and subsidence, the sea level of the diffuser (which is the one of the grid) and attributes of landlab are not among them."
  },
  {
   "property": "C120",
   "status": "proved",
   "theorems": [
    "C120_numbers",
    "C120_ragged",
    "C120_layout",
    "C120_refused"
   ],
   "note": "Numbers are exact: the rounding of a decimal to a double is not modelled. numpy.loadtxt is modelled from its documentation and behaviour (numpy 1.23 and later). Fields inf and nan, and lines of blanks only, are left out of C120_refused."
  },
  {
   "property": "C121",
   "status": "proved",
   "theorems": [
    "C121_same",
    "C121_stream",
    "C121_files",
    "C121_means",
    "C121_refused",
    "C121_not_config",
    "C121_run"
   ],
   "note": "The YAML and TOML libraries are arbitrary functions from texts to values, so nothing is assumed of them. A _time that is not a number is an error in the model when the file is read; in Python when it is compared with another."
  },
  {
   "property": "C122",
   "status": "partial",
   "theorems": [
    "C122_refuted",
    "C122_yaml_refuted",
    "C122_toml_partial",
    "C122_yaml_partial",
    "C122_setup_partial"
   ],
   "note": "Refuted for YAML, for the actual defaults and whatever options: yaml.dump tags tuples and safe_load refuses the tag. What the libraries do with tuples and other values is a hypothesis of the theorems, shown beside them to be satisfiable. Proved for TOML, for YAML without tuples, and that setup writes what generate prints."
  },
  {
   "property": "C123",
   "status": "partial",
   "theorems": [
    "C123_refuted",
    "C123_array_refuted",
    "C123_partial"
   ],
   "note": "Refuted for files with an array of tables, which is what dump writes; proved for one table."
  },
  {
   "property": "C124",
   "status": "partial",
   "theorems": [
    "C124_refuted",
    "C124_exact_partial",
    "C124_drift_partial",
    "C124_inside_partial",
    "C124_any",
    "C124_stuck",
    "C124_forward"
   ],
   "note": "Refuted as stated (start 0, stop 0.3, step 0.1 makes two rounds). Proved for clocks whose numbers are exact in binary, and with an explicit bound of the drift for all doubles whose step is not lost. Missing for the full claim: it is false."
  },
  {
   "property": "C125",
   "status": "partial",
   "theorems": [
    "C125_refuted",
    "C125_balance_partial",
    "C125_stack",
    "C125_model",
    "C125_sequence"
   ],
   "note": "Refuted as stated (0.1 and 0.2 merge into 0.30000000000000004). Proved up to an explicit rounding bound for up to 2^25 operations moving up to 2^1000 of sediment, and that no layer is ever below zero for any doubles. Missing for the full claim: it is false."
  },
  {
   "property": "C126",
   "status": "proved",
   "theorems": [
    "C126_ages"
   ],
   "note": "For runs that end, with components that keep the shapes of the grid and leave its layers alone (as all components of the project do)."
  },
  {
   "property": "C127",
   "status": "partial",
   "theorems": [
    "C127_refuted",
    "C127_exact_partial",
    "C127_drift_partial"
   ],
   "note": "Refuted as stated (run(until=2.2, dt=0.1) ends with a step of length 0). Proved for numbers that are exact in binary and, for any doubles, up to explicit rounding bounds, for at most 2^49 steps and times up to 2^960. Missing for the full claim: it is false."
  },
  {
   "property": "C128",
   "status": "proved",
   "theorems": [
    "C128_never_raises",
    "C128_assumptions",
    "C128_fields",
    "C128_balanced"
   ],
   "note": "For plate solvers that return a deflection for every node, and for any Compact class that keeps the shapes of the grid and removes no fields."
  },
  {
   "property": "C129",
   "status": "partial",
   "theorems": [
    "C129_refuted",
    "C129_partial",
    "C129_still_sea_partial"
   ],
   "note": "Refuted as stated (the sea level rises by 0.1 in the example and 0.1 is missing). Proved with the new sea level on both sides, and as stated when the sea level does not move, for all columns but the first (which is under no cell and is rewritten by SubmarineDiffuser). Missing for the full claim: it is false."
  },
  {
   "property": "C130",
   "status": "partial",
   "theorems": [
    "C130_refuted",
    "C130_partial"
   ],
   "note": "Refuted in doubles: the value may pass the second line by a rounding. Proved: exact at the lines, never past the first line, within 2^-49 of the larger value (plus 2^-950) of the straight line, refused exactly outside the table. Missing: tables with numbers above 2^100 or positions less than 2^-100 apart, where the slope may overflow; infinities and NaN in a table."
  },
  {
   "property": "C131",
   "status": "partial",
   "theorems": [
    "C131_refuted",
    "C131_partial",
    "C131_tables"
   ],
   "note": "Refuted in doubles; proved up to 2^-52 of the sum of the sizes of the increments, for every history. C131_tables: every table of doubles qualifies. Missing: sin of the sinusoidal curve is not modelled in doubles, so that the sinusoidal curve has to be assumed to give numbers of at most 2^1000."
  },
  {
   "property": "C132",
   "status": "partial",
   "theorems": [
    "C132_refuted",
    "C132_partial",
    "C132_owed",
    "C132_surface"
   ],
   "note": "Refuted by a rational run whose plate bends at once: the bedrock lags the load by one step. Proved over the reals for every history: start, subsidence, deflection under the load at the beginning of the last step, less what is owed; what is owed, step by step (C132_owed); the surface (C132_surface). Assumed of the plate solver of landlab: it is linear. Missing: the load of the last step, and changes of the parameters of the plate during the run."
  },
  {
   "property": "C133",
   "status": "partial",
   "theorems": [
    "C133_refuted",
    "C133_partial",
    "C133_tables"
   ],
   "note": "C133_statement: the bedrock is exactly the start plus the rates times the lengths of the steps, in doubles; C133_refuted: one step of 0.1. C133_partial: for whole configured models with any history, it is within steps/2^51 of the distance travelled (plus 2^-1000 per step) and is a number; boundary rows do not move. C133_tables: tables of doubles give rates that are numbers. Missing: models with flexure, whose plate solver is not modelled."
  },
  {
   "property": "C134",
   "status": "partial",
   "theorems": [
    "C134_refuted",
    "C134_partial",
    "C134_step"
   ],
   "note": "C134_statement: delivered plus owed is exactly what was given, in doubles; C134_refuted: two steps, 1 and then 0.1. C134_partial: up to steps/2^51 of the sizes given, and all are numbers. C134_step: what a step delivers and leaves is between nothing and all. exp is assumed to be between 0 and 1 below zero; the exact statement over the reals is C15."
  },
  {
   "property": "C135",
   "status": "partial",
   "theorems": [
    "C135_refuted",
    "C135_partial",
    "C135_reasons",
    "C135_refuses",
    "C135_model",
    "C135_typo"
   ],
   "note": "Refuted: WaterFlexure documents water_density and has no such parameter, so that it reaches landlab as an unknown keyword (TypeError). Partial: the other documented numbers are taken, and the reasons for a refusal are exactly three; method, also a parameter of Flexure1D, is refused because it is already given. Over the reals; the checks that Flexure1D itself makes of its numbers are not modelled."
  }
 ]
}
