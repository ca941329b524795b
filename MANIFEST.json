{
 "claims": [
  {
   "property": "C01",
   "status": "proved",
   "theorems": [
    "C01_pad_is_nearest",
    "C01_window_defined",
    "C01_window_centre"
   ],
   "note": ""
  },
  {
   "property": "C02",
   "status": "proved",
   "theorems": [
    "C02_round_trip",
    "C02_round_trip_back",
    "C02_injective",
    "C02_unravel_rejects_beyond",
    "C02_ravel_rejects_beyond",
    "C02_end_index_accepted_refuted",
    "C02_end_pair_accepted_refuted",
    "C02_flat_walk"
   ],
   "note": "The accepted one-past-the-end inputs are stated as refutation theorems."
  },
  {
   "property": "C03",
   "status": "proved",
   "theorems": [
    "C03_pick_in_range",
    "C03_pick_positive_weight",
    "C03_pick_positive_weight_exact",
    "C03_pick_interval",
    "C03_zero_draw_refuted"
   ],
   "note": "Positivity of the picked weight is exact-arithmetic for every non-zero draw; in rounded arithmetic it needs the rounded product to stay positive (hypothesis)."
  },
  {
   "property": "C04",
   "status": "proved",
   "theorems": [
    "C04_starts_in_inlet"
   ],
   "note": ""
  },
  {
   "property": "C05",
   "status": "proved",
   "theorems": [
    "C05_accepts_exactly",
    "C05_rejects_with_ValueError",
    "C05_increasing",
    "C05_never_shortens",
    "C05_units_consistent",
    "C05_slr_rate"
   ],
   "note": ""
  },
  {
   "property": "C06",
   "status": "proved",
   "theorems": [
    "C06_weights_distribution",
    "C06_weights_rounded",
    "C06_land_cell_zero",
    "C06_array",
    "C06_gamma_above_one_refuted"
   ],
   "note": "Non-negativity and no weight on land hold for every monotone rounding; the sum being one is exact arithmetic. gamma > 1 refuted with a binary64 witness."
  },
  {
   "property": "C07",
   "status": "proved",
   "theorems": [
    "C07_dry_and_centre_excluded"
   ],
   "note": ""
  },
  {
   "property": "C08",
   "status": "proved",
   "theorems": [
    "C08_step_stays_inside",
    "C08_all_paths_inside",
    "C08_first_row_escape_refuted",
    "C08_positive_picks_exact"
   ],
   "note": "First-row escape is the third alternative of the theorem and is exhibited by a binary64 run."
  },
  {
   "property": "C09",
   "status": "proved",
   "theorems": [
    "C09_terminates",
    "C09_retired_never_return",
    "C09_retired_add_nothing"
   ],
   "note": ""
  },
  {
   "property": "C10",
   "status": "proved",
   "theorems": [
    "C10_record_grows_in_time",
    "C10_small_stepmax_refuted"
   ],
   "note": ""
  },
  {
   "property": "C11",
   "status": "proved",
   "theorems": [
    "C11_step_budget",
    "C11_iteration_budget"
   ],
   "note": "Exact arithmetic."
  },
  {
   "property": "C12",
   "status": "proved",
   "theorems": [
    "C12_jump",
    "C12_loop_correction",
    "C12_centre_line_refuted"
   ],
   "note": ""
  },
  {
   "property": "C13",
   "status": "proved",
   "theorems": [
    "C13_surface_above_sea_and_bed",
    "C13_paths_usable"
   ],
   "note": ""
  },
  {
   "property": "C14",
   "status": "proved",
   "theorems": [
    "C14_maximum_principle",
    "C14_edges_unchanged",
    "C14_flat_unchanged",
    "C14_coefficient_above_one_refuted"
   ],
   "note": "Maximum principle in exact arithmetic; boundary cells for every rounding."
  },
  {
   "property": "C15",
   "status": "proved",
   "theorems": [
    "C15_flooding_formula",
    "C15_shore_cells_flooded",
    "C15_only_shore_cells_raised",
    "C15_raised_value",
    "C15_order_independent",
    "C15_zero_stage_refuted"
   ],
   "note": "The value clause is for cells away from the grid border; the changes clause is for all cells."
  },
  {
   "property": "C16",
   "status": "proved",
   "theorems": [
    "C16_levels_after_iteration",
    "C16_levels_after_routing",
    "C16_routing_never_fails"
   ],
   "note": "Levels for every monotone rounding; totality in exact arithmetic for any generator with variates in (0,1)."
  },
  {
   "property": "C17",
   "status": "proved",
   "theorems": [
    "C17_speed_formula",
    "C17_flow_consistent",
    "C17_speed_bounds"
   ],
   "note": "Bounds for every rounding; direction, magnitude and speed*depth <= discharge in exact arithmetic."
  },
  {
   "property": "C18",
   "status": "proved",
   "theorems": [
    "C18_relaxation"
   ],
   "note": ""
  },
  {
   "property": "C19",
   "status": "proved",
   "theorems": [
    "C19_weights_rounded",
    "C19_weights_distribution"
   ],
   "note": "Non-negativity, zeros and the error clause for every monotone rounding; sum one in exact arithmetic."
  },
  {
   "property": "C20",
   "status": "proved",
   "theorems": [
    "C20_parcel_budget",
    "C20_bed_volume_budget",
    "C20_step_budget"
   ],
   "note": "Exact arithmetic; per parcel, per grain and per step (with the diffusion term of C26)."
  },
  {
   "property": "C21",
   "status": "proved",
   "theorems": [
    "C21_changes_limited",
    "C21_bed_stays_below_water"
   ],
   "note": "Exact arithmetic."
  },
  {
   "property": "C22",
   "status": "proved",
   "theorems": [
    "C22_loads_nonnegative",
    "C22_deposit_records_grow",
    "C22_lag_above_one_refuted"
   ],
   "note": "Exact arithmetic; lag above one refuted by a theorem and a binary64 walk."
  },
  {
   "property": "C23",
   "status": "proved",
   "theorems": [
    "C23_fields_consistent",
    "C23_speed_and_depth_bounds"
   ],
   "note": "For every monotone rounding."
  },
  {
   "property": "C24",
   "status": "proved",
   "theorems": [
    "C24_routing_completes",
    "C24_sediment_step_completes",
    "C24_walks",
    "C24_escape",
    "C24_zero_threshold_fails"
   ],
   "note": "Completion and walks for every monotone rounding (with positive picks); the escape clause in exact arithmetic with unmodified weights below the cell."
  },
  {
   "property": "C25",
   "status": "proved",
   "theorems": [
    "C25_parcel_split"
   ],
   "note": "Exact arithmetic; shortfall characterised and exhibited."
  },
  {
   "property": "C26",
   "status": "proved",
   "theorems": [
    "C26_fixed_cells",
    "C26_no_flux_no_change",
    "C26_cell_budget",
    "C26_region_budget",
    "C26_passes"
   ],
   "note": "Fixed cells for every rounding on representable beds; budgets exact; non-conservation exhibited in binary64."
  },
  {
   "property": "C27",
   "status": "proved",
   "theorems": [
    "C27_fractions_stay_in_unit_interval",
    "C27_boundary_value_until_first_deposit"
   ],
   "note": ""
  },
  {
   "property": "C28",
   "status": "proved",
   "theorems": [
    "C28_sand_fraction_update_rule"
   ],
   "note": ""
  },
  {
   "property": "C29",
   "status": "proved",
   "theorems": [
    "C29_subsidence",
    "C29_first_subsiding_step",
    "C29_rate_kept",
    "C29_rate_after_assignment",
    "C29_velocity_keeps_rate_refuted"
   ],
   "note": "Exact arithmetic. The clause that attribute changes keep the rate is proved for the time step and refuted for the inlet attributes (C29_velocity_keeps_rate_refuted)."
  },
  {
   "property": "C30",
   "status": "proved",
   "theorems": [
    "C30_end_of_step",
    "C30_depth_non_negative",
    "C30_updates_never_fail",
    "C30_stage_below_reported_sea_level"
   ],
   "note": ""
  },
  {
   "property": "C31",
   "status": "proved",
   "theorems": [
    "C31_clock_and_sea_level"
   ],
   "note": ""
  },
  {
   "property": "C32",
   "status": "proved",
   "theorems": [
    "C32_life_cycle",
    "C32_finalized_iff_called"
   ],
   "note": "Every arithmetic. An update that raises part way may leave any fields behind."
  },
  {
   "property": "C33",
   "status": "proved",
   "theorems": [
    "C33_schedule_of_a_run",
    "C33_save_schedule",
    "C33_record_shows_the_model"
   ],
   "note": ""
  },
  {
   "property": "C34",
   "status": "proved",
   "theorems": [
    "C34_schedule_of_a_run",
    "C34_checkpoint_schedule",
    "C34_no_checkpoint_when_off",
    "C34_checkpoint_holds_the_model"
   ],
   "note": ""
  },
  {
   "property": "C35",
   "status": "proved",
   "theorems": [
    "C35_resume_continues_the_trajectory",
    "C35_checkpoint_of_a_run"
   ],
   "note": "Every arithmetic and generator; needs the save interval not to be NaN. The output file is modelled as present or missing."
  },
  {
   "property": "C36",
   "status": "proved",
   "theorems": [
    "C36_same_records_when_whole",
    "C36_first_update_writes_a_checkpoint",
    "C36_next_record_at_most_one_step_late",
    "C36_record_can_be_late"
   ],
   "note": "Same records for every arithmetic when the elapsed time is whole; lateness bound and the late witness in exact arithmetic."
  },
  {
   "property": "C37",
   "status": "proved",
   "theorems": [
    "C37_data_survive_a_crash_while_resuming",
    "C37_completed_resume",
    "C37_unreadable_files_are_left_alone",
    "C37_resuming_twice_refuted",
    "C37_resuming_three_times_refuted",
    "C37_checkpoint_crash_points",
    "C37_a_readable_checkpoint_remains_refuted"
   ],
   "note": "The two negative halves of the claim are the _refuted witnesses."
  },
  {
   "property": "C38",
   "status": "proved",
   "theorems": [
    "C38_seed_determines_the_run",
    "C38_recorded_seed_repeats_the_run"
   ],
   "note": "For every arithmetic and generator."
  },
  {
   "property": "C39",
   "status": "proved",
   "theorems": [
    "C39_resolution",
    "C39_unknown_keys_have_no_effect",
    "C39_attributes",
    "C39_defaults_run"
   ],
   "note": ""
  },
  {
   "property": "C40",
   "status": "proved",
   "theorems": [
    "C40_accepted_types",
    "C40_null_always_rejected",
    "C40_declared_null_refuted",
    "C40_types_are_exact",
    "C40_empty_file_rejected"
   ],
   "note": "Acceptance exactly by type proved; an explicit null is always rejected (C40_null_always_rejected), so parameters declared nullable cannot be set to null (C40_declared_null_refuted)."
  },
  {
   "property": "C41",
   "status": "proved",
   "theorems": [
    "C41_setters_accept_exactly_their_range",
    "C41_configuration_stored_or_rejected",
    "C41_nan_is_accepted"
   ],
   "note": "For every monotone rounding; NaN passes the checks (binary64 theorem). Zero/negative velocity, depth and concentration zero are accepted."
  },
  {
   "property": "C42",
   "status": "proved",
   "theorems": [
    "C42_construction_outcome",
    "C42_sizes_and_time_step",
    "C42_negative_velocity_gives_negative_time_step"
   ],
   "note": "Exact arithmetic."
  },
  {
   "property": "C43",
   "status": "proved",
   "theorems": [
    "C43_layout",
    "C43_initial_fields",
    "C43_ocean_exists_iff",
    "C43_small_grids_have_no_ocean"
   ],
   "note": "Exact arithmetic; layout needs at least 5 columns."
  },
  {
   "property": "C44",
   "status": "proved",
   "theorems": [
    "C44_selection_follows_switches",
    "C44_starts_empty",
    "C44_velocity_figure_refuted",
    "C44_construction",
    "C44_records",
    "C44_late_grid_refuted"
   ],
   "note": "Proved for every sequence that does not switch the velocity figure off while on; that case and late grids are refuted with full characterisations."
  },
  {
   "property": "C45",
   "status": "proved",
   "theorems": [
    "C45_round_trip",
    "C45_channel_width_rounded_and_clamped",
    "C45_concentration_reads_hundredfold",
    "C45_other_attributes_unchanged",
    "C45_inlet_quantities_follow",
    "C45_values_taken",
    "C45_fields_unchanged"
   ],
   "note": "Round trip for every arithmetic; inlet quantities, width and concentration in exact arithmetic, for every model reached by updates and assignments."
  },
  {
   "property": "C46",
   "status": "proved",
   "theorems": [
    "C46_matrix_jobs",
    "C46_accepted_iff",
    "C46_job_files",
    "C46_table"
   ],
   "note": ""
  },
  {
   "property": "C47",
   "status": "proved",
   "theorems": [
    "C47_set_jobs",
    "C47_set_accepted",
    "C47_set_table_refuted",
    "C47_ensemble_of_set",
    "C47_ensemble_of_matrix",
    "C47_ensemble_of_one",
    "C47_ensemble_refused",
    "C47_fixed_seed_refused",
    "C47_set_and_matrix_refused",
    "C47_shared_folder_when_resuming"
   ],
   "note": ""
  },
  {
   "property": "C48",
   "status": "proved",
   "theorems": [
    "C48_end_time",
    "C48_no_duration",
    "C48_least_number_of_updates",
    "C48_least_number_from_any_start",
    "C48_timesteps_are_updates",
    "C48_jobs_complete",
    "C48_timesteps_are_updates_refuted"
   ],
   "note": "The binary64 deviation in the statement is C48_timesteps_are_updates_refuted."
  },
  {
   "property": "C49",
   "status": "proved",
   "theorems": [
    "C49_arguments_over_file",
    "C49_something_must_be_given",
    "C49_single_job_prefers_the_file",
    "C49_single_job_model_ignores_arguments",
    "C49_arguments_reach_every_job"
   ],
   "note": ""
  },
  {
   "property": "C50",
   "status": "proved",
   "theorems": [
    "C50_alone",
    "C50_parallel",
    "C50_first_serial_job_has_the_last_seed",
    "C50_serial_jobs_as_alone_refuted"
   ],
   "note": "The serial sharing in the statement is C50_serial_jobs_as_alone_refuted."
  },
  {
   "property": "C51",
   "status": "proved",
   "theorems": [
    "C51_mode",
    "C51_refusals",
    "C51_slots",
    "C51_never_more_than_the_slots",
    "C51_schedules_end",
    "C51_all_jobs_run",
    "C51_construction_failure",
    "C51_codes_of_runs"
   ],
   "note": "A put on the queue is one step; construction, run and finalization of a job have any outcome but always end."
  },
  {
   "property": "C52",
   "status": "proved",
   "theorems": [
    "C52_ends_of_a_job",
    "C52_remaining_jobs",
    "C52_all_jobs_finalized",
    "C52_run_again",
    "C52_construction_failure_stops_all"
   ],
   "note": ""
  },
  {
   "property": "C53",
   "status": "proved",
   "theorems": [
    "C53_jobs_keep_what_exists",
    "C53_existing_root_refused",
    "C53_existing_output_refused",
    "C53_output_created",
    "C53_nothing_saved_nothing_touched",
    "C53_existing_checkpoint_kept_refuted"
   ],
   "note": "The checkpoint of an earlier run is replaced without the switch (C53_existing_checkpoint_kept_refuted)."
  },
  {
   "property": "C54",
   "status": "proved",
   "theorems": [
    "C54_update",
    "C54_updates",
    "C54_construction",
    "C54_refused",
    "C54_watching_hooks"
   ],
   "note": ""
  },
  {
   "property": "C55",
   "status": "proved",
   "theorems": [
    "C55_sand_rules",
    "C55_mud_rules"
   ],
   "note": "Exact arithmetic."
  },
  {
   "property": "C56",
   "status": "proved",
   "theorems": [
    "C56_runnable_configurations_run"
   ],
   "note": "Exact arithmetic."
  },
  {
   "property": "C57",
   "status": "proved",
   "theorems": [
    "C57_values_no_attribute_updates",
    "C57_inlet_cells_as_configured",
    "C57_time_step_and_sediment_feed",
    "C57_bedload_fraction_not_passed_on"
   ],
   "note": "Exact arithmetic; constants for every model reached by updates and assignments."
  },
  {
   "property": "C58",
   "status": "proved",
   "theorems": [
    "C58_sequential_figures_distinct",
    "C58_latest_figures"
   ],
   "note": ""
  },
  {
   "property": "C59",
   "status": "proved",
   "theorems": [
    "C59_water_rule",
    "C59_sediment_rule"
   ],
   "note": ""
  },
  {
   "property": "C60",
   "status": "proved",
   "theorems": [
    "C60_surface_is_the_mean_of_path_levels"
   ],
   "note": ""
  },
  {
   "property": "C61",
   "status": "proved",
   "theorems": [
    "C61_new_stage",
    "C61_smoothing_pass"
   ],
   "note": ""
  },
  {
   "property": "C62",
   "status": "proved",
   "theorems": [
    "C62_fields_of_an_iteration"
   ],
   "note": ""
  },
  {
   "property": "C63",
   "status": "proved",
   "theorems": [
    "C63_routers_follow_the_rules",
    "C63_ledgers",
    "C63_sediment_step"
   ],
   "note": ""
  },
  {
   "property": "C64",
   "status": "proved",
   "theorems": [
    "C64_turn_by_the_rules",
    "C64_turns_by_the_rules"
   ],
   "note": ""
  },
  {
   "property": "C65",
   "status": "proved",
   "theorems": [
    "C65_time_step_by_the_rules"
   ],
   "note": ""
  },
  {
   "property": "C66",
   "status": "proved",
   "theorems": [
    "C66_one_choice_per_variate",
    "C66_water_variates",
    "C66_sediment_variates"
   ],
   "note": ""
  },
  {
   "property": "C67",
   "status": "proved",
   "theorems": [
    "C67_file_shows_the_run",
    "C67_entries_are_kept"
   ],
   "note": ""
  },
  {
   "property": "C68",
   "status": "proved",
   "theorems": [
    "C68_resumed_file",
    "C68_interrupted_and_resumed",
    "C68_missing_file"
   ],
   "note": ""
  },
  {
   "property": "C69",
   "status": "proved",
   "theorems": [
    "C69_config_reads_back",
    "C69_written_twice",
    "C69_scientific_notation",
    "C69_parameter_names",
    "C69_job_folder_reads_back",
    "C69_job_files_hold_the_jobs",
    "C69_other_texts_refuted"
   ],
   "note": ""
  },
  {
   "property": "C70",
   "status": "proved",
   "theorems": [
    "C70_file_when_something_saved",
    "C70_coordinates",
    "C70_metadata_describe_the_domain",
    "C70_subsidence_metadata",
    "C70_legacy_coordinates",
    "C70_legacy_metres_refuted",
    "C70_grid_units",
    "C70_discharge_units_refuted"
   ],
   "note": "C70_legacy_metres_refuted and C70_discharge_units_refuted state where labels and contents disagree, as the property says."
  },
  {
   "property": "C71",
   "status": "proved",
   "theorems": [
    "C71_options",
    "C71_same_as_python",
    "C71_options_reach_every_job",
    "C71_dry_run_is_the_option",
    "C71_dry_run_of_the_file_refuted",
    "C71_duration_without_file",
    "C71_timesteps_decide",
    "C71_time_overrides_refuted"
   ],
   "note": "C71_time_overrides_refuted and C71_dry_run_of_the_file_refuted are the exceptions in the statement."
  },
  {
   "property": "C72",
   "status": "proved",
   "theorems": [
    "C72_mirror_images_exist",
    "C72_water_weights_mirrored",
    "C72_sediment_weights_mirrored",
    "C72_run_mirrored",
    "C72_new_model_mirrored",
    "C72_basin_off_centre_refuted",
    "C72_inlet_centred_iff",
    "C72_binary64_weights_refuted"
   ],
   "note": "Exact arithmetic; the run needs land at the two ends of the upstream row, which every runnable new model has. C72_basin_off_centre_refuted, C72_inlet_centred_iff and C72_binary64_weights_refuted are the exceptions in the statement."
  },
  {
   "property": "C73",
   "status": "proved",
   "theorems": [
    "C73_updates_unchanged",
    "C73_new_models_unchanged",
    "C73_output_settings_do_not_change_the_run",
    "C73_outputs_show_the_same_run"
   ],
   "note": "Holds for every arithmetic, binary64 included. The settings must pass configuration (an unacceptable value of an output setting still raises)."
  },
  {
   "property": "C74",
   "status": "proved",
   "theorems": [
    "C74_attribute_shown_iff",
    "C74_points_drawn_at_their_cells",
    "C74_bad_point_stops",
    "C74_lines_through_their_cells",
    "C74_one_line_for_each_column",
    "C74_line_of_pairs_transposed_refuted",
    "C74_line_from_list_refuted",
    "C74_list_of_tables",
    "C74_points_outside_drawn_refuted"
   ],
   "note": "C74_line_of_pairs_transposed_refuted, C74_line_from_list_refuted and C74_points_outside_drawn_refuted are the exceptions in the statement. Matplotlib calls are represented by the coordinates they receive."
  },
  {
   "property": "C75",
   "status": "proved",
   "theorems": [
    "C75_bed_changes_where_sediment_goes",
    "C75_diffusion_averages_neighbours",
    "C75_diffusion_stays_in_range",
    "C75_level_bed_drifts_at_border_refuted"
   ],
   "note": "Exact arithmetic. C75_level_bed_drifts_at_border_refuted and the example C75_large_flux_overshoots_refuted are the exceptions in the statement. That fluxes are not negative and gentle is a hypothesis of the averaging theorems."
  },
  {
   "property": "C76",
   "status": "proved",
   "theorems": [
    "C76_one_value",
    "C76_value_unique",
    "C76_operations",
    "C76_same_paths",
    "C76_iteration_completes",
    "C76_water_routed",
    "C76_routing_completes",
    "C76_weights_rounded",
    "C76_pick_in_range",
    "C76_huge_surface_refuted",
    "C76_new_model",
    "C76_first_routing"
   ],
   "note": "C76_huge_surface_refuted is the exception in the statement. Covers the construction and route_water as a whole; the rest of an update in binary64 (sediment routing, diffusion) is covered by the operation theorem only."
  },
  {
   "property": "C77",
   "status": "proved",
   "theorems": [
    "C77_logging_is_passive",
    "C77_verbosity_only_adds_lines",
    "C77_two_is_most",
    "C77_one_time_line_per_update",
    "C77_times_of_a_run",
    "C77_times_of_a_run_exact",
    "C77_output_is_announced",
    "C77_warning_lines",
    "C77_log_records_the_configuration",
    "C77_seed_line_tells_the_seed",
    "C77_negative_verbosity_refuted",
    "C77_log_of_a_resumed_model",
    "C77_seed_of_a_resumed_model_refuted",
    "C77_log_of_a_finalized_model",
    "C77_initializing_water_lines_refuted",
    "C77_step_numbers",
    "C77_step_numbers_beyond_a_million_refuted",
    "C77_step_numbers_beyond_a_million",
    "C77_own_log_file",
    "C77_same_second_refuted"
   ],
   "note": "The theorems ending in _refuted, C77_log_of_a_finalized_model and the last part of the statement are the exceptions. Log lines of the preprocessor are not covered."
  },
  {
   "property": "C78",
   "status": "proved",
   "theorems": [
    "C78_raised_states_exist",
    "C78_same_water_paths",
    "C78_water_routing",
    "C78_sand_and_mud",
    "C78_diffusion_exact",
    "C78_diffusion_inside",
    "C78_level_bed_moves_at_rim",
    "C78_run",
    "C78_run_without_diffusion",
    "C78_flooding_below_zero_refuted",
    "C78_configured_sea_level_moves_only_the_sea",
    "C78_new_model_levels"
   ],
   "note": "Over the reals: in binary64 a shift changes the rounding. The theorem ending in _refuted and C78_level_bed_moves_at_rim are the exceptions."
  },
  {
   "property": "C79",
   "status": "proved",
   "theorems": [
    "C79_run_has_an_account",
    "C79_accounts_balance",
    "C79_delivered",
    "C79_sunk",
    "C79_no_diffusion",
    "C79_bed_gains_at_most_the_supply"
   ],
   "note": "Over the reals. The case of a share of sand that is not whole (C79_delivered, second part) is a finding: the two casts to int lose one parcel of every update."
  },
  {
   "property": "C80",
   "status": "proved",
   "theorems": [
    "C80_jobs_do_what_they_say",
    "C80_edited_files",
    "C80_deleted_files",
    "C80_edited_duration_refuted",
    "C80_every_combination",
    "C80_every_member",
    "C80_output_files"
   ],
   "note": "Over the reals, jobs run in parallel processes; for jobs run one after the other in one process it is false (C50_serial_jobs_as_alone_refuted)."
  },
  {
   "property": "C81",
   "status": "proved",
   "theorems": [
    "C81_parallel_as_serial",
    "C81_same_files",
    "C81_resumed_job_continues",
    "C81_duration_starts_again"
   ],
   "note": "same_point compares everything that decides the further evolution; the timing of records is C36."
  },
  {
   "property": "C82",
   "status": "proved",
   "theorems": [
    "C82_acts_as_configured",
    "C82_before_the_first_update",
    "C82_no_effect",
    "C82_configured_it_counts",
    "C82_refused",
    "C82_pending",
    "C82_never",
    "C82_acts_in_part",
    "C82_parcels_change_the_supply"
   ],
   "note": "Not covered: domain size, cell size, u0, h0, number of water parcels, stepmax, If, toggle_subsidence and directories; figure and grid switches are C44."
  },
  {
   "property": "C83",
   "status": "proved",
   "theorems": [
    "C83_any_model",
    "C83_models",
    "C83_runs",
    "C83_concentration_alone",
    "C83_speed_on_a_slope"
   ],
   "note": "Exact arithmetic only: with rounding the factors must be powers of two and no value may under- or overflow, which is not proved."
  },
  {
   "property": "C84",
   "status": "proved",
   "theorems": [
    "C84_one_run",
    "C84_every_folder",
    "C84_begin",
    "C84_go_on",
    "C84_branch",
    "C84_other_folders",
    "C84_refusals",
    "C84_whole_time_steps",
    "C84_branch_again_refuted",
    "C84_start_of_a_branch_refuted"
   ],
   "note": "The theorems ending in _refuted are the two exceptions of the statement. An interruption loses a suffix of the outputs; interruptions while a model is being made, or halfway through writing a record or checkpoint, are C37. Folders are compared by name. clobber_netcdf is off and the same configuration is used throughout."
  },
  {
   "property": "C85",
   "status": "proved",
   "theorems": [
    "C85_what_comes_from_where",
    "C85_constants_exchanged",
    "C85_as_assigned",
    "C85_counts_when_resuming",
    "C85_seed_and_output_do_not_matter",
    "C85_never_fails",
    "C85_wider_inlet_refuted"
   ],
   "note": "C85_wider_inlet_refuted is the exception of the statement. Grids are functions, so a checkpoint of a grid of another size is not refused in the model; numpy would broadcast or raise later. C85_as_assigned compares with C82's apply_change; C85_counts_when_resuming lists the constants for exact arithmetic."
  },
  {
   "property": "C86",
   "status": "proved",
   "theorems": [
    "C86_any_model",
    "C86_models",
    "C86_runs",
    "C86_sand_fraction",
    "C86_sand_fraction_refuted",
    "C86_heights_refuted"
   ],
   "note": "Exact arithmetic only. C86_sand_fraction_refuted and C86_heights_refuted are the two exceptions in the statement. C86_sand_fraction is stated per update because its condition is about the mud of that update."
  },
  {
   "property": "C87",
   "status": "proved",
   "theorems": [
    "C87_end_of_step",
    "C87_schedule",
    "C87_layout",
    "C87_changes_between_updates",
    "C87_resume",
    "C87_bedload_class_resumes",
    "C87_velocity_class_resumes",
    "C87_routers_keep_their_constants",
    "C87_sediment_has_the_constants_of_the_routers",
    "C87_old_names"
   ],
   "note": "C87_documented_velocity_refuted: the documented recipe for a changing velocity calls create_boundary_conditions only, so sediment is routed with the old constants. C87_own_counter_refuted: an attribute of the class is not saved. C87_late_bed_refuted: why late hooks must leave the levels alone."
  },
  {
   "property": "C88",
   "status": "proved",
   "theorems": [
    "C88_only_the_domain_matters",
    "C88_what_an_update_looks_at",
    "C88_checkpoints"
   ],
   "note": "Where the code would index outside an array the model has an exception; C88 says that no value from there enters. Compiled code does not check indices: that the exceptions do not occur is C30 (updates of a ready model never fail)."
  },
  {
   "property": "C89",
   "status": "proved",
   "theorems": [
    "C89_mud_only_ignores_sand_settings",
    "C89_sand_only_ignores_mud_settings",
    "C89_mud_only_fractions",
    "C89_sand_only_fractions",
    "C89_mud_only_steps",
    "C89_sand_only_steps"
   ],
   "note": "The number of parcels of each grain is the truncated product of the fraction and the number of parcels, which is 0 exactly only for the fractions 0 and 1 (or too few parcels). The fraction of the undisturbed bed is assumed to be a representable number."
  },
  {
   "property": "C90",
   "status": "proved",
   "theorems": [
    "C90_smoothing_switched_off",
    "C90_diffusion_switched_off"
   ],
   "note": "Exact arithmetic. Values of Csmooth below zero are refused at construction, which is why both weights are assumed not to be negative."
  }
 ]
}