{
 "claims": [
  {
   "property": "C01",
   "status": "proved",
   "theorems": [
    "C01_completion_exact",
    "C01_keys_exact",
    "C01_caller_not_modified"
   ],
   "note": "lookup characterisation, key set, and heap-level non-modification of the caller's dictionary"
  },
  {
   "property": "C02",
   "status": "proved",
   "theorems": [
    "C02_update_framed"
   ],
   "note": ""
  },
  {
   "property": "C03",
   "status": "proved",
   "theorems": [
    "C03_numpy_int_not_a_number",
    "C03_integer_preindustrial_lost",
    "C03_float_preindustrial_kept"
   ],
   "note": ""
  },
  {
   "property": "C04",
   "status": "proved",
   "theorems": [
    "C04_window_immutable"
   ],
   "note": "equality is python == for values that compare equal to the stored one (e.g. 24 vs 24.0)"
  },
  {
   "property": "C05",
   "status": "proved",
   "theorems": [
    "C05_fresh_and_sticky"
   ],
   "note": ""
  },
  {
   "property": "C06",
   "status": "proved",
   "theorems": [
    "C06_carbon_pams_sticky",
    "C06_complete_set_erases_history",
    "C06_partial_set_depends_on_history",
    "C06_names",
    "C06_defaults"
   ],
   "note": ""
  },
  {
   "property": "C07",
   "status": "proved",
   "theorems": [
    "C07_cfg_decay_functions_ignored"
   ],
   "note": ""
  },
  {
   "property": "C08",
   "status": "proved",
   "theorems": [
    "C08_model_names"
   ],
   "note": ""
  },
  {
   "property": "C09",
   "status": "proved",
   "theorems": [
    "C09_heat_bookkeeping",
    "C09_heat_bookkeeping_year"
   ],
   "note": ""
  },
  {
   "property": "C10",
   "status": "proved",
   "theorems": [
    "C10_imbalance_leads_uptake"
   ],
   "note": ""
  },
  {
   "property": "C11",
   "status": "proved",
   "theorems": [
    "C11_superposition",
    "C11_zero_forcing"
   ],
   "note": ""
  },
  {
   "property": "C12",
   "status": "proved",
   "theorems": [
    "C12_converges_to_equilibrium",
    "C12_explicit_rate",
    "C12_states_are_reported"
   ],
   "note": ""
  },
  {
   "property": "C13",
   "status": "proved",
   "theorems": [
    "C13_feedback_history_free_twolayer",
    "C13_feedback_gated_twolayer",
    "C13_feedback_history_free_udm",
    "C13_year_keeps_feedback_udm"
   ],
   "note": ""
  },
  {
   "property": "C14",
   "status": "proved",
   "theorems": [
    "C14_volcanic_counted_twice",
    "C14_volcanic_counted_once_udm"
   ],
   "note": ""
  },
  {
   "property": "C15",
   "status": "proved",
   "theorems": [
    "C15_ohc_consistent"
   ],
   "note": ""
  },
  {
   "property": "C16",
   "status": "proved",
   "theorems": [
    "C16_system_uniquely_solvable",
    "C16_run_states_refreshed"
   ],
   "note": ""
  },
  {
   "property": "C17",
   "status": "proved",
   "theorems": [
    "C17_substep_heat_conserved",
    "C17_substep_heat_general",
    "C17_year_heat_conserved",
    "C17_reported_capacity_refuted"
   ],
   "note": ""
  },
  {
   "property": "C18",
   "status": "proved",
   "theorems": [
    "C18_no_forcing_no_response"
   ],
   "note": ""
  },
  {
   "property": "C19",
   "status": "proved",
   "theorems": [
    "C19_nonnegative",
    "C19_nonnegative_constant_upwelling",
    "C19_monotone",
    "C19_states_are_reported"
   ],
   "note": ""
  },
  {
   "property": "C20",
   "status": "proved",
   "theorems": [
    "C20_ohc700_exact",
    "C20_ohc700_too_shallow",
    "C20_ohc700_to_bottom"
   ],
   "note": ""
  },
  {
   "property": "C21",
   "status": "proved",
   "theorems": [
    "C21_ramp",
    "C21_mean",
    "C21_substep_uses_dq"
   ],
   "note": ""
  },
  {
   "property": "C22",
   "status": "proved",
   "theorems": [
    "C22_mirror",
    "C22_symmetric_forever"
   ],
   "note": ""
  },
  {
   "property": "C23",
   "status": "proved",
   "theorems": [
    "C23_first_substep_undisturbed",
    "C23_threshold_without_influence"
   ],
   "note": ""
  },
  {
   "property": "C24",
   "status": "proved",
   "theorems": [
    "C24_aggregates",
    "C24_imbalance"
   ],
   "note": ""
  },
  {
   "property": "C25",
   "status": "proved",
   "theorems": [
    "C25_preindustrial_steady"
   ],
   "note": ""
  },
  {
   "property": "C26",
   "status": "proved",
   "theorems": [
    "C26_closure",
    "C26_closure_step"
   ],
   "note": ""
  },
  {
   "property": "C27",
   "status": "proved",
   "theorems": [
    "C27_replay_exact"
   ],
   "note": ""
  },
  {
   "property": "C28",
   "status": "proved",
   "theorems": [
    "C28_bisection",
    "C28_bisection_default",
    "C28_back_calculation_forward"
   ],
   "note": ""
  },
  {
   "property": "C29",
   "status": "proved",
   "theorems": [
    "C29_bracket"
   ],
   "note": ""
  },
  {
   "property": "C30",
   "status": "proved",
   "theorems": [
    "C30_feedbacks_normalised",
    "C30_warming_lowers_pressure",
    "C30_production_curve"
   ],
   "note": ""
  },
  {
   "property": "C31",
   "status": "proved",
   "theorems": [
    "C31_pressure_curve_C1"
   ],
   "note": ""
  },
  {
   "property": "C32",
   "status": "proved",
   "theorems": [
    "C32_rs_function2",
    "C32_rb_function2",
    "C32_builtin_at_zero",
    "C32_array_check",
    "C32_zero_timescale_accepted"
   ],
   "note": ""
  },
  {
   "property": "C33",
   "status": "proved",
   "theorems": [
    "C33_flat_equals_list_form",
    "C33_flat_names",
    "C33_gaps_are_compacted",
    "C33_gap_pairs_different_indices"
   ],
   "note": "canonical names in any order; gap behaviour as separate theorems"
  },
  {
   "property": "C34",
   "status": "proved",
   "theorems": [
    "C34_ocean_memory"
   ],
   "note": ""
  },
  {
   "property": "C35",
   "status": "proved",
   "theorems": [
    "C35_box_conserves_carbon",
    "C35_box_steady",
    "C35_box_unused_parameters"
   ],
   "note": ""
  },
  {
   "property": "C36",
   "status": "proved",
   "theorems": [
    "C36_airborne_fraction",
    "C36_all_or_nothing"
   ],
   "note": ""
  },
  {
   "property": "C37",
   "status": "proved",
   "theorems": [
    "C37_step_solves_decay_equation",
    "C37_formulas_agree"
   ],
   "note": ""
  },
  {
   "property": "C38",
   "status": "proved",
   "theorems": [
    "C38_between_previous_and_equilibrium",
    "C38_monotone",
    "C38_nonnegative",
    "C38_ceiling",
    "C38_distance_shrinks",
    "C38_converges"
   ],
   "note": ""
  },
  {
   "property": "C39",
   "status": "proved",
   "theorems": [
    "C39_ordinary_gases",
    "C39_no_prescribed_year_fails",
    "C39_concentration_run",
    "C39_before_emission_start",
    "C39_after_emission_start",
    "C39_partition",
    "C39_late_concentrations"
   ],
   "note": ""
  },
  {
   "property": "C40",
   "status": "proved",
   "theorems": [
    "C40_constant",
    "C40_wigley",
    "C40_tar",
    "C40_unknown_mode",
    "C40_tar_loss_turns_into_growth"
   ],
   "note": ""
  },
  {
   "property": "C41",
   "status": "proved",
   "theorems": [
    "C41_three_years_behind",
    "C41_value",
    "C41_monotone",
    "C41_odd",
    "C41_nonpositive"
   ],
   "note": ""
  },
  {
   "property": "C42",
   "status": "proved",
   "theorems": [
    "C42_zero_in_first_year",
    "C42_value",
    "C42_qo3_in_reference_year",
    "C42_not_causal"
   ],
   "note": ""
  },
  {
   "property": "C43",
   "status": "proved",
   "theorems": [
    "C43_first_year",
    "C43_precalculated_gases"
   ],
   "note": ""
  },
  {
   "property": "C44",
   "status": "proved",
   "theorems": [
    "C44_total_is_sum",
    "C44_row",
    "C44_just_one",
    "C44_run"
   ],
   "note": "forcing runs (solar in the total) belong to the driver, C51"
  },
  {
   "property": "C45",
   "status": "proved",
   "theorems": [
    "C45_mean",
    "C45_split"
   ],
   "note": ""
  },
  {
   "property": "C46",
   "status": "proved",
   "theorems": [
    "C46_weight",
    "C46_aerosols",
    "C46_ignores_precalculated",
    "C46_perturbed_can_exceed_one"
   ],
   "note": "the weight above 1 is shown by an evaluated rational run"
  },
  {
   "property": "C47",
   "status": "proved",
   "theorems": [
    "C47_zero_at_start",
    "C47_sign",
    "C47_increasing",
    "C47_negative_far_above",
    "C47_n2o_overlap"
   ],
   "note": ""
  },
  {
   "property": "C48",
   "status": "proved",
   "theorems": [
    "C48_rows_accumulate",
    "C48_other_rows",
    "C48_precalculated_last_row_wins",
    "C48_precalculated_without_duplicates"
   ],
   "note": ""
  },
  {
   "property": "C49",
   "status": "proved",
   "theorems": [
    "C49_rows_accumulate",
    "C49_second_instance",
    "C49_unknown_cell"
   ],
   "note": ""
  },
  {
   "property": "C50",
   "status": "proved",
   "theorems": [
    "C50_no_double_counting",
    "C50_factor",
    "C50_indirect",
    "C50_regional_factor_off"
   ],
   "note": ""
  },
  {
   "property": "C51",
   "status": "proved",
   "theorems": [
    "C51_forcing_run",
    "C51_causal",
    "C51_prefix_stable",
    "C51_two_layer",
    "C51_two_layer_completes",
    "C51_upwelling_diffusion"
   ],
   "note": ""
  },
  {
   "property": "C52",
   "status": "proved",
   "theorems": [
    "C52_last_years_output",
    "C52_temperature",
    "C52_log_neutral",
    "C52_outputs_use_same_year"
   ],
   "note": ""
  },
  {
   "property": "C53",
   "status": "proved",
   "theorems": [
    "C53_rerun",
    "C53_stale_frames"
   ],
   "note": ""
  },
  {
   "property": "C54",
   "status": "proved",
   "theorems": [
    "C54_file_columns",
    "C54_upwelling_diffusion",
    "C54_two_layer"
   ],
   "note": ""
  },
  {
   "property": "C55",
   "status": "proved",
   "theorems": [
    "C55_sources",
    "C55_other_names",
    "C55_other_keys",
    "C55_volcanoes_ignored",
    "C55_one_hemisphere",
    "C55_switched_off"
   ],
   "note": ""
  },
  {
   "property": "C56",
   "status": "proved",
   "theorems": [
    "C56_rows",
    "C56_years",
    "C56_after_2500"
   ],
   "note": ""
  },
  {
   "property": "C57",
   "status": "proved",
   "theorems": [
    "C57_row_sum",
    "C57_hemispheres",
    "C57_kept",
    "C57_weight",
    "C57_column_order",
    "C57_total_alone",
    "C57_first_line"
   ],
   "note": ""
  },
  {
   "property": "C58",
   "status": "proved",
   "theorems": [
    "C58_cut",
    "C58_consecutive",
    "C58_columns",
    "C58_missing_file"
   ],
   "note": ""
  },
  {
   "property": "C59",
   "status": "proved",
   "theorems": [
    "C59_units",
    "C59_construction",
    "C59_needed_names"
   ],
   "note": ""
  },
  {
   "property": "C60",
   "status": "proved",
   "theorems": [
    "C60_rule_of_90",
    "C60_two_letters_refuted",
    "C60_underscore"
   ],
   "note": ""
  },
  {
   "property": "C61",
   "status": "proved",
   "theorems": [
    "C61_dictionaries",
    "C61_families",
    "C61_plain_formula"
   ],
   "note": ""
  },
  {
   "property": "C62",
   "status": "proved",
   "theorems": [
    "C62_partition",
    "C62_sizes"
   ],
   "note": ""
  },
  {
   "property": "C63",
   "status": "proved",
   "theorems": [
    "C63_order",
    "C63_failure",
    "C63_first_to_complete",
    "C63_collected",
    "C63_serial_rotated",
    "C63_serial_failure"
   ],
   "note": ""
  },
  {
   "property": "C64",
   "status": "proved",
   "theorems": [
    "C64_batching_invisible",
    "C64_partial_sets_refuted",
    "C64_complete_sets_refuted",
    "C64_no_scenarios",
    "C64_no_configurations",
    "C64_failing_job"
   ],
   "note": ""
  },
  {
   "property": "C65",
   "status": "proved",
   "theorems": [
    "C65_cover",
    "C65_sizes_and_indices",
    "C65_flat",
    "C65_files",
    "C65_bad_size"
   ],
   "note": ""
  },
  {
   "property": "C66",
   "status": "proved",
   "theorems": [
    "C66_sampled_names",
    "C66_sampled",
    "C66_fixed",
    "C66_nothing_else",
    "C66_no_effect",
    "C66_default_values",
    "C66_nothing_but_given",
    "C66_decay_names",
    "C66_npp0_refuted"
   ],
   "note": ""
  },
  {
   "property": "C67",
   "status": "proved",
   "theorems": [
    "C67_round_trip",
    "C67_read_is_stable",
    "C67_overwritten",
    "C67_rewrite",
    "C67_metadata_lost_refuted",
    "C67_unwritable",
    "C67_first_failure",
    "C67_no_file"
   ],
   "note": ""
  },
  {
   "property": "C68",
   "status": "proved",
   "theorems": [
    "C68_latin",
    "C68_within_bounds",
    "C68_gaussian",
    "C68_method",
    "C68_default_prior"
   ],
   "note": ""
  },
  {
   "property": "C69",
   "status": "proved",
   "theorems": [
    "C69_aerosols",
    "C69_before_any_reader"
   ],
   "note": ""
  },
  {
   "property": "C70",
   "status": "proved",
   "theorems": [
    "C70_fgases",
    "C70_greenhouse_gases"
   ],
   "note": ""
  },
  {
   "property": "C71",
   "status": "proved",
   "theorems": [
    "C71_fluxes",
    "C71_pools",
    "C71_net_flux",
    "C71_airborne_fraction",
    "C71_without_carbon_cycle"
   ],
   "note": ""
  },
  {
   "property": "C72",
   "status": "proved",
   "theorems": [
    "C72_names_distinct",
    "C72_concentrations",
    "C72_emissions",
    "C72_emissions_need_carbon_cycle",
    "C72_forcings",
    "C72_temperatures",
    "C72_heat_contents",
    "C72_heat_uptake",
    "C72_unknown_names",
    "C72_ozone_unit",
    "C72_total_of_a_frame"
   ],
   "note": ""
  },
  {
   "property": "C73",
   "status": "proved",
   "theorems": [
    "C73_lengths",
    "C73_own_unit",
    "C73_unit_text_total",
    "C73_only_rows",
    "C73_skipped",
    "C73_land_use",
    "C73_frame",
    "C73_frame_needs_burning_rows"
   ],
   "note": ""
  },
  {
   "property": "C74",
   "status": "proved",
   "theorems": [
    "C74_forcing",
    "C74_emissions",
    "C74_concentrations"
   ],
   "note": ""
  },
  {
   "property": "C75",
   "status": "proved",
   "theorems": [
    "C75_missing_always_raises"
   ],
   "note": ""
  },
  {
   "property": "C76",
   "status": "proved",
   "theorems": [
    "C76_leftover_pressure"
   ],
   "note": ""
  },
  {
   "property": "C77",
   "status": "proved",
   "theorems": [
    "C77_component_values",
    "C77_ozone",
    "C77_precalculated"
   ],
   "note": ""
  },
  {
   "property": "C78",
   "status": "proved",
   "theorems": [
    "C78_no_feedback_list",
    "C78_unknown_variable",
    "C78_known_variables",
    "C78_missing_is_zero"
   ],
   "note": ""
  },
  {
   "property": "C79",
   "status": "proved",
   "theorems": [
    "C79_co2_alone",
    "C79_models"
   ],
   "note": ""
  },
  {
   "property": "C80",
   "status": "proved",
   "theorems": [
    "C80_file",
    "C80_years",
    "C80_constant"
   ],
   "note": ""
  },
  {
   "property": "C81",
   "status": "proved",
   "theorems": [
    "C81_rows",
    "C81_names_distinct",
    "C81_default_mapping"
   ],
   "note": ""
  },
  {
   "property": "C82",
   "status": "proved",
   "theorems": [
    "C82_total_forcing"
   ],
   "note": ""
  },
  {
   "property": "C83",
   "status": "proved",
   "theorems": [
    "C83_total",
    "C83_any_carbon"
   ],
   "note": ""
  },
  {
   "property": "C84",
   "status": "proved",
   "theorems": [
    "C84_carbon_balance"
   ],
   "note": ""
  },
  {
   "property": "C85",
   "status": "proved",
   "theorems": [
    "C85_arrays",
    "C85_forcing",
    "C85_concentrations",
    "C85_precalculated",
    "C85_from_inputs",
    "C85_models"
   ],
   "note": ""
  },
  {
   "property": "C86",
   "status": "proved",
   "theorems": [
    "C86_pictures",
    "C86_third_picture_lost",
    "C86_every_step",
    "C86_missing_unit",
    "C86_missing_column",
    "C86_missing_year"
   ],
   "note": ""
  },
  {
   "property": "C87",
   "status": "proved",
   "theorems": [
    "C87_year_drawn"
   ],
   "note": ""
  },
  {
   "property": "C88",
   "status": "proved",
   "theorems": [
    "C88_upwelling_diffusion",
    "C88_failed_run",
    "C88_same_results",
    "C88_two_layer",
    "C88_no_folder"
   ],
   "note": ""
  },
  {
   "property": "C89",
   "status": "proved",
   "theorems": [
    "C89_equilibrium",
    "C89_bounded"
   ],
   "note": ""
  },
  {
   "property": "C90",
   "status": "proved",
   "theorems": [
    "C90_rate",
    "C90_converges"
   ],
   "note": ""
  },
  {
   "property": "C91",
   "status": "proved",
   "theorems": [
    "C91_span",
    "C91_box",
    "C91_box_frame",
    "C91_carbon_frame",
    "C91_concentration_frame",
    "C91_box_concentration_frame",
    "C91_carbon",
    "C91_precalculated"
   ],
   "note": ""
  },
  {
   "property": "C92",
   "status": "proved",
   "theorems": [
    "C92_pools_nonnegative",
    "C92_order",
    "C92_floor",
    "C92_forgets",
    "C92_start"
   ],
   "note": ""
  },
  {
   "property": "C93",
   "status": "proved",
   "theorems": [
    "C93_co2_alone",
    "C93_fluxes",
    "C93_models",
    "C93_reader"
   ],
   "note": ""
  },
  {
   "property": "C94",
   "status": "proved",
   "theorems": [
    "C94_order",
    "C94_rising"
   ],
   "note": ""
  },
  {
   "property": "C95",
   "status": "proved",
   "theorems": [
    "C95_climate_acts_on_co2_only",
    "C95_carbon_cycles"
   ],
   "note": ""
  },
  {
   "property": "C96",
   "status": "proved",
   "theorems": [
    "C96_table_handed_on",
    "C96_default_carbon_cycle",
    "C96_box_carbon_cycle",
    "C96_any_carbon_cycle",
    "C96_gas_table",
    "C96_natural_left"
   ],
   "note": ""
  },
  {
   "property": "C97",
   "status": "proved",
   "theorems": [
    "C97_files_and_dictionary",
    "C97_upwelling_diffusion",
    "C97_two_layer"
   ],
   "note": ""
  },
  {
   "property": "C98",
   "status": "proved",
   "theorems": [
    "C98_batching_invisible",
    "C98_forcing_runs",
    "C98_used_instance"
   ],
   "note": ""
  },
  {
   "property": "C99",
   "status": "proved",
   "theorems": [
    "C99_run",
    "C99_forcing_run",
    "C99_two_layer"
   ],
   "note": ""
  },
  {
   "property": "C100",
   "status": "proved",
   "theorems": [
    "C100_box_run",
    "C100_seven_numbers"
   ],
   "note": ""
  },
  {
   "property": "C101",
   "status": "proved",
   "theorems": [
    "C101_batching_invisible"
   ],
   "note": ""
  },
  {
   "property": "C102",
   "status": "proved",
   "theorems": [
    "C102_inputs",
    "C102_concentrations",
    "C102_emissions",
    "C102_volcanic",
    "C102_sun_and_land_use",
    "C102_forcing_file",
    "C102_gas_table",
    "C102_natural",
    "C102_perturbations",
    "C102_forcing_run",
    "C102_units",
    "C102_concentration_run",
    "C102_no_sun_no_volcanoes"
   ],
   "note": ""
  },
  {
   "property": "C103",
   "status": "proved",
   "theorems": [
    "C103_file_or_object"
   ],
   "note": ""
  },
  {
   "property": "C104",
   "status": "proved",
   "theorems": [
    "C104_other_years"
   ],
   "note": ""
  },
  {
   "property": "C105",
   "status": "proved",
   "theorems": [
    "C105_reference_year",
    "C105_year_2000"
   ],
   "note": ""
  },
  {
   "property": "C106",
   "status": "proved",
   "theorems": [
    "C106_emission_run",
    "C106_concentration_run",
    "C106_box",
    "C106_box_concentration_run"
   ],
   "note": ""
  },
  {
   "property": "C107",
   "status": "proved",
   "theorems": [
    "C107_rows",
    "C107_temperatures"
   ],
   "note": ""
  },
  {
   "property": "C108",
   "status": "proved",
   "theorems": [
    "C108_independent",
    "C108_workers",
    "C108_default_prior"
   ],
   "note": ""
  },
  {
   "property": "C109",
   "status": "proved",
   "theorems": [
    "C109_forcing",
    "C109_warming",
    "C109_warming_upwelling"
   ],
   "note": ""
  },
  {
   "property": "C110",
   "status": "proved",
   "theorems": [
    "C110_more_emissions",
    "C110_more_emissions_upwelling"
   ],
   "note": ""
  },
  {
   "property": "C111",
   "status": "proved",
   "theorems": [
    "C111_mixed_layer",
    "C111_two_years",
    "C111_biotic",
    "C111_tables"
   ],
   "note": ""
  },
  {
   "property": "C112",
   "status": "proved",
   "theorems": [
    "C112_longer_run",
    "C112_later_years"
   ],
   "note": ""
  }
 ]
}