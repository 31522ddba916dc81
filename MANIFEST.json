{
 "claims": [
  {
   "property": "C01",
   "status": "proved",
   "theorems": [
    "C01_bracket_nearest_in_range",
    "C01_bracket_monotone"
   ],
   "note": ""
  },
  {
   "property": "C02",
   "status": "proved",
   "theorems": [
    "C02_limit_check_accepts_exactly",
    "C02_limit_check_raises_exactly"
   ],
   "note": ""
  },
  {
   "property": "C03",
   "status": "proved",
   "theorems": [
    "C03_find_nearest_first_closest",
    "C03_find_nearest_empty"
   ],
   "note": ""
  },
  {
   "property": "C04",
   "status": "proved",
   "theorems": [
    "C04_ok_only_with_one_known_keyword",
    "C04_other_keywords_raise",
    "C04_wet_bulb_always_readable",
    "C04_reads_back_constructor_argument"
   ],
   "note": ""
  },
  {
   "property": "C05",
   "status": "proved",
   "theorems": [
    "C05_reads_are_history_free"
   ],
   "note": ""
  },
  {
   "property": "C06",
   "status": "proved",
   "theorems": [
    "C06_rh_returns_humidity_ratio_refuted",
    "C06_wb_assignment_leaves_hr_stale_refuted"
   ],
   "note": ""
  },
  {
   "property": "C07",
   "status": "proved",
   "theorems": [
    "C07_consistent_after_any_calls",
    "C07_rated_flow_gives_unit_ratio",
    "C07_standard_air"
   ],
   "note": ""
  },
  {
   "property": "C08",
   "status": "proved",
   "theorems": [
    "C08_set_mass_airflow_consistent_iff_refuted",
    "C08_set_mass_airflow_exact_effect",
    "C08_set_mass_airflow_before_rating"
   ],
   "note": ""
  },
  {
   "property": "C09",
   "status": "proved",
   "theorems": [
    "C09_in_defrost_exactly_in_window"
   ],
   "note": ""
  },
  {
   "property": "C10",
   "status": "proved",
   "theorems": [
    "C10_credit_is_one_without_demand_control",
    "C10_credit_bounds",
    "C10_credit_never_increases_with_period",
    "C10_max_time_90_minutes_raises",
    "C10_short_max_time_exceeds_bound_refuted",
    "C10_long_period_below_one_refuted",
    "C10_resistive_strategy_needs_power"
   ],
   "note": ""
  },
  {
   "property": "C11",
   "status": "proved",
   "theorems": [
    "C11_lists_stay_parallel",
    "C11_every_speed_can_be_looked_up",
    "C11_constant_fan_missing_efficacy_refuted"
   ],
   "note": ""
  },
  {
   "property": "C12",
   "status": "proved",
   "theorems": [
    "C12_check_power_changes_nothing",
    "C12_find_rated_fan_speed_appends_one",
    "C12_earlier_speeds_unchanged",
    "C12_constant_fan_probe_refuted",
    "C12_failing_probe_leaves_speed_refuted"
   ],
   "note": ""
  },
  {
   "property": "C13",
   "status": "proved",
   "theorems": [
    "C13_system_curve_inverse"
   ],
   "note": ""
  },
  {
   "property": "C14",
   "status": "proved",
   "theorems": [
    "C14_operating_pressure"
   ],
   "note": ""
  },
  {
   "property": "C15",
   "status": "proved",
   "theorems": [
    "C15_psc_curves",
    "C15_construction_succeeds"
   ],
   "note": ""
  },
  {
   "property": "C16",
   "status": "proved",
   "theorems": [
    "C16_power_and_airflow_limits",
    "C16_overloaded_design_rejected",
    "C16_design_within_limit_accepted",
    "C16_design_point"
   ],
   "note": ""
  },
  {
   "property": "C17",
   "status": "proved",
   "theorems": [
    "C17_size_selection",
    "C17_fails_exactly_at_two_tons_refuted",
    "C17_efficacy_interpolates",
    "C17_table_sizes_reproduced"
   ],
   "note": ""
  },
  {
   "property": "C18",
   "status": "proved",
   "theorems": [
    "C18_psc_efficacy",
    "C18_bpm_efficacy",
    "C18_laws_at_full_speed_and_monotone",
    "C18_bpm_power_below_psc"
   ],
   "note": ""
  },
  {
   "property": "C19",
   "status": "proved",
   "theorems": [
    "C19_speed_order_map_sorts",
    "C19_speed_order_map_exists"
   ],
   "note": ""
  },
  {
   "property": "C20",
   "status": "proved",
   "theorems": [
    "C20_get_returns_what_was_set",
    "C20_set_accepts_every_cell",
    "C20_only_one_cell_changes",
    "C20_failed_set_changes_nothing",
    "C20_absent_temperature_raises",
    "C20_speed_above_last_raises",
    "C20_absent_speed_raises_refuted",
    "C20_ratio_round_trip",
    "C20_ratio_at_last_speed",
    "C20_ratio_round_trip_single_speed_refuted",
    "C20_maintenance_round_trip"
   ],
   "note": ""
  },
  {
   "property": "C21",
   "status": "proved",
   "theorems": [
    "C21_add_temperature_keeps_table"
   ],
   "note": ""
  },
  {
   "property": "C22",
   "status": "proved",
   "theorems": [
    "C22_extrapolated_row_below_keeps_map",
    "C22_extrapolated_row_above_keeps_map",
    "C22_entry_below",
    "C22_entry_above"
   ],
   "note": ""
  },
  {
   "property": "C23",
   "status": "proved",
   "theorems": [
    "C23_interior_row_interpolates_refuted",
    "C23_interior_row_exactly",
    "C23_second_interval_divides_by_zero",
    "C23_other_intervals_succeed"
   ],
   "note": ""
  },
  {
   "property": "C24",
   "status": "proved",
   "theorems": [
    "C24_value_at_grid_points",
    "C24_bilinear_in_each_cell",
    "C24_between_surrounding_values",
    "C24_continuous",
    "C24_affine_in_temperature",
    "C24_defined_everywhere",
    "C24_well_formed_tables_interpolate"
   ],
   "note": ""
  },
  {
   "property": "C25",
   "status": "proved",
   "theorems": [
    "C25_unit_gross_table",
    "C25_gross_maps_shift_by_fan_power"
   ],
   "note": ""
  },
  {
   "property": "C26",
   "status": "proved",
   "theorems": [
    "C26_single_speed_data_reproduces_ratings",
    "C26_two_speed_data_reproduces_ratings",
    "C26_variable_speed_data_reproduces_ratings",
    "C26_single_speed_data_exists",
    "C26_two_speed_data_exists",
    "C26_variable_speed_data_exists"
   ],
   "note": ""
  },
  {
   "property": "C27",
   "status": "proved",
   "theorems": [
    "C27_first_call_returns_entries",
    "C27_arguments_unchanged_refuted",
    "C27_second_call_with_same_lists_fails"
   ],
   "note": ""
  },
  {
   "property": "C28",
   "status": "proved",
   "theorems": [
    "C28_flow_curves_are_one_at_rated_airflow",
    "C28_cooling_capacity_separates_flow_and_temperature",
    "C28_cooling_power_at_rated_airflow",
    "C28_heating_capacity_separates_flow_and_temperature",
    "C28_heating_power_at_rated_airflow"
   ],
   "note": ""
  },
  {
   "property": "C29",
   "status": "proved",
   "theorems": [
    "C29_only_clamped_temperatures_matter",
    "C29_capacity_monotone_in_wet_bulb_mild",
    "C29_capacity_monotone_in_wet_bulb_refuted"
   ],
   "note": ""
  },
  {
   "property": "C30",
   "status": "proved",
   "theorems": [
    "C30_no_deviation_no_correction",
    "C30_rated_airflow_charge_only",
    "C30_resnet_factors_at_rated_airflow",
    "C30_nrel_factors_at_rated_airflow"
   ],
   "note": ""
  },
  {
   "property": "C31",
   "status": "proved",
   "theorems": [
    "C31_time_fraction_between_0_and_1",
    "C31_integrated_capacity_at_most_steady",
    "C31_integrated_capacity_positive",
    "C31_no_derate_outside_defrost",
    "C31_reverse_cycle_power_always_raises_refuted",
    "C31_reverse_cycle_power_type_error",
    "C31_nrel_outside_defrost",
    "C31_nrel_resistive_defrost"
   ],
   "note": ""
  },
  {
   "property": "C32",
   "status": "proved",
   "theorems": [
    "C32_carrier_fraction",
    "C32_carrier_fraction_continuous",
    "C32_integrated_capacity_reduction"
   ],
   "note": ""
  },
  {
   "property": "C33",
   "status": "proved",
   "theorems": [
    "C33_heating_cd_bounds",
    "C33_heating_cd_never_increases",
    "C33_steady_capacity_anchors",
    "C33_integrated_capacity_anchors",
    "C33_default_eer_monotone_refuted",
    "C33_capacity_ratio_monotone_refuted",
    "C33_default_eer_rises_except_at_16",
    "C33_default_eer_drop",
    "C33_capacity_ratio_rises_except_at_7_5",
    "C33_capacity_ratio_drop"
   ],
   "note": ""
  },
  {
   "property": "C34",
   "status": "proved",
   "theorems": [
    "C34_integrated_capacity",
    "C34_integrated_power",
    "C34_derate_bounds",
    "C34_power_outside_defrost_refuted"
   ],
   "note": ""
  },
  {
   "property": "C35",
   "status": "proved",
   "theorems": [
    "C35_cooling_capacity",
    "C35_cooling_power",
    "C35_heating_capacity",
    "C35_heating_power",
    "C35_table_value_at_rated_conditions"
   ],
   "note": ""
  },
  {
   "property": "C36",
   "status": "proved",
   "theorems": [
    "C36_capacities_complete_and_ordered",
    "C36_given_capacities_stored",
    "C36_increasing_capacities_rejected"
   ],
   "note": ""
  },
  {
   "property": "C37",
   "status": "proved",
   "theorems": [
    "C37_cooling_values_consistent",
    "C37_cooling_values_determined",
    "C37_heating_values_consistent",
    "C37_heating_nonnegative_refuted"
   ],
   "note": ""
  },
  {
   "property": "C38",
   "status": "proved",
   "theorems": [
    "C38_calibration",
    "C38_bypass_factor_after_calibration"
   ],
   "note": ""
  },
  {
   "property": "C39",
   "status": "proved",
   "theorems": [
    "C39_ductless_pressure",
    "C39_pressure_2023",
    "C39_pressure_2017",
    "C39_pressure_2017_no_capacity",
    "C39_pressure_2017_never_decreases",
    "C39_part_flow_pressure",
    "C39_rating_condition_pressure"
   ],
   "note": ""
  },
  {
   "property": "C40",
   "status": "proved",
   "theorems": [
    "C40_last_standard_wins",
    "C40_round_trip_restores_unit",
    "C40_changes_only"
   ],
   "note": ""
  },
  {
   "property": "C41",
   "status": "proved",
   "theorems": [
    "C41_two_stage_reset_refuted"
   ],
   "note": ""
  },
  {
   "property": "C42",
   "status": "proved",
   "theorems": [
    "C42_near_one_kept",
    "C42_other_rescaled",
    "C42_rejected",
    "C42_result_near_one",
    "C42_tables"
   ],
   "note": ""
  },
  {
   "property": "C43",
   "status": "proved",
   "theorems": [
    "C43_single_stage_seer",
    "C43_single_stage_seer_only",
    "C43_single_stage_seer_bounds"
   ],
   "note": ""
  },
  {
   "property": "C44",
   "status": "proved",
   "theorems": [
    "C44_two_stage_seer",
    "C44_two_stage_seer_bounds",
    "C44_variable_speed_seer",
    "C44_variable_speed_seer_bounds"
   ],
   "note": ""
  },
  {
   "property": "C45",
   "status": "proved",
   "theorems": [
    "C45_seer_scale",
    "C45_hspf_scale",
    "C45_hspf_2017_refuted"
   ],
   "note": ""
  },
  {
   "property": "C46",
   "status": "proved",
   "theorems": [
    "C46_single_stage_heat_balance",
    "C46_variable_speed_negative_resistance_refuted",
    "C46_two_stage_heat_balance",
    "C46_variable_speed_heat_balance"
   ],
   "note": ""
  },
  {
   "property": "C47",
   "status": "proved",
   "theorems": [
    "C47_single_stage_cut_out",
    "C47_variable_speed_cut_out",
    "C47_two_stage_cut_out",
    "C47_two_stage_cut_out_refuted",
    "C47_two_stage_unbound"
   ],
   "note": ""
  },
  {
   "property": "C48",
   "status": "proved",
   "theorems": [
    "C48_gross_cop_list_refuted",
    "C48_heating_on_lost_refuted",
    "C48_supplied_heating_on_breaks_hspf_refuted",
    "C48_net_cop_ignored_refuted",
    "C48_net_cop_stored_without_gross"
   ],
   "note": ""
  },
  {
   "property": "C49",
   "status": "proved",
   "theorems": [
    "C49_single_stage_ratings"
   ],
   "note": ""
  },
  {
   "property": "C50",
   "status": "proved",
   "theorems": [
    "C50_rating_unit_meets_hspf",
    "C50_rating_unit_meets_seer"
   ],
   "note": ""
  },
  {
   "property": "C51",
   "status": "proved",
   "theorems": [
    "C51_text_reads_back",
    "C51_export_reads_back",
    "C51_empty_object_rejected"
   ],
   "note": ""
  },
  {
   "property": "C52",
   "status": "proved",
   "theorems": [
    "C52_references_resolve",
    "C52_object_types",
    "C52_schedules",
    "C52_schedule_type_limits_refuted"
   ],
   "note": ""
  },
  {
   "property": "C53",
   "status": "proved",
   "theorems": [
    "C53_tables",
    "C53_cooling_coil",
    "C53_heating_coil",
    "C53_speed_counts"
   ],
   "note": ""
  },
  {
   "property": "C54",
   "status": "proved",
   "theorems": [
    "C54_cooling_map_layout"
   ],
   "note": ""
  },
  {
   "property": "C55",
   "status": "proved",
   "theorems": [
    "C55_unknown_option_rejected",
    "C55_known_options_pass"
   ],
   "note": ""
  },
  {
   "property": "C56",
   "status": "proved",
   "theorems": [
    "C56_nrel_two_speed",
    "C56_net_then_gross",
    "C56_gross_then_net",
    "C56_nrel_net_then_gross",
    "C56_nrel_gross_then_net",
    "C56_net_values",
    "C56_gross_values"
   ],
   "note": ""
  },
  {
   "property": "C57",
   "status": "proved",
   "theorems": [
    "C57_cache_is_unobservable"
   ],
   "note": ""
  },
  {
   "property": "C58",
   "status": "proved",
   "theorems": [
    "C58_single_stage_hspf_bounds",
    "C58_two_stage_hspf_bounds",
    "C58_variable_speed_hspf_bounds"
   ],
   "note": ""
  },
  {
   "property": "C59",
   "status": "proved",
   "theorems": [
    "C59_heating_efficiency_leaves_cooling"
   ],
   "note": ""
  },
  {
   "property": "C60",
   "status": "proved",
   "theorems": [
    "C60_axes_increase",
    "C60_heating_axis_increases_refuted"
   ],
   "note": ""
  },
  {
   "property": "C61",
   "status": "proved",
   "theorems": [
    "C61_unit_at_rated_flow"
   ],
   "note": ""
  },
  {
   "property": "C62",
   "status": "proved",
   "theorems": [
    "C62_air_path"
   ],
   "note": ""
  },
  {
   "property": "C63",
   "status": "proved",
   "theorems": [
    "C63_fan_map_layout",
    "C63_fan_map_ordered"
   ],
   "note": ""
  },
  {
   "property": "C64",
   "status": "proved",
   "theorems": [
    "C64_grid_mass_flow",
    "C64_capacity_at_mass_flow_refuted"
   ],
   "note": ""
  },
  {
   "property": "C65",
   "status": "proved",
   "theorems": [
    "C65_grid_axes",
    "C65_axes_increase"
   ],
   "note": ""
  },
  {
   "property": "C66",
   "status": "proved",
   "theorems": [
    "C66_standby_power",
    "C66_compressor_control"
   ],
   "note": ""
  },
  {
   "property": "C67",
   "status": "proved",
   "theorems": [
    "C67_cooling_outlet_balance",
    "C67_heating_outlet_balance",
    "C67_cooling_outlet_default",
    "C67_heating_outlet_default"
   ],
   "note": ""
  },
  {
   "property": "C68",
   "status": "proved",
   "theorems": [
    "C68_apparatus_dew_point",
    "C68_between_states",
    "C68_default_conditions_refuted"
   ],
   "note": ""
  },
  {
   "property": "C69",
   "status": "proved",
   "theorems": [
    "C69_value",
    "C69_at_most_one",
    "C69_mean_scores_zero",
    "C69_units",
    "C69_single_number"
   ],
   "note": ""
  },
  {
   "property": "C70",
   "status": "proved",
   "theorems": [
    "C70_rating_conditions",
    "C70_after_standard_change"
   ],
   "note": ""
  },
  {
   "property": "C71",
   "status": "proved",
   "theorems": [
    "C71_columns",
    "C71_answers",
    "C71_written",
    "C71_power_47full",
    "C71_power_47full_refuted",
    "C71_other_stagings_refuted",
    "C71_failure_keeps_file"
   ],
   "note": ""
  },
  {
   "property": "C72",
   "status": "proved",
   "theorems": [
    "C72_net_values_follow_table",
    "C72_net_values_are_table_values",
    "C72_net_cop_is_table_cop"
   ],
   "note": ""
  },
  {
   "property": "C73",
   "status": "proved",
   "theorems": [
    "C73_ratings_met",
    "C73_ratings_missed"
   ],
   "note": ""
  },
  {
   "property": "C74",
   "status": "proved",
   "theorems": [
    "C74_cooling_listing",
    "C74_heating_listing",
    "C74_printed_eer"
   ],
   "note": ""
  },
  {
   "property": "C75",
   "status": "proved",
   "theorems": [
    "C75_curves",
    "C75_every_curve_has_a_legend",
    "C75_axis",
    "C75_speed_names",
    "C75_resnet_speed_names",
    "C75_resnet_rated_point"
   ],
   "note": ""
  },
  {
   "property": "C76",
   "status": "proved",
   "theorems": [
    "C76_total_capacity",
    "C76_sensible_share",
    "C76_efficiency",
    "C76_seer_irrelevant_when_hot",
    "C76_cop_irrelevant_when_mild",
    "C76_rating_point",
    "C76_net_power_at_rating",
    "C76_rated_cop_refuted"
   ],
   "note": ""
  },
  {
   "property": "C77",
   "status": "proved",
   "theorems": [
    "C77_bins_are_those_of_region_4",
    "C77_steady_power",
    "C77_integrated_power",
    "C77_power_at_35",
    "C77_power_at_35_if_last_trial",
    "C77_power_at_35_refuted"
   ],
   "note": ""
  },
  {
   "property": "C78",
   "status": "proved",
   "theorems": [
    "C78_default_fan",
    "C78_title24_default_fan",
    "C78_gross_capacity",
    "C78_default_heating_capacity",
    "C78_given_fan_refuted"
   ],
   "note": ""
  },
  {
   "property": "C79",
   "status": "proved",
   "theorems": [
    "C79_cooling",
    "C79_heating",
    "C79_cooling_cop",
    "C79_heating_cop",
    "C79_eer_seer"
   ],
   "note": ""
  },
  {
   "property": "C80",
   "status": "proved",
   "theorems": [
    "C80_exported_fan"
   ],
   "note": ""
  },
  {
   "property": "C81",
   "status": "proved",
   "theorems": [
    "C81_crankcase",
    "C81_part_load",
    "C81_sizes",
    "C81_heating_ratio",
    "C81_compressor_limits",
    "C81_defrost",
    "C81_defrost_energy"
   ],
   "note": ""
  },
  {
   "property": "C82",
   "status": "proved",
   "theorems": [
    "C82_settings",
    "C82_degradation",
    "C82_heating_cut_out",
    "C82_heating_cut_in",
    "C82_eer",
    "C82_eer_follows_seer",
    "C82_crankcase",
    "C82_speeds"
   ],
   "note": ""
  },
  {
   "property": "C83",
   "status": "proved",
   "theorems": [
    "C83_nrel_refuted",
    "C83_efficiency_required",
    "C83_speeds_exist",
    "C83_title24_one_speed",
    "C83_title24_own_fan",
    "C83_resnet_tables",
    "C83_resnet_lists",
    "C83_two_stage_lists"
   ],
   "note": ""
  },
  {
   "property": "C84",
   "status": "proved",
   "theorems": [
    "C84_own_table",
    "C84_same_results"
   ],
   "note": ""
  },
  {
   "property": "C85",
   "status": "proved",
   "theorems": [
    "C85_table_overrides_ratings",
    "C85_same_results",
    "C85_same_heating"
   ],
   "note": ""
  },
  {
   "property": "C86",
   "status": "proved",
   "theorems": [
    "C86_single_stage_seer",
    "C86_two_stage_seer",
    "C86_variable_speed_seer",
    "C86_single_stage_hspf",
    "C86_two_stage_hspf",
    "C86_variable_speed_hspf"
   ],
   "note": ""
  },
  {
   "property": "C87",
   "status": "proved",
   "theorems": [
    "C87_ratios",
    "C87_psc_speeds",
    "C87_ecm_speeds",
    "C87_remove_first_refuted"
   ],
   "note": ""
  },
  {
   "property": "C88",
   "status": "proved",
   "theorems": [
    "C88_same_in_every_process",
    "C88_unitary_id_refuted",
    "C88_same_again",
    "C88_entries",
    "C88_fan_description",
    "C88_fan_description_refuted"
   ],
   "note": ""
  },
  {
   "property": "C89",
   "status": "proved",
   "theorems": [
    "C89_only_fan_and_conditions",
    "C89_fan",
    "C89_conditions",
    "C89_succeeds",
    "C89_pressure",
    "C89_pressure_refuted",
    "C89_default_fan_refuted"
   ],
   "note": ""
  },
  {
   "property": "C90",
   "status": "proved",
   "theorems": [
    "C90_capacity_17",
    "C90_low_speed_cop",
    "C90_low_speed_capacity"
   ],
   "note": ""
  },
  {
   "property": "C91",
   "status": "proved",
   "theorems": [
    "C91_settings",
    "C91_values",
    "C91_maintenance"
   ],
   "note": ""
  },
  {
   "property": "C92",
   "status": "proved",
   "theorems": [
    "C92_efficiency",
    "C92_ecm_efficiency",
    "C92_ecm_efficiency_refuted",
    "C92_ecm_speed",
    "C92_other_speed"
   ],
   "note": ""
  },
  {
   "property": "C93",
   "status": "proved",
   "theorems": [
    "C93_fan_characteristics",
    "C93_cooling_capacity",
    "C93_heating_capacity",
    "C93_two_speed_defaults"
   ],
   "note": ""
  },
  {
   "property": "C94",
   "status": "proved",
   "theorems": [
    "C94_single_speed_maps",
    "C94_two_speed_maps",
    "C94_variable_speed_maps",
    "C94_listed_maps",
    "C94_single_speed_heating_capacity",
    "C94_capacity_positive_above_minimum_temperature_refuted"
   ],
   "note": ""
  },
  {
   "property": "C95",
   "status": "proved",
   "theorems": [
    "C95_motor_and_top_speed",
    "C95_every_speed_served",
    "C95_rated_at_the_rating_pressure",
    "C95_full_load_pressure"
   ],
   "note": ""
  },
  {
   "property": "C96",
   "status": "proved",
   "theorems": [
    "C96_curves_are_polynomials",
    "C96_biquadratic",
    "C96_points_determine_coefficients",
    "C96_quartic_determined"
   ],
   "note": ""
  },
  {
   "property": "C97",
   "status": "proved",
   "theorems": [
    "C97_only_stored",
    "C97_same_results",
    "C97_other_staging",
    "C97_seer",
    "C97_off_full_heating",
    "C97_free_heat_refuted"
   ],
   "note": ""
  },
  {
   "property": "C98",
   "status": "proved",
   "theorems": [
    "C98_numbers",
    "C98_design_airflow",
    "C98_positive",
    "C98_improved_refuted",
    "C98_bpm",
    "C98_order",
    "C98_size_refuted",
    "C98_pressure_refuted"
   ],
   "note": ""
  },
  {
   "property": "C99",
   "status": "proved",
   "theorems": [
    "C99_number",
    "C99_map_powers",
    "C99_constant",
    "C99_psc",
    "C99_resnet_psc",
    "C99_ecm",
    "C99_bpm_refuted"
   ],
   "note": ""
  },
  {
   "property": "C100",
   "status": "proved",
   "theorems": [
    "C100_cop",
    "C100_net",
    "C100_constant",
    "C100_nrel",
    "C100_resnet",
    "C100_title24",
    "C100_title24_warm_refuted"
   ],
   "note": ""
  },
  {
   "property": "C101",
   "status": "proved",
   "theorems": [
    "C101_split",
    "C101_ratio",
    "C101_at_most_total_refuted",
    "C101_no_capacity"
   ],
   "note": ""
  },
  {
   "property": "C102",
   "status": "proved",
   "theorems": [
    "C102_unit",
    "C102_settings",
    "C102_net_cops",
    "C102_no_arguments_refuted",
    "C102_ratings_required"
   ],
   "note": ""
  },
  {
   "property": "C103",
   "status": "proved",
   "theorems": [
    "C103_cooling",
    "C103_sensible_heat_ratio",
    "C103_heating",
    "C103_heating_lower_refuted",
    "C103_larger_fan"
   ],
   "note": ""
  },
  {
   "property": "C104",
   "status": "proved",
   "theorems": [
    "C104_seer",
    "C104_hspf",
    "C104_same_speeds_refuted"
   ],
   "note": ""
  },
  {
   "property": "C105",
   "status": "proved",
   "theorems": [
    "C105_undercharged_cooling",
    "C105_overcharged_cooling",
    "C105_undercharged_heating",
    "C105_overcharged_heating",
    "C105_cold_undercharged",
    "C105_right_charge_best_refuted"
   ],
   "note": ""
  },
  {
   "property": "C106",
   "status": "proved",
   "theorems": [
    "C106_hotter_cooling",
    "C106_more_air_cooling",
    "C106_warmer_heating",
    "C106_warmer_room",
    "C106_more_air_heating",
    "C106_more_air_refuted"
   ],
   "note": ""
  },
  {
   "property": "C107",
   "status": "proved",
   "theorems": [
    "C107_seer",
    "C107_eer",
    "C107_tests"
   ],
   "note": ""
  },
  {
   "property": "C108",
   "status": "proved",
   "theorems": [
    "C108_steady",
    "C108_integrated",
    "C108_steady_rises",
    "C108_integrated_rises",
    "C108_integrated_rises_refuted"
   ],
   "note": ""
  },
  {
   "property": "C109",
   "status": "proved",
   "theorems": [
    "C109_hspf",
    "C109_at_most_three_percent",
    "C109_times",
    "C109_cooling",
    "C109_nrel_demand_gives_more_refuted"
   ],
   "note": ""
  },
  {
   "property": "C110",
   "status": "proved",
   "theorems": [
    "C110_cooling",
    "C110_heating"
   ],
   "note": ""
  },
  {
   "property": "C111",
   "status": "proved",
   "theorems": [
    "C111_unrated",
    "C111_no_net_performance",
    "C111_rated_flow_forgets"
   ],
   "note": ""
  },
  {
   "property": "C112",
   "status": "proved",
   "theorems": [
    "C112_2017",
    "C112_2023",
    "C112_other_regions"
   ],
   "note": ""
  },
  {
   "property": "C113",
   "status": "proved",
   "theorems": [
    "C113_locked_out",
    "C113_rated_as_resistance_refuted"
   ],
   "note": ""
  },
  {
   "property": "C114",
   "status": "proved",
   "theorems": [
    "C114_sensible_share",
    "C114_hotter_less_capacity",
    "C114_hotter_less_capacity_always_refuted",
    "C114_moister_more_capacity",
    "C114_dry_coil",
    "C114_more_air_more_capacity",
    "C114_hotter_less_efficient",
    "C114_power_mild",
    "C114_power_hot",
    "C114_hotter_more_power_refuted"
   ],
   "note": ""
  },
  {
   "property": "C115",
   "status": "proved",
   "theorems": [
    "C115_capacity_follows",
    "C115_cop_follows",
    "C115_warmer_more_heat",
    "C115_warmer_more_heat_always_refuted"
   ],
   "note": ""
  },
  {
   "property": "C116",
   "status": "proved",
   "theorems": [
    "C116_power_line",
    "C116_cop_direction",
    "C116_frost_cop_direction",
    "C116_warmer_more_efficient_refuted"
   ],
   "note": ""
  },
  {
   "property": "C117",
   "status": "proved",
   "theorems": [
    "C117_steady_ignores_humidity",
    "C117_moister_longer_defrost",
    "C117_moister_less_heat",
    "C117_timed_resistive",
    "C117_not_timed"
   ],
   "note": ""
  },
  {
   "property": "C118",
   "status": "proved",
   "theorems": [
    "C118_drier_shorter_defrost",
    "C118_capacity_follows",
    "C118_cop_follows",
    "C118_warmer_more_heat",
    "C118_defrost_and_cop",
    "C118_defrost_never_raises_cop_refuted"
   ],
   "note": ""
  },
  {
   "property": "C119",
   "status": "proved",
   "theorems": [
    "C119_operating_point",
    "C119_around_the_design_point",
    "C119_first_speed",
    "C119_more_air_higher_pressure"
   ],
   "note": ""
  },
  {
   "property": "C120",
   "status": "proved",
   "theorems": [
    "C120_higher_pressure",
    "C120_operating_point",
    "C120_operating_point_found",
    "C120_within_the_limit",
    "C120_first_speed"
   ],
   "note": ""
  },
  {
   "property": "C121",
   "status": "proved",
   "theorems": [
    "C121_operating_point",
    "C121_every_fan_operates_refuted"
   ],
   "note": ""
  },
  {
   "property": "C122",
   "status": "proved",
   "theorems": [
    "C122_against_pressure",
    "C122_more_air_more_power"
   ],
   "note": ""
  },
  {
   "property": "C123",
   "status": "proved",
   "theorems": [
    "C123_fan_laws",
    "C123_blower_speed_refuted"
   ],
   "note": ""
  }
 ]
}