{
 "claims": [
  {
   "property": "C01",
   "status": "proved",
   "theorems": [
    "C01_round_trip",
    "C01_total"
   ],
   "note": ""
  },
  {
   "property": "C02",
   "status": "proved",
   "theorems": [
    "C02_composition",
    "C02_linear",
    "C02_exponents_add"
   ],
   "note": ""
  },
  {
   "property": "C03",
   "status": "proved",
   "theorems": [
    "C03_factors_are_si",
    "C03_conversion_is_ratio_of_sizes",
    "C03_factors_positive"
   ],
   "note": ""
  },
  {
   "property": "C04",
   "status": "proved",
   "theorems": [
    "C04_round_trip",
    "C04_composition",
    "C04_anchors",
    "C04_fahrenheit_anchor",
    "C04_abs"
   ],
   "note": ""
  },
  {
   "property": "C05",
   "status": "proved",
   "theorems": [
    "C05_differences"
   ],
   "note": ""
  },
  {
   "property": "C06",
   "status": "proved",
   "theorems": [
    "C06_abs_of_gauge",
    "C06_gauge_of_abs",
    "C06_adds_the_atmosphere",
    "C06_unit_independent"
   ],
   "note": ""
  },
  {
   "property": "C07",
   "status": "proved",
   "theorems": [
    "C07_round_trip",
    "C07_composition",
    "C07_is_ratio_of_amounts",
    "C07_agrees_with_mass_and_molar",
    "C07_kmol_weighs_mw",
    "C07_ismass"
   ],
   "note": ""
  },
  {
   "property": "C08",
   "status": "partial",
   "theorems": [
    "C08_exponent_power_partial",
    "C08_exponent_zero_refuted"
   ],
   "note": "The code violates the full statement; counterexamples: C08_exponent_zero_refuted. The remaining theorems prove the part that holds."
  },
  {
   "property": "C09",
   "status": "partial",
   "theorems": [
    "C09_unknown_source_rejected_partial",
    "C09_unknown_target_rejected_partial",
    "C09_unknown_matter_rejected_partial",
    "C09_same_unknown_unit_refuted",
    "C09_unknown_scale_refuted"
   ],
   "note": "The code violates the full statement; counterexamples: C09_same_unknown_unit_refuted, C09_unknown_scale_refuted. The remaining theorems prove the part that holds."
  },
  {
   "property": "C10",
   "status": "partial",
   "theorems": [
    "C10_atm_follows_setup_partial",
    "C10_setup_gauge_refuted"
   ],
   "note": "The code violates the full statement; counterexamples: C10_setup_gauge_refuted. The remaining theorems prove the part that holds."
  },
  {
   "property": "C11",
   "status": "proved",
   "theorems": [
    "C11_read_only_never_changes",
    "C11_exactly_these_read_only",
    "C11_version_and_install_dir"
   ],
   "note": ""
  },
  {
   "property": "C12",
   "status": "proved",
   "theorems": [
    "C12_append_only_grows",
    "C12_write_appends_leaves",
    "C12_exactly_these_append"
   ],
   "note": ""
  },
  {
   "property": "C13",
   "status": "proved",
   "theorems": [
    "C13_values_typed",
    "C13_declaration_fixed",
    "C13_all_entries_declare_a_type"
   ],
   "note": ""
  },
  {
   "property": "C14",
   "status": "proved",
   "theorems": [
    "C14_documented_names",
    "C14_documented_values",
    "C14_keys_fixed",
    "C14_unknown_rejected",
    "C14_write_touches_one_key",
    "C14_read_after_write",
    "C14_bad_value_dropped"
   ],
   "note": ""
  },
  {
   "property": "C15",
   "status": "proved",
   "theorems": [
    "C15_load_terminates",
    "C15_load_each_reachable_once",
    "C15_config_files_always"
   ],
   "note": ""
  },
  {
   "property": "C16",
   "status": "partial",
   "theorems": [
    "C16_restore_one_entry",
    "C16_restore_returns_initial_value",
    "C16_restore_all_refuted"
   ],
   "note": "The code violates the full statement; counterexamples: C16_restore_all_refuted. The remaining theorems prove the part that holds."
  },
  {
   "property": "C17",
   "status": "proved",
   "theorems": [
    "C17_overwrite_last_wins",
    "C17_ignore_first_wins",
    "C17_fatal_iff_redundant",
    "C17_order_exists",
    "C17_load_succeeds"
   ],
   "note": ""
  },
  {
   "property": "C18",
   "status": "partial",
   "theorems": [
    "C18_only_hpd_files",
    "C18_malformed_files_ignored",
    "C18_one_bad_file_stops_load_refuted",
    "C18_json_list_stops_load_refuted"
   ],
   "note": "The code violates the full statement; counterexamples: C18_one_bad_file_stops_load_refuted, C18_json_list_stops_load_refuted. The remaining theorems prove the part that holds."
  },
  {
   "property": "C19",
   "status": "proved",
   "theorems": [
    "C19_check_does_not_modify",
    "C19_report_exact",
    "C19_load_then_check_clean",
    "C19_equality_reflexive"
   ],
   "note": ""
  },
  {
   "property": "C20",
   "status": "proved",
   "theorems": [
    "C20_keyed_after_any_history",
    "C20_get_returns_own_id",
    "C20_get_fails_otherwise",
    "C20_get_finds_stored"
   ],
   "note": ""
  },
  {
   "property": "C21",
   "status": "proved",
   "theorems": [
    "C21_overwrite_last_wins",
    "C21_ignore_first_wins",
    "C21_fatal_iff_redundant",
    "C21_definitions_exist",
    "C21_rebuilt_from_scratch",
    "C21_missing_directory"
   ],
   "note": ""
  },
  {
   "property": "C22",
   "status": "proved",
   "theorems": [
    "C22_search_exact",
    "C22_search_succeeds",
    "C22_refining",
    "C22_refining_is_one_search",
    "C22_order_irrelevant",
    "C22_no_criteria_returns_all"
   ],
   "note": ""
  },
  {
   "property": "C23",
   "status": "partial",
   "theorems": [
    "C23_collection_complete_partial",
    "C23_collection_with_period_exact",
    "C23_collection_of_id",
    "C23_collection_prefix_refuted"
   ],
   "note": "The code violates the full statement; counterexamples: C23_collection_prefix_refuted. The remaining theorems prove the part that holds."
  },
  {
   "property": "C24",
   "status": "partial",
   "theorems": [
    "C24_hill_order_and_quantities",
    "C24_others_exist",
    "C24_entry_order_irrelevant",
    "C24_hill_determines_composition",
    "C24_electron",
    "C24_from_id",
    "C24_multiple_charge_fails_refuted",
    "C24_id_without_period_fails_refuted"
   ],
   "note": "The code violates the full statement; counterexamples: C24_multiple_charge_fails_refuted, C24_id_without_period_fails_refuted. The remaining theorems prove the part that holds."
  },
  {
   "property": "C25",
   "status": "partial",
   "theorems": [
    "C25_info_keeps_its_argument_partial",
    "C25_single_member_removed_refuted"
   ],
   "note": "The code violates the full statement; counterexamples: C25_single_member_removed_refuted. The remaining theorems prove the part that holds."
  },
  {
   "property": "C26",
   "status": "partial",
   "theorems": [
    "C26_suppress_then_revive_partial",
    "C26_revive_then_suppress_partial",
    "C26_suppress_touches_two_names",
    "C26_failure_changes_nothing",
    "C26_no_error_means_moved",
    "C26_other_names_refused",
    "C26_suppressed_name_not_loaded",
    "C26_older_copy_destroyed_refuted"
   ],
   "note": "The code violates the full statement; counterexamples: C26_older_copy_destroyed_refuted. The remaining theorems prove the part that holds."
  },
  {
   "property": "C27",
   "status": "proved",
   "theorems": [
    "C27_words_kept_in_order",
    "C27_characters_kept",
    "C27_lines_fit",
    "C27_lines_fit_without_lead",
    "C27_refuses_exactly_when_no_room"
   ],
   "note": ""
  },
  {
   "property": "C28",
   "status": "proved",
   "theorems": [
    "C28_ig_values",
    "C28_ig_slopes"
   ],
   "note": ""
  },
  {
   "property": "C29",
   "status": "proved",
   "theorems": [
    "C29_ig2_values",
    "C29_ig2_slopes"
   ],
   "note": ""
  },
  {
   "property": "C30",
   "status": "proved",
   "theorems": [
    "C30_gas_law",
    "C30_calls_together",
    "C30_reports_T",
    "C30_reports_p",
    "C30_reports_d",
    "C30_reports_v"
   ],
   "note": ""
  },
  {
   "property": "C31",
   "status": "proved",
   "theorems": [
    "C31_others_rejected",
    "C31_one_rejected",
    "C31_failures_explained",
    "C31_T_accepted",
    "C31_p_d_accepted"
   ],
   "note": ""
  },
  {
   "property": "C32",
   "status": "proved",
   "theorems": [
    "C32_s_then_p",
    "C32_p_then_s"
   ],
   "note": ""
  },
  {
   "property": "C33",
   "status": "proved",
   "theorems": [
    "C33_heat_capacities",
    "C33_energies",
    "C33_every_unit_system",
    "C33_gas_constant"
   ],
   "note": ""
  },
  {
   "property": "C34",
   "status": "proved",
   "theorems": [
    "C34_exactly_one_interval",
    "C34_evaluated_there",
    "C34_limits",
    "C34_outside_flagged"
   ],
   "note": ""
  },
  {
   "property": "C35",
   "status": "proved",
   "theorems": [
    "C35_result_inside",
    "C35_only_error",
    "C35_evaluated_inside_only",
    "C35_elementwise",
    "C35_converged_meets_tolerance",
    "C35_residual",
    "C35_unreachable_is_reported"
   ],
   "note": ""
  },
  {
   "property": "C36",
   "status": "proved",
   "theorems": [
    "C36_fractions",
    "C36_mw",
    "C36_same_mixture"
   ],
   "note": ""
  },
  {
   "property": "C37",
   "status": "partial",
   "theorems": [
    "C37_partial_pressures",
    "C37_mixing_entropy",
    "C37_calls_as_gas",
    "C37_one_constituent",
    "C37_slopes_partial",
    "C37_gibbs_slope_refuted",
    "C37_zero_amount_refuted"
   ],
   "note": "The code violates the full statement; counterexamples: C37_gibbs_slope_refuted, C37_zero_amount_refuted. The remaining theorems prove the part that holds."
  },
  {
   "property": "C38",
   "status": "partial",
   "theorems": [
    "C38_first_call_partial",
    "C38_later_calls_refuted"
   ],
   "note": "The code violates the full statement; counterexamples: C38_later_calls_refuted. The remaining theorems prove the part that holds."
  },
  {
   "property": "C39",
   "status": "partial",
   "theorems": [
    "C39_sum_partial",
    "C39_commutative_partial",
    "C39_associative_partial",
    "C39_totals_partial",
    "C39_difference_partial",
    "C39_self_difference",
    "C39_scaled",
    "C39_divided",
    "C39_scaled_by_array_partial",
    "C39_mole_fractions",
    "C39_mass_fractions",
    "C39_molar",
    "C39_mass_partial",
    "C39_mass_refuted",
    "C39_dimensions_refuted",
    "C39_scaled_by_array_refuted"
   ],
   "note": "The code violates the full statement; counterexamples: C39_mass_refuted, C39_dimensions_refuted, C39_scaled_by_array_refuted. The remaining theorems prove the part that holds."
  },
  {
   "property": "C40",
   "status": "partial",
   "theorems": [
    "C40_igmix_Tlim",
    "C40_dynamic_Tlim_partial",
    "C40_dynamic_Tlim_same_partial",
    "C40_dynamic_Tlim_refuted"
   ],
   "note": "The code violates the full statement; counterexamples: C40_dynamic_Tlim_refuted. The remaining theorems prove the part that holds."
  },
  {
   "property": "C41",
   "status": "partial",
   "theorems": [
    "C41_items_partial",
    "C41_bad_coefficient_partial",
    "C41_twice_refuted",
    "C41_exponent_refuted",
    "C41_no_name_refuted",
    "C41_trailing_plus_refuted",
    "C41_empty_refuted"
   ],
   "note": "The code violates the full statement; counterexamples: C41_twice_refuted, C41_exponent_refuted, C41_no_name_refuted, C41_trailing_plus_refuted, C41_empty_refuted. The remaining theorems prove the part that holds."
  },
  {
   "property": "C42",
   "status": "partial",
   "theorems": [
    "C42_accepts_partial",
    "C42_rejects_partial",
    "C42_too_strict_refuted",
    "C42_too_lax_refuted",
    "C42_scalars_refuted"
   ],
   "note": "The code violates the full statement; counterexamples: C42_too_strict_refuted, C42_too_lax_refuted, C42_scalars_refuted. The remaining theorems prove the part that holds."
  },
  {
   "property": "C43",
   "status": "partial",
   "theorems": [
    "C43_poly1_exact",
    "C43_poly1_at_zero",
    "C43_poly2_partial",
    "C43_prey_refuted",
    "C43_docstring_example_refuted"
   ],
   "note": "The code violates the full statement; counterexamples: C43_prey_refuted, C43_docstring_example_refuted. The remaining theorems prove the part that holds."
  },
  {
   "property": "C44",
   "status": "partial",
   "theorems": [
    "C44_only_inside_the_limits_partial",
    "C44_fails_iff_partial",
    "C44_result_partial",
    "C44_bracket_kept",
    "C44_bracket_shrinks",
    "C44_lower_limit_refuted",
    "C44_flat_root_refuted"
   ],
   "note": "The code violates the full statement; counterexamples: C44_lower_limit_refuted, C44_flat_root_refuted. The remaining theorems prove the part that holds."
  },
  {
   "property": "C45",
   "status": "partial",
   "theorems": [
    "C45_ideal",
    "C45_residual_partial",
    "C45_critical_partial",
    "C45_critical_value",
    "C45_mixed_refuted"
   ],
   "note": "The code violates the full statement; counterexamples: C45_mixed_refuted. The remaining theorems prove the part that holds."
  },
  {
   "property": "C46",
   "status": "proved",
   "theorems": [
    "C46_saturation_fit",
    "C46_critical_value",
    "C46_positive",
    "C46_unknown_form"
   ],
   "note": ""
  },
  {
   "property": "C47",
   "status": "partial",
   "theorems": [
    "C47_from_free_energy_partial",
    "C47_relations_partial",
    "C47_heat_capacities_partial",
    "C47_derivatives_partial",
    "C47_pressure_slope_refuted",
    "C47_energy_scale_refuted"
   ],
   "note": "The code violates the full statement; counterexamples: C47_pressure_slope_refuted, C47_energy_scale_refuted. The remaining theorems prove the part that holds."
  },
  {
   "property": "C48",
   "status": "partial",
   "theorems": [
    "C48_inside",
    "C48_outside",
    "C48_one_quality",
    "C48_mixture_density_partial",
    "C48_mixture_quality_partial",
    "C48_density",
    "C48_saturated",
    "C48_saturated_density"
   ],
   "note": ""
  },
  {
   "property": "C49",
   "status": "partial",
   "theorems": [
    "C49_combinations",
    "C49_range",
    "C49_accepted_partial",
    "C49_failures_partial"
   ],
   "note": ""
  },
  {
   "property": "C50",
   "status": "partial",
   "theorems": [
    "C50_agrees_partial",
    "C50_refuted",
    "C50_factors_partial"
   ],
   "note": "The code violates the full statement; counterexamples: C50_refuted. The remaining theorems prove the part that holds."
  },
  {
   "property": "C51",
   "status": "proved",
   "theorems": [
    "C51_exact",
    "C51_accepts",
    "C51_failures"
   ],
   "note": ""
  },
  {
   "property": "C52",
   "status": "partial",
   "theorems": [
    "C52_one_region",
    "C52_region1",
    "C52_region2",
    "C52_region3",
    "C52_region5",
    "C52_rejected_partial",
    "C52_cold_refuted"
   ],
   "note": "The code violates the full statement; counterexamples: C52_cold_refuted. The remaining theorems prove the part that holds."
  },
  {
   "property": "C53",
   "status": "proved",
   "theorems": [
    "C53_ps_on_curve",
    "C53_Ts_on_curve",
    "C53_inverse"
   ],
   "note": ""
  },
  {
   "property": "C54",
   "status": "proved",
   "theorems": [
    "C54_bracket",
    "C54_density",
    "C54_unreached"
   ],
   "note": ""
  },
  {
   "property": "C55",
   "status": "partial",
   "theorems": [
    "C55_tolerance_partial",
    "C55_line",
    "C55_signal_refuted",
    "C55_no_passes",
    "C55_limits_partial",
    "C55_limits_refuted"
   ],
   "note": "The code violates the full statement; counterexamples: C55_signal_refuted, C55_limits_refuted. The remaining theorems prove the part that holds."
  },
  {
   "property": "C56",
   "status": "partial",
   "theorems": [
    "C56_unmodified_partial",
    "C56_out_of_range_refuted",
    "C56_entropy_refuted"
   ],
   "note": "The code violates the full statement; counterexamples: C56_out_of_range_refuted, C56_entropy_refuted. The remaining theorems prove the part that holds."
  },
  {
   "property": "C57",
   "status": "partial",
   "theorems": [
    "C57_self_assignment_refuted"
   ],
   "note": "The code violates the full statement; counterexamples: C57_self_assignment_refuted. The remaining theorems prove the part that holds."
  },
  {
   "property": "C58",
   "status": "proved",
   "theorems": [
    "C58_default_temperature",
    "C58_default_pressure",
    "C58_default_pressure_value"
   ],
   "note": ""
  },
  {
   "property": "C59",
   "status": "proved",
   "theorems": [
    "C59_info_lists_everything_in_order",
    "C59_info_reports_nothing_only_when_empty"
   ],
   "note": ""
  },
  {
   "property": "C60",
   "status": "partial",
   "theorems": [
    "C60_long_word_overflows_refuted",
    "C60_paragraph_without_lead_refuted",
    "C60_every_line_has_lead_partial"
   ],
   "note": "The code violates the full statement; counterexamples: C60_long_word_overflows_refuted, C60_paragraph_without_lead_refuted. The remaining theorems prove the part that holds."
  },
  {
   "property": "C61",
   "status": "partial",
   "theorems": [
    "C61_elementwise",
    "C61_one_entropy_refuted"
   ],
   "note": "The code violates the full statement; counterexamples: C61_one_entropy_refuted. The remaining theorems prove the part that holds."
  },
  {
   "property": "C62",
   "status": "partial",
   "theorems": [
    "C62_default_pressure_same_unit",
    "C62_default_pressure_refuted",
    "C62_gas_law_refuted"
   ],
   "note": "The code violates the full statement; counterexamples: C62_default_pressure_refuted, C62_gas_law_refuted. The remaining theorems prove the part that holds."
  },
  {
   "property": "C63",
   "status": "proved",
   "theorems": [
    "C63_history"
   ],
   "note": ""
  },
  {
   "property": "C64",
   "status": "proved",
   "theorems": [
    "C64_atoms"
   ],
   "note": ""
  },
  {
   "property": "C65",
   "status": "partial",
   "theorems": [
    "C65_read_partial",
    "C65_read_element_partial",
    "C65_assign_partial",
    "C65_read_back",
    "C65_insert_partial",
    "C65_remove",
    "C65_insert_remove",
    "C65_absent_rejected",
    "C65_present_not_inserted",
    "C65_unknown_not_inserted",
    "C65_element_assignment_refuted",
    "C65_slice_refuted"
   ],
   "note": "The code violates the full statement; counterexamples: C65_element_assignment_refuted, C65_slice_refuted. The remaining theorems prove the part that holds."
  },
  {
   "property": "C66",
   "status": "partial",
   "theorems": [
    "C66_failed_sum_partial",
    "C66_failed_assignment_partial",
    "C66_failed_sum_refuted",
    "C66_failed_assignment_refuted"
   ],
   "note": "The code violates the full statement; counterexamples: C66_failed_sum_refuted, C66_failed_assignment_refuted. The remaining theorems prove the part that holds."
  },
  {
   "property": "C67",
   "status": "partial",
   "theorems": [
    "C67_amounts_partial",
    "C67_unknown_rejected",
    "C67_mass_refuted"
   ],
   "note": "The code violates the full statement; counterexamples: C67_mass_refuted. The remaining theorems prove the part that holds."
  },
  {
   "property": "C68",
   "status": "partial",
   "theorems": [
    "C68_sum_of_constituents_partial",
    "C68_temperatures_refuted",
    "C68_out_of_range_refuted"
   ],
   "note": "The code violates the full statement; counterexamples: C68_temperatures_refuted, C68_out_of_range_refuted. The remaining theorems prove the part that holds."
  },
  {
   "property": "C69",
   "status": "partial",
   "theorems": [
    "C69_elements_independent_partial",
    "C69_elements_independent_refuted"
   ],
   "note": "The code violates the full statement; counterexamples: C69_elements_independent_refuted. The remaining theorems prove the part that holds."
  },
  {
   "property": "C70",
   "status": "proved",
   "theorems": [
    "C70_region1",
    "C70_region2",
    "C70_region3",
    "C70_region5"
   ],
   "note": ""
  },
  {
   "property": "C71",
   "status": "partial",
   "theorems": [
    "C71_mixture",
    "C71_saturation_state",
    "C71_hsd_partial",
    "C71_hsd_refuted"
   ],
   "note": "The code violates the full statement; counterexamples: C71_hsd_refuted. The remaining theorems prove the part that holds."
  },
  {
   "property": "C72",
   "status": "partial",
   "theorems": [
    "C72_T_h_partial",
    "C72_mixture",
    "C72_entropy5",
    "C72_entropy3_partial",
    "C72_choice_partial",
    "C72_answers_partial",
    "C72_refuses",
    "C72_too_hot",
    "C72_answers_high_partial"
   ],
   "note": ""
  },
  {
   "property": "C73",
   "status": "partial",
   "theorems": [
    "C73_target_twice",
    "C73_target_missing",
    "C73_lengths",
    "C73_count",
    "C73_elementwise_partial",
    "C73_elementwise_refuted",
    "C73_fdf_refuted",
    "C73_construction"
   ],
   "note": "The code violates the full statement; counterexamples: C73_elementwise_refuted, C73_fdf_refuted. The remaining theorems prove the part that holds."
  },
  {
   "property": "C74",
   "status": "partial",
   "theorems": [
    "C74_state_agrees",
    "C74_state_one_argument_refuted",
    "C74_Tlim"
   ],
   "note": "The code violates the full statement; counterexamples: C74_state_one_argument_refuted. The remaining theorems prove the part that holds."
  },
  {
   "property": "C80",
   "status": "proved",
   "theorems": [
    "C80_T_from_h",
    "C80_T_from_e",
    "C80_T_from_s_p",
    "C80_T_from_s_d",
    "C80_p_s"
   ],
   "note": ""
  },
  {
   "property": "C75",
   "status": "partial",
   "theorems": [
    "C75_two_phase_partial",
    "C75_single_phase_partial",
    "C75_one_state",
    "C75_mixed_array_refuted",
    "C75_single_state_partial",
    "C75_critical_mixture_refuted"
   ],
   "note": "The code violates the full statement; counterexamples: C75_mixed_array_refuted, C75_critical_mixture_refuted. The remaining theorems prove the part that holds."
  },
  {
   "property": "C79",
   "status": "partial",
   "theorems": [
    "C79_density_partial",
    "C79_terminates_partial"
   ],
   "note": ""
  },
  {
   "property": "C81",
   "status": "partial",
   "theorems": [
    "C81_T_from_pressure_partial",
    "C81_saturated_from_p_partial",
    "C81_T_from_density_partial",
    "C81_saturated_from_T_partial",
    "C81_density_from_T_partial"
   ],
   "note": ""
  },
  {
   "property": "C82",
   "status": "partial",
   "theorems": [
    "C82_vapor_pressure",
    "C82_Ts_range",
    "C82_Ts",
    "C82_ps_of_Ts",
    "C82_by_pressure",
    "C82_by_both",
    "C82_quality",
    "C82_below_triple_refuted",
    "C82_limits"
   ],
   "note": "The code violates the full statement; counterexamples: C82_below_triple_refuted. The remaining theorems prove the part that holds."
  },
  {
   "property": "C83",
   "status": "partial",
   "theorems": [
    "C83_update_then_load",
    "C83_interrupted",
    "C83_unchanged_files_survive",
    "C83_torn_write_refuted",
    "C83_copied_data_refuted",
    "C83_name_taken_refuted",
    "C83_saved_still_changed_refuted",
    "C83_verbose_prompt_refuted",
    "C83_bad_files_kept_refuted"
   ],
   "note": "The code violates the full statement; counterexamples: C83_torn_write_refuted, C83_copied_data_refuted, C83_name_taken_refuted, C83_saved_still_changed_refuted, C83_verbose_prompt_refuted, C83_bad_files_kept_refuted. The remaining theorems prove the part that holds."
  },
  {
   "property": "C84",
   "status": "partial",
   "theorems": [
    "C84_quiet_keeps_first",
    "C84_quiet_selected_survives",
    "C84_interactive_keeps_one",
    "C84_quiet_delete_refuted",
    "C84_quiet_index_refuted",
    "C84_upper_case_refuted",
    "C84_overlapping_directories_refuted",
    "C84_empty_answer_refuted"
   ],
   "note": "The code violates the full statement; counterexamples: C84_quiet_delete_refuted, C84_quiet_index_refuted, C84_upper_case_refuted, C84_overlapping_directories_refuted, C84_empty_answer_refuted. The remaining theorems prove the part that holds."
  },
  {
   "property": "C78",
   "status": "partial",
   "theorems": [
    "C78_coordinates",
    "C78_failures",
    "C78_properties_partial",
    "C78_cv_partial",
    "C78_free_energies_partial",
    "C78_free_energies_defined"
   ],
   "note": ""
  },
  {
   "property": "C76",
   "status": "proved",
   "theorems": [
    "C76_gas_law",
    "C76_heats",
    "C76_free_energies",
    "C76_given",
    "C76_entropy",
    "C76_entropy_numbers",
    "C76_volume"
   ],
   "note": ""
  },
  {
   "property": "C85",
   "status": "partial",
   "theorems": [
    "C85_list",
    "C85_composition",
    "C85_properties",
    "C85_zero_amount_refuted",
    "C85_from_static_partial",
    "C85_round_trip_partial"
   ],
   "note": "The code violates the full statement; counterexamples: C85_zero_amount_refuted. The remaining theorems prove the part that holds."
  },
  {
   "property": "C77",
   "status": "partial",
   "theorems": [
    "C77_count",
    "C77_sum_partial",
    "C77_scaled",
    "C77_static"
   ],
   "note": ""
  },
  {
   "property": "C86",
   "status": "partial",
   "theorems": [
    "C86_dictionary_partial",
    "C86_dictionary_refuted",
    "C86_round_trip",
    "C86_reshape",
    "C86_reshape_back"
   ],
   "note": "The code violates the full statement; counterexamples: C86_dictionary_refuted. The remaining theorems prove the part that holds."
  },
  {
   "property": "C87",
   "status": "partial",
   "theorems": [
    "C87_temperature_partial",
    "C87_saturated",
    "C87_found_again_refuted",
    "C87_boiling_refuted"
   ],
   "note": "The code violates the full statement; counterexamples: C87_found_again_refuted, C87_boiling_refuted. The remaining theorems prove the part that holds."
  },
  {
   "property": "C88",
   "status": "partial",
   "theorems": [
    "C88_gibbs",
    "C88_energy_partial",
    "C88_isobar_partial",
    "C88_isentrope_partial"
   ],
   "note": ""
  },
  {
   "property": "C89",
   "status": "partial",
   "theorems": [
    "C89_unmodified_partial",
    "C89_unmodified_several_partial",
    "C89_answers_partial",
    "C89_answers_several_partial",
    "C89_temperatures_refuted",
    "C89_pressures_refuted",
    "C89_quality_refuted",
    "C89_density_refuted",
    "C89_own_array_refuted"
   ],
   "note": "The code violates the full statement; counterexamples: C89_temperatures_refuted, C89_pressures_refuted, C89_quality_refuted, C89_density_refuted, C89_own_array_refuted. The remaining theorems prove the part that holds."
  },
  {
   "property": "C90",
   "status": "partial",
   "theorems": [
    "C90_elementwise_partial",
    "C90_state_partial",
    "C90_hsd_partial",
    "C90_out_of_range_refuted"
   ],
   "note": "The code violates the full statement; counterexamples: C90_out_of_range_refuted. The remaining theorems prove the part that holds."
  },
  {
   "property": "C91",
   "status": "partial",
   "theorems": [
    "C91_single",
    "C91_mixture",
    "C91_mixture_state",
    "C91_above_critical_refuted"
   ],
   "note": "The code violates the full statement; counterexamples: C91_above_critical_refuted. The remaining theorems prove the part that holds."
  },
  {
   "property": "C92",
   "status": "partial",
   "theorems": [
    "C92_not_in_place",
    "C92_in_place",
    "C92_numbers",
    "C92_integers",
    "C92_round_trip",
    "C92_new_array_refuted"
   ],
   "note": "The code violates the full statement; counterexamples: C92_new_array_refuted. The remaining theorems prove the part that holds."
  },
  {
   "property": "C93",
   "status": "partial",
   "theorems": [
    "C93_independent",
    "C93_families",
    "C93_slices_follow",
    "C93_slice_shared_refuted",
    "C93_entry_shared_refuted",
    "C93_items_shared_refuted"
   ],
   "note": "The code violates the full statement; counterexamples: C93_slice_shared_refuted, C93_entry_shared_refuted, C93_items_shared_refuted. The remaining theorems prove the part that holds."
  },
  {
   "property": "C94",
   "status": "partial",
   "theorems": [
    "C94_T_h_failures",
    "C94_properties_partial",
    "C94_default_refuted",
    "C94_default_raw",
    "C94_elements",
    "C94_failures",
    "C94_entropy_partial",
    "C94_entropy_refuted",
    "C94_gam_refuted",
    "C94_hsd",
    "C94_saturation",
    "C94_saturation_entropy_partial",
    "C94_saturation_entropy_refuted",
    "C94_range_T",
    "C94_range_p",
    "C94_range_answers",
    "C94_number_T_refuted",
    "C94_number_p_refuted",
    "C94_critical",
    "C94_triple",
    "C94_Tlim",
    "C94_plim",
    "C94_mw",
    "C94_T_h_partial",
    "C94_T_h_elements",
    "C94_T_h_pressure_refuted",
    "C94_T_h_molar_refuted",
    "C94_T_h_celsius_refuted"
   ],
   "note": "The code violates the full statement; counterexamples: C94_default_refuted, C94_entropy_refuted, C94_gam_refuted, C94_saturation_entropy_refuted, C94_number_T_refuted, C94_number_p_refuted, C94_T_h_pressure_refuted, C94_T_h_molar_refuted, C94_T_h_celsius_refuted. The remaining theorems prove the part that holds."
  },
  {
   "property": "C95",
   "status": "partial",
   "theorems": [
    "C95_answers_partial",
    "C95_refuses",
    "C95_too_hot",
    "C95_elements",
    "C95_failures",
    "C95_T_s_partial",
    "C95_choice_partial",
    "C95_mixture",
    "C95_low_pressure_refuted",
    "C95_pressure_refuted"
   ],
   "note": "The code violates the full statement; counterexamples: C95_low_pressure_refuted, C95_pressure_refuted. The remaining theorems prove the part that holds."
  },
  {
   "property": "C96",
   "status": "partial",
   "theorems": [
    "C96_names",
    "C96_membership",
    "C96_lists",
    "C96_remove",
    "C96_insert_refused",
    "C96_constructed_partial",
    "C96_open_shape",
    "C96_sizes",
    "C96_twice_refuted",
    "C96_keywords_refuted",
    "C96_collection_refuted",
    "C96_integers_refuted",
    "C96_length_refuted"
   ],
   "note": "The code violates the full statement; counterexamples: C96_twice_refuted, C96_keywords_refuted, C96_collection_refuted, C96_integers_refuted, C96_length_refuted. The remaining theorems prove the part that holds."
  }
 ]
}