{
 "claims": [
  {
   "property": "C01",
   "status": "proved",
   "theorems": [
    "c01_constructor_accepts_exactly_valid_designs",
    "c01_invalid_parameters_raise"
   ],
   "note": ""
  },
  {
   "property": "C02",
   "status": "proved",
   "theorems": [
    "c02_derived_counts",
    "c02_counts_ordered",
    "c02_trim_is_floor_or_ceiling",
    "c02_exact_floor_refuted"
   ],
   "note": ""
  },
  {
   "property": "C03",
   "status": "proved",
   "theorems": [
    "c03_yaml_round_trip",
    "c03_last_write_wins",
    "c03_unwritten_path_fails"
   ],
   "note": ""
  },
  {
   "property": "C04",
   "status": "proved",
   "theorems": [
    "c04_load_iff_document_consistent",
    "c04_tampered_counts_rejected"
   ],
   "note": ""
  },
  {
   "property": "C05",
   "status": "proved",
   "theorems": [
    "c05_design_id_ignores_salt",
    "c05_equal_ids_mean_equal_designs_or_md5_collision",
    "c05_hashed_text_determines_design",
    "c05_shown_text_determines_the_design_and_its_salt"
   ],
   "note": ""
  },
  {
   "property": "C06",
   "status": "proved",
   "theorems": [
    "c06_coinflip_is_0_or_1",
    "c06_coinflip_is_md5_parity",
    "c06_same_salted_id_same_arm",
    "c06_salt_rejected_iff_empty",
    "c06_random_salt_accepted_iff_nonempty"
   ],
   "note": ""
  },
  {
   "property": "C07",
   "status": "proved",
   "theorems": [
    "c07_printed_washout_weeks_are_labelled_washout",
    "c07_printed_swap_week_starts_second_half"
   ],
   "note": ""
  },
  {
   "property": "C08",
   "status": "proved",
   "theorems": [
    "c08_returns_wanted_designs_in_order",
    "c08_design_returned_iff"
   ],
   "note": ""
  },
  {
   "property": "C09",
   "status": "proved",
   "theorems": [
    "c09_washout_value_irrelevant",
    "c09_omitted_washout_returns_only_nothing",
    "c09_omitted_washout_raises",
    "c09_crossover_free_enumeration_refuted"
   ],
   "note": ""
  },
  {
   "property": "C10",
   "status": "proved",
   "theorems": [
    "c10_returns_iff_every_constructed_design_is_valid",
    "c10_invalid_candidates_are_filtered_refuted"
   ],
   "note": ""
  },
  {
   "property": "C11",
   "status": "proved",
   "theorems": [
    "c11_minimum_start_week_is_least_with_room",
    "c11_raises_otherwise"
   ],
   "note": ""
  },
  {
   "property": "C12",
   "status": "proved",
   "theorems": [
    "c12_regular_periods",
    "c12_add_time_period_column"
   ],
   "note": ""
  },
  {
   "property": "C13",
   "status": "proved",
   "theorems": [
    "c13_crossover_periods",
    "c13_equal_positive_test_periods"
   ],
   "note": ""
  },
  {
   "property": "C14",
   "status": "proved",
   "theorems": [
    "c14_rows_come_by_item_and_arm",
    "c14_values_are_weekly_averages",
    "c14_unlabelled_rows_do_not_matter",
    "c14_fails_iff_no_test_week",
    "c14_rows_are_read_cell_by_cell"
   ],
   "note": ""
  },
  {
   "property": "C15",
   "status": "proved",
   "theorems": [
    "c15_successful_pivot_leaves_the_frame_unchanged",
    "c15_successful_calls_are_independent",
    "c15_argument_errors_leave_the_frame_unchanged",
    "c15_failed_pivot_blocks_the_frame",
    "c15_failed_calls_are_atomic_refuted"
   ],
   "note": ""
  },
  {
   "property": "C16",
   "status": "proved",
   "theorems": [
    "c16_plot_spans_match_labels",
    "c16_plot_start_date"
   ],
   "note": ""
  },
  {
   "property": "C17",
   "status": "proved",
   "theorems": [
    "c17_week_id_and_start",
    "c17_given_start_labels_every_row",
    "c17_default_start_is_earliest_date"
   ],
   "note": ""
  },
  {
   "property": "C18",
   "status": "proved",
   "theorems": [
    "c18_daily_data_gives_complete_weeks_with_exact_totals",
    "c18_weekly_data_is_returned_unchanged",
    "c18_totals_of_complete_weeks_are_conserved"
   ],
   "note": ""
  },
  {
   "property": "C19",
   "status": "proved",
   "theorems": [
    "c19_raises_iff_neither_daily_nor_weekly",
    "c19_single_date_data_comes_back_empty",
    "c19_weekly_data_is_never_grouped_refuted"
   ],
   "note": ""
  },
  {
   "property": "C20",
   "status": "proved",
   "theorems": [
    "c20_filled_grid",
    "c20_size_without_duplicates",
    "c20_missing_columns_raise"
   ],
   "note": ""
  },
  {
   "property": "C21",
   "status": "proved",
   "theorems": [
    "c21_filling_is_idempotent",
    "c21_totals_are_kept"
   ],
   "note": ""
  },
  {
   "property": "C22",
   "status": "proved",
   "theorems": [
    "c22_downsampling_keeps_whole_items",
    "c22_downsampling_raises_iff"
   ],
   "note": ""
  },
  {
   "property": "C23",
   "status": "proved",
   "theorems": [
    "c23_output_columns",
    "c23_raises_iff",
    "c23_shared_input_column_keeps_both_refuted"
   ],
   "note": ""
  },
  {
   "property": "C24",
   "status": "proved",
   "theorems": [
    "c24_wrapped_check_raises_iff_failed_and_not_skipped",
    "c24_exception_in_check_is_not_skippable",
    "c24_unknown_skip_name_is_rejected_first",
    "c24_skipping_affects_only_that_check",
    "c24_the_names_that_may_be_skipped",
    "c24_unknown_names_are_value_errors"
   ],
   "note": ""
  },
  {
   "property": "C25",
   "status": "proved",
   "theorems": [
    "c25_passes_iff_uniform",
    "c25_empty_data_raises",
    "c25_with_equal_item_sets_passing_means_exactly_once",
    "c25_passing_means_every_item_once_per_date_refuted"
   ],
   "note": ""
  },
  {
   "property": "C26",
   "status": "proved",
   "theorems": [
    "c26_spacing_check_passes_iff",
    "c26_midnight_dates_form_a_progression"
   ],
   "note": ""
  },
  {
   "property": "C27",
   "status": "proved",
   "theorems": [
    "c27_passing_means_ids_consecutive_and_monotone",
    "c27_passes_iff_when_dates_have_one_week",
    "c27_generated_ids_pass"
   ],
   "note": ""
  },
  {
   "property": "C28",
   "status": "proved",
   "theorems": [
    "c28_no_nulls_iff",
    "c28_finite_iff",
    "c28_non_negative_iff",
    "c28_together_values_are_finite_and_non_negative",
    "c28_missing_metric_raises"
   ],
   "note": ""
  },
  {
   "property": "C29",
   "status": "proved",
   "theorems": [
    "c29_passes_iff_range_is_covered",
    "c29_complete_daily_range_required_refuted"
   ],
   "note": ""
  },
  {
   "property": "C30",
   "status": "proved",
   "theorems": [
    "c30_number_of_items_iff",
    "c30_unique_arm_iff",
    "c30_coinflip_iff",
    "c30_coinflip_implies_unique_arm",
    "c30_missing_salt_raises"
   ],
   "note": ""
  },
  {
   "property": "C31",
   "status": "proved",
   "theorems": [
    "c31_srm_tests_distinct_items",
    "c31_duplicated_rows_do_not_matter",
    "c31_other_arms_are_ignored"
   ],
   "note": ""
  },
  {
   "property": "C32",
   "status": "proved",
   "theorems": [
    "c32_historical_validation_is_the_conjunction",
    "c32_experiment_validation_is_the_conjunction",
    "c32_skipped_checks_cannot_fail_refuted"
   ],
   "note": ""
  },
  {
   "property": "C33",
   "status": "proved",
   "theorems": [
    "c33_new_column_is_indicator",
    "c33_fresh_names",
    "c33_missing_source_raises"
   ],
   "note": ""
  },
  {
   "property": "C34",
   "status": "proved",
   "theorems": [
    "c34_daily_data_gives_one_row_per_kept_item_and_complete_week",
    "c34_weekly_data_is_passed_through",
    "c34_duplicated_daily_rows_are_rejected_refuted"
   ],
   "note": ""
  },
  {
   "property": "C35",
   "status": "proved",
   "theorems": [
    "c35_rows_are_assigned_items_times_observed_dates",
    "c35_one_row_per_assigned_item_and_date"
   ],
   "note": ""
  },
  {
   "property": "C36",
   "status": "proved",
   "theorems": [
    "c36_succeeds_iff_percentiles_valid",
    "c36_removes_exactly_the_extremes",
    "c36_kept_values_do_not_depend_on_tie_break",
    "c36_nothing_to_trim_returns_the_data",
    "c36_size_with_missing_values_refuted",
    "c36_some_row_is_kept_refuted"
   ],
   "note": ""
  },
  {
   "property": "C37",
   "status": "proved",
   "theorems": [
    "c37_arms_are_coinflips_of_the_stored_salt",
    "c37_without_trimming_all_items_once",
    "c37_with_trimming_items_between_the_extremes",
    "c37_second_call_reproduces_arms",
    "c37_second_call_same_data",
    "c37_failed_call_leaves_design_refuted",
    "c37_fails_only_on_sample_ratio_mismatch"
   ],
   "note": ""
  },
  {
   "property": "C38",
   "status": "proved",
   "theorems": [
    "c38_assigned_items_pass_validation",
    "c38_all_items_recent_needed_refuted"
   ],
   "note": ""
  },
  {
   "property": "C39",
   "status": "proved",
   "theorems": [
    "c39_lognormal_moments",
    "c39_bad_parameters_rejected"
   ],
   "note": ""
  },
  {
   "property": "C40",
   "status": "proved",
   "theorems": [
    "c40_beta_mean",
    "c40_beta_variance",
    "c40_beta_standard_deviation_refuted"
   ],
   "note": ""
  },
  {
   "property": "C41",
   "status": "proved",
   "theorems": [
    "c41_runs_exactly_on_valid_parameters",
    "c41_one_row_per_item_and_day",
    "c41_counts_are_consistent"
   ],
   "note": ""
  },
  {
   "property": "C42",
   "status": "proved",
   "theorems": [
    "c42_effects_on_treated_rows_only",
    "c42_zeros_stay",
    "c42_treated_weeks_regular",
    "c42_treated_weeks_crossover",
    "c42_washout_without_test_period_refuted"
   ],
   "note": ""
  },
  {
   "property": "C43",
   "status": "proved",
   "theorems": [
    "c43_accepts_exactly_quantiles_below_half",
    "c43_trims_floor_of_quantile_times_n",
    "c43_length_assertion_never_fires",
    "c43_empty_arrays_are_rejected",
    "c43_same_count_as_the_design"
   ],
   "note": ""
  },
  {
   "property": "C44",
   "status": "proved",
   "theorems": [
    "c44_keeps_the_middle_order_statistics",
    "c44_ties_do_not_matter"
   ],
   "note": ""
  },
  {
   "property": "C45",
   "status": "proved",
   "theorems": [
    "c45_winsorized_moments"
   ],
   "note": ""
  },
  {
   "property": "C46",
   "status": "proved",
   "theorems": [
    "c46_covariance_matrix",
    "c46_untrimmed_is_the_ordinary_mean_and_covariance"
   ],
   "note": ""
  },
  {
   "property": "C47",
   "status": "proved",
   "theorems": [
    "c47_order_shift_and_scale"
   ],
   "note": ""
  },
  {
   "property": "C48",
   "status": "proved",
   "theorems": [
    "c48_without_trimming",
    "c48_constant_covariate_gives_nan",
    "c48_mean_is_unchanged_refuted"
   ],
   "note": ""
  },
  {
   "property": "C49",
   "status": "proved",
   "theorems": [
    "c49_trimmed_never_hurts"
   ],
   "note": ""
  },
  {
   "property": "C50",
   "status": "proved",
   "theorems": [
    "c50_without_standard_error",
    "c50_no_degrees_of_freedom_no_p_value",
    "c50_p_values_are_coherent",
    "c50_other_alternatives_are_rejected"
   ],
   "note": ""
  },
  {
   "property": "C51",
   "status": "proved",
   "theorems": [
    "c51_intervals_at_extreme_levels",
    "c51_significant_iff_interval_excludes_zero",
    "c51_what_the_test_computes"
   ],
   "note": ""
  },
  {
   "property": "C52",
   "status": "proved",
   "theorems": [
    "c52_significant_iff_interval_excludes_zero",
    "c52_untrimmed",
    "c52_constant_sample_has_nan_bounds",
    "c52_what_the_test_computes",
    "c52_without_variance_refuted"
   ],
   "note": ""
  },
  {
   "property": "C53",
   "status": "proved",
   "theorems": [
    "c53_swapping_independent_samples",
    "c53_swapping_paired_samples"
   ],
   "note": ""
  },
  {
   "property": "C54",
   "status": "proved",
   "theorems": [
    "c54_changing_the_unit",
    "c54_changing_the_unit_paired"
   ],
   "note": ""
  },
  {
   "property": "C55",
   "status": "proved",
   "theorems": [
    "c55_degrees_of_freedom",
    "c55_standard_errors"
   ],
   "note": ""
  },
  {
   "property": "C56",
   "status": "proved",
   "theorems": [
    "c56_bounded_interval_is_fiellers_set",
    "c56_agrees_with_the_absolute_interval"
   ],
   "note": ""
  },
  {
   "property": "C57",
   "status": "proved",
   "theorems": [
    "c57_lower_bound_at_least_minus_one",
    "c57_upper_not_below_lower",
    "c57_interval_is_fiellers_set",
    "c57_correlated_interval_contains_estimate_refuted",
    "c57_upper_not_below_lower_for_tiny_variances_refuted",
    "c57_threshold_bound_is_a_number_refuted"
   ],
   "note": ""
  },
  {
   "property": "C58",
   "status": "proved",
   "theorems": [
    "c58_independent_of_the_unit",
    "c58_unit_does_not_matter_refuted"
   ],
   "note": ""
  },
  {
   "property": "C59",
   "status": "proved",
   "theorems": [
    "c59_relative_difference_independent",
    "c59_relative_difference_paired",
    "c59_always_returns_refuted"
   ],
   "note": ""
  },
  {
   "property": "C60",
   "status": "proved",
   "theorems": [
    "c60_variance_of_a_ratio",
    "c60_variance_of_a_ratio_not_negative",
    "c60_variance_of_a_difference_of_ratios",
    "c60_correlation_of_the_ratios",
    "c60_independent_arms",
    "c60_variance_with_zero_numerator_refuted"
   ],
   "note": ""
  },
  {
   "property": "C61",
   "status": "proved",
   "theorems": [
    "c61_minimum_detectable_effect",
    "c61_standard_errors_of_the_designs",
    "c61_always_positive_refuted"
   ],
   "note": ""
  },
  {
   "property": "C62",
   "status": "proved",
   "theorems": [
    "c62_pairs_raw_values",
    "c62_demeaned",
    "c62_common_period_effects_cancel",
    "c62_common_period_effects_cancel_without_demeaning_refuted"
   ],
   "note": ""
  },
  {
   "property": "C63",
   "status": "proved",
   "theorems": [
    "c63_recovered_exactly_without_demeaning",
    "c63_recovered_share_with_demeaning"
   ],
   "note": ""
  },
  {
   "property": "C64",
   "status": "proved",
   "theorems": [
    "c64_recovered_exactly_without_pretest",
    "c64_share_recovered_with_pretest"
   ],
   "note": ""
  },
  {
   "property": "C65",
   "status": "proved",
   "theorems": [
    "c65_level_is_always_five_percent",
    "c65_only_three_parameters_matter",
    "c65_agrees_with_a_design_at_five_percent",
    "c65_uses_the_level_of_the_design_refuted"
   ],
   "note": ""
  },
  {
   "property": "C66",
   "status": "proved",
   "theorems": [
    "c66_one_result_per_metric",
    "c66_end_to_end",
    "c66_missing_period_is_an_error"
   ],
   "note": ""
  },
  {
   "property": "C67",
   "status": "proved",
   "theorems": [
    "c67_start_weeks_have_room"
   ],
   "note": ""
  },
  {
   "property": "C68",
   "status": "proved",
   "theorems": [
    "c68_rejects_exactly_the_reserved_names",
    "c68_copies_of_rows_with_fresh_ids",
    "c68_the_drawn_rows",
    "c68_reserved_names_are_never_seen_in_a_simulation",
    "c68_simulated_rows_have_distinct_ids"
   ],
   "note": ""
  },
  {
   "property": "C69",
   "status": "proved",
   "theorems": [
    "c69_every_item_gets_one_arm",
    "c69_plain_names_come_back",
    "c69_other_metric_names_cannot_be_validated",
    "c69_name_round_trip",
    "c69_other_names_are_lost",
    "c69_every_name_survives_refuted"
   ],
   "note": ""
  },
  {
   "property": "C70",
   "status": "proved",
   "theorems": [
    "c70_effect_can_be_applied_iff",
    "c70_effect_in_a_crossover",
    "c70_effect_in_a_regular_experiment"
   ],
   "note": ""
  },
  {
   "property": "C71",
   "status": "proved",
   "theorems": [
    "c71_validate_first_is_an_error",
    "c71_failed_calls_change_no_attribute",
    "c71_attributes_tell_what_has_succeeded",
    "c71_estimating_again_keeps_old_results",
    "c71_one_result_per_simulation",
    "c71_values_are_none_until_validated",
    "c71_all_pass_is_the_conjunction",
    "c71_validation_without_simulations"
   ],
   "note": ""
  },
  {
   "property": "C72",
   "status": "proved",
   "theorems": [
    "c72_check_passes_iff_p_value_at_threshold",
    "c72_rates_are_fractions_of_significant_simulations",
    "c72_what_is_tested"
   ],
   "note": ""
  },
  {
   "property": "C73",
   "status": "proved",
   "theorems": [
    "c73_estimation_succeeds_iff",
    "c73_estimation_size",
    "c73_averages_over_the_start_weeks",
    "c73_no_start_week_is_an_error",
    "c73_sizes_never_differ",
    "c73_minimum_detectable_effect",
    "c73_effect_never_fails",
    "c73_balanced_data_can_be_estimated",
    "c73_crossover_statistics",
    "c73_regular_statistics",
    "c73_regular_statistics_with_pretest",
    "c73_regular_statistics_with_pretest_and_trimming",
    "c73_constant_pretest_gives_nan"
   ],
   "note": ""
  },
  {
   "property": "C74",
   "status": "proved",
   "theorems": [
    "c74_p_value_text",
    "c74_inequalities_are_truthful",
    "c74_nan_p_value_is_shown_as_large",
    "c74_p_above_99_percent_only_if_so_refuted",
    "c74_displayed_number_decides_significance_refuted",
    "c74_colours",
    "c74_relative_interval_text",
    "c74_texts_of_unbounded_intervals"
   ],
   "note": ""
  },
  {
   "property": "C75",
   "status": "proved",
   "theorems": [
    "c75_cumulative_curve",
    "c75_lorenz_points",
    "c75_lorenz_shape",
    "c75_lorenz_zero_total_has_no_finite_point"
   ],
   "note": ""
  },
  {
   "property": "C76",
   "status": "proved",
   "theorems": [
    "c76_drawn_iff_every_side_fits",
    "c76_drawn_bars_are_finite",
    "c76_finite_intervals_are_drawn_exactly",
    "c76_single_interval",
    "c76_failures_are_value_errors",
    "c76_infinities_are_handled_refuted",
    "c76_plot_effects_succeeds_iff",
    "c76_unbounded_primary_metric_fails",
    "c76_capital_letters_are_lowered"
   ],
   "note": ""
  },
  {
   "property": "C77",
   "status": "proved",
   "theorems": [
    "c77_mean_kept_variance_not_larger",
    "c77_dates_without_a_value",
    "c77_without_pretest_rows_it_raises",
    "c77_null_dates_make_it_raise",
    "c77_missing_values_count_nothing"
   ],
   "note": ""
  },
  {
   "property": "C78",
   "status": "proved",
   "theorems": [
    "c78_prepared_dates_lie_in_the_experiment"
   ],
   "note": ""
  },
  {
   "property": "C79",
   "status": "proved",
   "theorems": [
    "c79_estimate_without_trimming_covers_the_analysis",
    "c79_gap_of_the_estimate_with_trimming",
    "c79_estimate_with_trimming_covers_the_analysis_refuted",
    "c79_estimate_with_trimmed_items_refuted"
   ],
   "note": ""
  },
  {
   "property": "C80",
   "status": "proved",
   "theorems": [
    "c80_constants_are_moved_to_the_caption_except_the_washout",
    "c80_the_titles",
    "c80_display_of_a_table_without_a_parameter_fails",
    "c80_summary_has_the_design_the_id_and_the_results",
    "c80_results_are_none_until_computed",
    "c80_summary_without_validation_never_fails",
    "c80_table_has_one_sorted_row_per_analysis",
    "c80_table_fails_iff",
    "c80_hidden_columns_are_the_validation_results",
    "c80_display_loses_nothing",
    "c80_display_never_fails",
    "c80_one_design_is_described_by_the_caption",
    "c80_check_colours",
    "c80_formatted_columns"
   ],
   "note": ""
  },
  {
   "property": "C81",
   "status": "proved",
   "theorems": [
    "c81_infinite_values_are_drawn",
    "c81_raw_values",
    "c81_missing_arm_raises",
    "c81_other_column_names_raise",
    "c81_adjusted_values",
    "c81_dates_without_adjustment_are_left_out",
    "c81_band_is_too_narrow",
    "c81_adjustment_never_widens_the_band_refuted"
   ],
   "note": ""
  },
  {
   "property": "C82",
   "status": "proved",
   "theorems": [
    "c82_missing_values_count_nothing",
    "c82_rows_without_key_are_left_out",
    "c82_weekly_totals",
    "c82_balanced_data_lorenz_curve",
    "c82_lorenz_curve_shows_captured_share_refuted"
   ],
   "note": ""
  },
  {
   "property": "C83",
   "status": "proved",
   "theorems": [
    "c83_prepared_data_must_lose_a_column_first",
    "c83_every_week_is_observed",
    "c83_end_to_end",
    "c83_crossover_results_always_come",
    "c83_every_week_has_rows",
    "c83_end_to_end_at_any_time_of_day",
    "c83_crossover_results_at_any_time_of_day",
    "c83_every_week_is_observed_from_its_start_refuted"
   ],
   "note": ""
  },
  {
   "property": "C84",
   "status": "proved",
   "theorems": [
    "c84_warnings",
    "c84_equal_values_are_reported",
    "c84_no_warning_means_positive_variances",
    "c84_only_constant_samples_are_reported_refuted"
   ],
   "note": ""
  },
  {
   "property": "C85",
   "status": "proved",
   "theorems": [
    "c85_the_drawn_arms_are_compared",
    "c85_simulated_effects_are_found",
    "c85_crossover_effects_are_finite",
    "c85_estimated_crossover_designs_can_be_validated",
    "c85_what_a_simulation_draws",
    "c85_simulations_follow_each_other"
   ],
   "note": ""
  },
  {
   "property": "C86",
   "status": "proved",
   "theorems": [
    "c86_absolute_effect_text",
    "c86_absolute_interval_text",
    "c86_no_separators",
    "c86_projected_effect_text",
    "c86_projected_interval_text",
    "c86_thousands",
    "c86_projection_keeps_effects_refuted",
    "c86_header_shows_the_level",
    "c86_default_header",
    "c86_the_table",
    "c86_the_columns",
    "c86_the_cells",
    "c86_every_table_can_be_shown_refuted",
    "c86_one_header_for_all_levels_refuted",
    "c86_no_certain_intervals_refuted"
   ],
   "note": ""
  },
  {
   "property": "C87",
   "status": "proved",
   "theorems": [
    "c87_prepared_history_is_a_panel",
    "c87_every_design_can_be_estimated",
    "c87_crossover_designs_can_be_validated",
    "c87_complete_history_is_accepted",
    "c87_every_panel_passes",
    "c87_which_designs_are_offered",
    "c87_validated_designs_are_left_alone",
    "c87_no_simulations_can_be_repaired_refuted",
    "c87_the_export_is_consistent",
    "c87_validated_designs_can_be_exported"
   ],
   "note": ""
  },
  {
   "property": "C88",
   "status": "proved",
   "theorems": [
    "c88_historical_reads_three_columns",
    "c88_accepted_historical_calls",
    "c88_other_columns_do_not_matter",
    "c88_the_metric_is_kept_refuted",
    "c88_rows_without_item_id_are_rejected_refuted",
    "c88_experiment_data_from_the_columns_read",
    "c88_experiment_data_accepted",
    "c88_name_clashes_are_rejected",
    "c88_other_assignment_columns_do_not_matter_refuted",
    "c88_a_second_item_column_is_rejected"
   ],
   "note": ""
  },
  {
   "property": "C89",
   "status": "proved",
   "theorems": [
    "c89_what_stops_a_regular_analysis",
    "c89_without_pretest_succeeds_iff",
    "c89_sparse_metrics_cannot_be_analysed",
    "c89_with_pretest_succeeds_iff",
    "c89_what_stops_a_regular_validation",
    "c89_positive_metrics_can_be_validated",
    "c89_estimated_regular_designs_can_be_validated_refuted"
   ],
   "note": ""
  },
  {
   "property": "C90",
   "status": "proved",
   "theorems": [
    "c90_every_design_can_be_printed",
    "c90_only_the_last_line_depends_on_the_salt",
    "c90_what_the_text_says",
    "c90_crossover_lines",
    "c90_item_lines",
    "c90_percentage_lines",
    "c90_same_text_same_design",
    "c90_no_trimming_means_no_percentile_refuted",
    "c90_announced_top_trimming_removes_items_refuted",
    "c90_announced_percentage_is_positive_refuted",
    "c90_the_text_shows_whether_items_were_assigned_refuted"
   ],
   "note": ""
  },
  {
   "property": "C91",
   "status": "proved",
   "theorems": [
    "c91_crossover_results_have_the_announced_size",
    "c91_regular_results_have_nearly_the_announced_size",
    "c91_regular_results_have_the_announced_size_refuted",
    "c91_the_size_bounds_are_attained",
    "c91_same_totals_same_results",
    "c91_the_order_of_the_rows_does_not_matter",
    "c91_same_weekly_totals_same_results",
    "c91_a_crossover_reads_only_its_test_weeks",
    "c91_reported_sizes",
    "c91_the_printed_number_is_the_reported_one",
    "c91_weekly_totals_fix_the_indicators_refuted"
   ],
   "note": ""
  },
  {
   "property": "C92",
   "status": "proved",
   "theorems": [
    "c92_says_not_validated_exactly_if_so",
    "c92_no_simulations_is_a_key_error",
    "c92_what_is_drawn",
    "c92_every_number_is_in_one_bar",
    "c92_rates_are_shares_of_the_simulations",
    "c92_densities_have_area_one_refuted",
    "c92_p_values_are_probabilities",
    "c92_plotted_unless_all_p_values_are_missing",
    "c92_idle_metrics_cannot_be_plotted",
    "c92_validated_designs_can_be_plotted_refuted"
   ],
   "note": ""
  },
  {
   "property": "C93",
   "status": "proved",
   "theorems": [
    "c93_texts_of_the_form",
    "c93_what_the_form_requests",
    "c93_other_columns_must_exist",
    "c93_all_five_columns_are_needed",
    "c93_crossover_results_with_ratios",
    "c93_crossover_gives_eleven_results",
    "c93_figure_finds_the_primary_metric_iff",
    "c93_designs_for_cost_and_value_have_no_figure",
    "c93_five_metrics_are_projected",
    "c93_adjusted_plots_need_pretest_weeks",
    "c93_plots_of_the_raw_values",
    "c93_days_per_period",
    "c93_the_last_week_is_complete_refuted",
    "c93_figure_is_drawn_iff",
    "c93_figure_without_relative_differences"
   ],
   "note": ""
  },
  {
   "property": "C94",
   "status": "proved",
   "theorems": [
    "c94_resists_as_many_outliers_as_are_trimmed",
    "c94_one_outlier_more_is_not_resisted",
    "c94_monotone",
    "c94_independent_test_resists_outliers",
    "c94_paired_test_resists_outliers"
   ],
   "note": ""
  },
  {
   "property": "C95",
   "status": "proved",
   "theorems": [
    "c95_effects_of_this_size_are_detected_with_the_power",
    "c95_estimates_that_reach_it_are_significant",
    "c95_significant_estimates_reach_it_refuted"
   ],
   "note": ""
  },
  {
   "property": "C96",
   "status": "proved",
   "theorems": [
    "c96_unit_of_the_covariate_does_not_matter",
    "c96_unit_of_the_metric"
   ],
   "note": ""
  },
  {
   "property": "C97",
   "status": "proved",
   "theorems": [
    "c97_what_stops_a_regular_experiment",
    "c97_without_pretest_results_come_iff",
    "c97_notebook_of_a_regular_experiment",
    "c97_results_come_when_both_arms_have_items_refuted"
   ],
   "note": ""
  },
  {
   "property": "C98",
   "status": "proved",
   "theorems": [
    "c98_adjusted_plots_come_iff",
    "c98_what_the_adjusted_plots_show",
    "c98_pretest_differences_cancel",
    "c98_checked_pretest_data_is_plotted_refuted"
   ],
   "note": ""
  },
  {
   "property": "C99",
   "status": "proved",
   "theorems": [
    "c99_interval_holds_what_the_independent_test_does_not_reject",
    "c99_interval_holds_what_the_paired_test_does_not_reject",
    "c99_absolute_interval_covers_the_true_difference",
    "c99_relative_interval_covers_the_true_lift"
   ],
   "note": ""
  },
  {
   "property": "C100",
   "status": "proved",
   "theorems": [
    "c100_what_the_adjusted_analysis_computes",
    "c100_balanced_arms_gain",
    "c100_adjusted_error_never_larger_refuted",
    "c100_balance_alone_gains_refuted"
   ],
   "note": ""
  },
  {
   "property": "C101",
   "status": "proved",
   "theorems": [
    "c101_constant_denominators_are_a_unit",
    "c101_zero_numerators_have_no_test",
    "c101_constant_denominators_are_a_unit_paired",
    "c101_zero_numerators_have_no_interval_paired",
    "c101_constant_denominators_without_conversions_refuted"
   ],
   "note": ""
  },
  {
   "property": "C102",
   "status": "proved",
   "theorems": [
    "c102_regular_ratios_are_of_totals",
    "c102_regular_metrics_are_per_item_and_week",
    "c102_crossover_ratios_are_of_totals",
    "c102_rising_ratios_give_a_positive_estimate_refuted"
   ],
   "note": ""
  },
  {
   "property": "C103",
   "status": "proved",
   "theorems": [
    "c103_a_regular_ratio_without_numerators_has_no_test",
    "c103_a_crossover_ratio_without_numerators_has_no_interval"
   ],
   "note": ""
  },
  {
   "property": "C104",
   "status": "proved",
   "theorems": [
    "c104_estimates_are_unbiased",
    "c104_squared_errors_are_conservative",
    "c104_coins_give_unbiased_estimates",
    "c104_assignments",
    "c104_trimmed_estimates_are_unbiased_refuted"
   ],
   "note": ""
  },
  {
   "property": "C105",
   "status": "proved",
   "theorems": [
    "c105_groups_of_fixed_size",
    "c105_coins",
    "c105_without_demeaning",
    "c105_coins_are_unbiased_refuted"
   ],
   "note": ""
  },
  {
   "property": "C106",
   "status": "proved",
   "theorems": [
    "c106_squared_errors_of_equal_groups",
    "c106_errors_are_too_small",
    "c106_errors_are_conservative_refuted"
   ],
   "note": ""
  },
  {
   "property": "C107",
   "status": "proved",
   "theorems": [
    "c107_adjusted_estimates",
    "c107_constant_effects_shrink",
    "c107_adjusted_estimates_are_unbiased_refuted"
   ],
   "note": ""
  },
  {
   "property": "C108",
   "status": "proved",
   "theorems": [
    "c108_whole_numbers_are_added_exactly",
    "c108_order_of_whole_numbers_is_irrelevant",
    "c108_averages_of_whole_numbers",
    "c108_whole_numbers_in_groups",
    "c108_rounding_of_totals",
    "c108_rounding_grows_slowly",
    "c108_rounding_of_trimmed_means",
    "c108_order_is_irrelevant_refuted",
    "c108_rounding_in_groups",
    "c108_rounding_of_group_means",
    "c108_plain_totals_have_this_bound_refuted"
   ],
   "note": ""
  },
  {
   "property": "C109",
   "status": "proved",
   "theorems": [
    "c109_rows_of_a_regular_experiment",
    "c109_at_least_one_rows_are_shares_of_weekly_data",
    "c109_rates_of_a_crossover_experiment",
    "c109_at_least_one_rows_are_shares_refuted"
   ],
   "note": ""
  },
  {
   "property": "C110",
   "status": "proved",
   "theorems": [
    "c110_rounding_of_covariances",
    "c110_rounding_of_winsorized_means",
    "c110_rounding_of_variances",
    "c110_variances_are_never_negative",
    "c110_rounding_of_standard_deviations",
    "c110_equal_whole_numbers_have_no_variance",
    "c110_equal_values_have_no_variance_refuted"
   ],
   "note": ""
  },
  {
   "property": "C111",
   "status": "proved",
   "theorems": [
    "c111_rounding_of_paired_standard_errors",
    "c111_exchanging_the_arms_negates_the_statistic",
    "c111_sign_of_the_difference",
    "c111_rounding_of_standard_errors",
    "c111_difference_is_least_precise",
    "c111_arms_can_be_exchanged",
    "c111_rounding_of_the_interval",
    "c111_interval_uses_the_same_error_refuted"
   ],
   "note": ""
  }
 ]
}