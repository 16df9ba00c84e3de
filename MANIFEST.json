{
 "claims": [
  {
   "property": "C01",
   "status": "proved",
   "theorems": [
    "C01_gaussian_filter_moving_sum",
    "C01_nonpositive_length_raises"
   ],
   "note": ""
  },
  {
   "property": "C02",
   "status": "proved",
   "theorems": [
    "C02_window_normalised_symmetric"
   ],
   "note": ""
  },
  {
   "property": "C03",
   "status": "proved",
   "theorems": [
    "C03_window_peak_at_centre_refuted"
   ],
   "note": "Part of the statement that the code violates is refuted by C03_window_peak_at_centre_refuted."
  },
  {
   "property": "C04",
   "status": "proved",
   "theorems": [
    "C04_linear",
    "C04_constant",
    "C04_bounds"
   ],
   "note": ""
  },
  {
   "property": "C05",
   "status": "proved",
   "theorems": [
    "C05_decode_16bit",
    "C05_decode_injective"
   ],
   "note": ""
  },
  {
   "property": "C06",
   "status": "proved",
   "theorems": [
    "C06_wide_words_top_bits",
    "C06_negative_words_minus_sign",
    "C06_flag_is_bit_15_minus_i_refuted"
   ],
   "note": "Part of the statement that the code violates is refuted by C06_flag_is_bit_15_minus_i_refuted."
  },
  {
   "property": "C07",
   "status": "proved",
   "theorems": [
    "C07_dataframe_rows",
    "C07_second_call_raises"
   ],
   "note": ""
  },
  {
   "property": "C08",
   "status": "proved",
   "theorems": [
    "C08_output_path",
    "C08_any_path",
    "C08_input_untouched"
   ],
   "note": ""
  },
  {
   "property": "C09",
   "status": "proved",
   "theorems": [
    "C09_line_by_line",
    "C09_succeeds_iff"
   ],
   "note": ""
  },
  {
   "property": "C10",
   "status": "proved",
   "theorems": [
    "C10_bare_string_quoted"
   ],
   "note": ""
  },
  {
   "property": "C11",
   "status": "proved",
   "theorems": [
    "C11_comment_always_dropped",
    "C11_comments_kept_refuted"
   ],
   "note": "Part of the statement that the code violates is refuted by C11_comments_kept_refuted."
  },
  {
   "property": "C12",
   "status": "proved",
   "theorems": [
    "C12_failure_point"
   ],
   "note": ""
  },
  {
   "property": "C13",
   "status": "proved",
   "theorems": [
    "C13_click_history_is_undo_stack"
   ],
   "note": ""
  },
  {
   "property": "C14",
   "status": "proved",
   "theorems": [
    "C14_right_click_on_empty"
   ],
   "note": ""
  },
  {
   "property": "C15",
   "status": "proved",
   "theorems": [
    "C15_cross_hair_on_data_point",
    "C15_move_never_raises"
   ],
   "note": ""
  },
  {
   "property": "C16",
   "status": "proved",
   "theorems": [
    "C16_snaps_to_right_neighbour",
    "C16_snaps_to_closest_refuted"
   ],
   "note": "Part of the statement that the code violates is refuted by C16_snaps_to_closest_refuted."
  },
  {
   "property": "C17",
   "status": "proved",
   "theorems": [
    "C17_shape_and_nan_edges",
    "C17_bad_input_raises"
   ],
   "note": ""
  },
  {
   "property": "C18",
   "status": "proved",
   "theorems": [
    "C18_polynomial_latitude",
    "C18_polynomial_longitude",
    "C18_parallel_radius_geometry"
   ],
   "note": ""
  },
  {
   "property": "C19",
   "status": "proved",
   "theorems": [
    "C19_longitude_origin",
    "C19_frequency",
    "C19_reversal",
    "C19_stationary"
   ],
   "note": ""
  },
  {
   "property": "C20",
   "status": "proved",
   "theorems": [
    "C20_polar_form",
    "C20_heading_unique",
    "C20_elementwise"
   ],
   "note": ""
  },
  {
   "property": "C21",
   "status": "proved",
   "theorems": [
    "C21_magnitude",
    "C21_inverse",
    "C21_aligned"
   ],
   "note": ""
  },
  {
   "property": "C22",
   "status": "proved",
   "theorems": [
    "C22_zenith_cosines",
    "C22_node",
    "C22_prediction"
   ],
   "note": ""
  },
  {
   "property": "C23",
   "status": "proved",
   "theorems": [
    "C23_longitude_period",
    "C23_components_sum",
    "C23_unequal_lengths_raise"
   ],
   "note": ""
  },
  {
   "property": "C24",
   "status": "proved",
   "theorems": [
    "C24_time_argument",
    "C24_offset_times",
    "C24_naive_raises"
   ],
   "note": ""
  },
  {
   "property": "C25",
   "status": "proved",
   "theorems": [
    "C25_same_instant_same_tide_refuted"
   ],
   "note": "Part of the statement that the code violates is refuted by C25_same_instant_same_tide_refuted."
  },
  {
   "property": "C26",
   "status": "proved",
   "theorems": [
    "C26_bound"
   ],
   "note": ""
  },
  {
   "property": "C27",
   "status": "proved",
   "theorems": [
    "C27_shape",
    "C27_failures",
    "C27_stationary_is_zero"
   ],
   "note": ""
  },
  {
   "property": "C28",
   "status": "proved",
   "theorems": [
    "C28_longitude_origin"
   ],
   "note": ""
  },
  {
   "property": "C29",
   "status": "proved",
   "theorems": [
    "C29_motion_effect",
    "C29_effect_unique",
    "C29_local"
   ],
   "note": ""
  },
  {
   "property": "C30",
   "status": "proved",
   "theorems": [
    "C30_equator",
    "C30_sign"
   ],
   "note": ""
  },
  {
   "property": "C31",
   "status": "proved",
   "theorems": [
    "C31_zero_height",
    "C31_decreasing",
    "C31_free_water",
    "C31_theory"
   ],
   "note": ""
  },
  {
   "property": "C32",
   "status": "proved",
   "theorems": [
    "C32_symmetric",
    "C32_increasing",
    "C32_equator_and_poles",
    "C32_somigliana"
   ],
   "note": ""
  },
  {
   "property": "C33",
   "status": "proved",
   "theorems": [
    "C33_first_derivative",
    "C33_second_derivative",
    "C33_other_orders"
   ],
   "note": ""
  },
  {
   "property": "C34",
   "status": "proved",
   "theorems": [
    "C34_segments",
    "C34_no_long_run"
   ],
   "note": ""
  },
  {
   "property": "C35",
   "status": "proved",
   "theorems": [
    "C35_nothing_after_last_gap",
    "C35_every_long_run_used_refuted"
   ],
   "note": "Part of the statement that the code violates is refuted by C35_every_long_run_used_refuted."
  },
  {
   "property": "C36",
   "status": "proved",
   "theorems": [
    "C36_rows",
    "C36_row_is_local",
    "C36_row_count",
    "C36_quadratics",
    "C36_differentiator_unique"
   ],
   "note": ""
  },
  {
   "property": "C37",
   "status": "proved",
   "theorems": [
    "C37_coefficients_recovered",
    "C37_fit_exists",
    "C37_recoverable"
   ],
   "note": ""
  },
  {
   "property": "C38",
   "status": "proved",
   "theorems": [
    "C38_up_vecs",
    "C38_unit_vectors",
    "C38_at_rest"
   ],
   "note": ""
  },
  {
   "property": "C39",
   "status": "proved",
   "theorems": [
    "C39_platform_equation",
    "C39_equation_unique",
    "C39_bounded",
    "C39_sine_response",
    "C39_response_exists",
    "C39_static_gain",
    "C39_stable_whenever_dt_below_period_refuted"
   ],
   "note": "Part of the statement that the code violates is refuted by C39_stable_whenever_dt_below_period_refuted."
  },
  {
   "property": "C40",
   "status": "proved",
   "theorems": [
    "C40_arrays_cleaned",
    "C40_ignored_samples"
   ],
   "note": ""
  },
  {
   "property": "C41",
   "status": "proved",
   "theorems": [
    "C41_flat_profile",
    "C41_proportional_to_contrast",
    "C41_empty_profile_raises"
   ],
   "note": ""
  },
  {
   "property": "C42",
   "status": "proved",
   "theorems": [
    "C42_parker_series",
    "C42_bin_wavenumbers",
    "C42_odd_profile_refuted"
   ],
   "note": "Part of the statement that the code violates is refuted by C42_odd_profile_refuted."
  },
  {
   "property": "C43",
   "status": "proved",
   "theorems": [
    "C43_folded",
    "C43_unfolded_even",
    "C43_unfolded_odd_raises",
    "C43_flat_surface",
    "C43_proportional_to_contrast"
   ],
   "note": ""
  },
  {
   "property": "C44",
   "status": "proved",
   "theorems": [
    "C44_layer_formula",
    "C44_uniform_layer",
    "C44_no_thickness",
    "C44_linear"
   ],
   "note": ""
  },
  {
   "property": "C45",
   "status": "proved",
   "theorems": [
    "C45_wrong_bins",
    "C45_layer_field_refuted"
   ],
   "note": "Part of the statement that the code violates is refuted by C45_layer_field_refuted."
  },
  {
   "property": "C46",
   "status": "proved",
   "theorems": [
    "C46_half_space_field",
    "C46_temperature_physical",
    "C46_root_age_subsidence",
    "C46_ridge_axis",
    "C46_errors"
   ],
   "note": ""
  },
  {
   "property": "C47",
   "status": "proved",
   "theorems": [
    "C47_isotherm_round_trip",
    "C47_extreme_isotherms",
    "C47_distance_and_age_agree",
    "C47_errors"
   ],
   "note": ""
  },
  {
   "property": "C48",
   "status": "proved",
   "theorems": [
    "C48_plate_field",
    "C48_old_plate",
    "C48_subsidence",
    "C48_never_above_mantle_refuted",
    "C48_no_subsidence_on_axis_refuted",
    "C48_errors"
   ],
   "note": "Part of the statement that the code violates is refuted by C48_never_above_mantle_refuted, C48_no_subsidence_on_axis_refuted."
  },
  {
   "property": "C49",
   "status": "proved",
   "theorems": [
    "C49_best_grid_depth",
    "C49_errors"
   ],
   "note": ""
  },
  {
   "property": "C50",
   "status": "proved",
   "theorems": [
    "C50_output",
    "C50_slab_thickness_order",
    "C50_input_order_refuted"
   ],
   "note": "Part of the statement that the code violates is refuted by C50_input_order_refuted."
  },
  {
   "property": "C51",
   "status": "proved",
   "theorems": [
    "C51_displaced_bins",
    "C51_single_line_bins",
    "C51_mean_bin_wrong",
    "C51_bin_wavenumbers_refuted",
    "C51_real_thickness_refuted"
   ],
   "note": "Part of the statement that the code violates is refuted by C51_bin_wavenumbers_refuted, C51_real_thickness_refuted."
  },
  {
   "property": "C52",
   "status": "proved",
   "theorems": [
    "C52_taper",
    "C52_taper_continuous",
    "C52_cutoffs_checked",
    "C52_size_checked"
   ],
   "note": ""
  },
  {
   "property": "C53",
   "status": "proved",
   "theorems": [
    "C53_recovered_gravity",
    "C53_recovered_in_place_refuted"
   ],
   "note": "Part of the statement that the code violates is refuted by C53_recovered_in_place_refuted."
  },
  {
   "property": "C54",
   "status": "proved",
   "theorems": [
    "C54_positions",
    "C54_short_line_raises"
   ],
   "note": ""
  },
  {
   "property": "C55",
   "status": "proved",
   "theorems": [
    "C55_missing_positions"
   ],
   "note": ""
  },
  {
   "property": "C56",
   "status": "proved",
   "theorems": [
    "C56_two_decimals",
    "C56_right_iff_two_decimals",
    "C56_one_decimal_refuted",
    "C56_three_digits_raise"
   ],
   "note": "Part of the statement that the code violates is refuted by C56_one_decimal_refuted."
  },
  {
   "property": "C57",
   "status": "proved",
   "theorems": [
    "C57_Atlantis",
    "C57_NBP",
    "C57_Thompson_seconds",
    "C57_Thompson_refuted",
    "C57_Langseth",
    "C57_Ride_posix",
    "C57_Ride_iso",
    "C57_Ride_other",
    "C57_no_date_raises"
   ],
   "note": "Part of the statement that the code violates is refuted by C57_Thompson_refuted."
  },
  {
   "property": "C58",
   "status": "proved",
   "theorems": [
    "C58_day_early",
    "C58_midnight_refuted"
   ],
   "note": "Part of the statement that the code violates is refuted by C58_midnight_refuted."
  },
  {
   "property": "C59",
   "status": "proved",
   "theorems": [
    "C59_Revelle_dates",
    "C59_every_file_has_blocks"
   ],
   "note": ""
  },
  {
   "property": "C60",
   "status": "proved",
   "theorems": [
    "C60_table",
    "C60_missing_file",
    "C60_no_fixes_raises",
    "C60_undated_Revelle_raises",
    "C60_user_reader_raises"
   ],
   "note": ""
  },
  {
   "property": "C61",
   "status": "proved",
   "theorems": [
    "C61_sampling_ignored",
    "C61_resampled_refuted",
    "C61_zero_raises"
   ],
   "note": "Part of the statement that the code violates is refuted by C61_resampled_refuted."
  },
  {
   "property": "C62",
   "status": "proved",
   "theorems": [
    "C62_refused_iff"
   ],
   "note": ""
  },
  {
   "property": "C63",
   "status": "proved",
   "theorems": [
    "C63_every_dth"
   ],
   "note": ""
  },
  {
   "property": "C64",
   "status": "proved",
   "theorems": [
    "C64_clean_result",
    "C64_antimeridian",
    "C64_no_jump_left"
   ],
   "note": ""
  },
  {
   "property": "C65",
   "status": "proved",
   "theorems": [
    "C65_refuted"
   ],
   "note": "Part of the statement that the code violates is refuted by C65_refuted."
  },
  {
   "property": "C66",
   "status": "proved",
   "theorems": [
    "C66_files",
    "C66_rgrav",
    "C66_minus_999",
    "C66_no_files",
    "C66_first_error"
   ],
   "note": ""
  },
  {
   "property": "C67",
   "status": "proved",
   "theorems": [
    "C67_spikes",
    "C67_exact",
    "C67_index_column",
    "C67_unique",
    "C67_bad_counts"
   ],
   "note": ""
  },
  {
   "property": "C68",
   "status": "proved",
   "theorems": [
    "C68_refuted",
    "C68_kept"
   ],
   "note": "Part of the statement that the code violates is refuted by C68_refuted."
  },
  {
   "property": "C69",
   "status": "proved",
   "theorems": [
    "C69_rows",
    "C69_every_line",
    "C69_no_rows"
   ],
   "note": ""
  },
  {
   "property": "C70",
   "status": "proved",
   "theorems": [
    "C70_files",
    "C70_monitors"
   ],
   "note": ""
  },
  {
   "property": "C71",
   "status": "proved",
   "theorems": [
    "C71_rgs_minus_999",
    "C71_rgs_files",
    "C71_rgs_errors",
    "C71_laptop_files",
    "C71_laptop_minus_999"
   ],
   "note": ""
  },
  {
   "property": "C72",
   "status": "proved",
   "theorems": [
    "C72_refuted",
    "C72_feed",
    "C72_rows",
    "C72_complete"
   ],
   "note": "Part of the statement that the code violates is refuted by C72_refuted."
  },
  {
   "property": "C73",
   "status": "proved",
   "theorems": [
    "C73_refuted",
    "C73_fields",
    "C73_dollar"
   ],
   "note": "Part of the statement that the code violates is refuted by C73_refuted."
  },
  {
   "property": "C74",
   "status": "proved",
   "theorems": [
    "C74_datum_independent_refuted"
   ],
   "note": "Part of the statement that the code violates is refuted by C74_datum_independent_refuted."
  },
  {
   "property": "C75",
   "status": "proved",
   "theorems": [
    "C75_half_space_diffusion",
    "C75_plate_diffusion"
   ],
   "note": ""
  },
  {
   "property": "C76",
   "status": "proved",
   "theorems": [
    "C76_half_space_isostasy",
    "C76_plate_isostasy"
   ],
   "note": ""
  },
  {
   "property": "C77",
   "status": "proved",
   "theorems": [
    "C77_files",
    "C77_names",
    "C77_no_files",
    "C77_both_points_in_file_refuted"
   ],
   "note": "Part of the statement that the code violates is refuted by C77_both_points_in_file_refuted."
  },
  {
   "property": "C78",
   "status": "proved",
   "theorems": [
    "C78_exact",
    "C78_west_spike_removed",
    "C78_east_spike_kept",
    "C78_no_jump_left_refuted"
   ],
   "note": "Part of the statement that the code violates is refuted by C78_no_jump_left_refuted."
  },
  {
   "property": "C79",
   "status": "proved",
   "theorems": [
    "C79_fixes_used",
    "C79_interpolated",
    "C79_uniform_motion",
    "C79_at_fix",
    "C79_at_every_fix_refuted"
   ],
   "note": "Part of the statement that the code violates is refuted by C79_at_every_fix_refuted."
  },
  {
   "property": "C80",
   "status": "proved",
   "theorems": [
    "C80_anchored",
    "C80_equator",
    "C80_bias",
    "C80_longitude_turn",
    "C80_reduction",
    "C80_failures"
   ],
   "note": ""
  },
  {
   "property": "C81",
   "status": "proved",
   "theorems": [
    "C81_filter",
    "C81_weights_unique",
    "C81_lines_kept",
    "C81_linear",
    "C81_reversal",
    "C81_interior",
    "C81_waves",
    "C81_trimmed_start",
    "C81_trimmed_free_of_edges_refuted"
   ],
   "note": "Part of the statement that the code violates is refuted by C81_trimmed_free_of_edges_refuted."
  },
  {
   "property": "C82",
   "status": "proved",
   "theorems": [
    "C82_accelerations",
    "C82_steady"
   ],
   "note": ""
  },
  {
   "property": "C83",
   "status": "proved",
   "theorems": [
    "C83_level_error",
    "C83_steady",
    "C83_cross_only",
    "C83_projection_refuted"
   ],
   "note": "Part of the statement that the code violates is refuted by C83_projection_refuted."
  },
  {
   "property": "C84",
   "status": "proved",
   "theorems": [
    "C84_rows",
    "C84_same_samples_refuted",
    "C84_correction",
    "C84_correctable"
   ],
   "note": "Part of the statement that the code violates is refuted by C84_same_samples_refuted."
  },
  {
   "property": "C85",
   "status": "proved",
   "theorems": [
    "C85_files",
    "C85_one_name",
    "C85_again",
    "C85_text",
    "C85_stable",
    "C85_up_to_date_refuted",
    "C85_read"
   ],
   "note": "Part of the statement that the code violates is refuted by C85_up_to_date_refuted."
  },
  {
   "property": "C86",
   "status": "proved",
   "theorems": [
    "C86_extension",
    "C86_failures"
   ],
   "note": ""
  },
  {
   "property": "C87",
   "status": "proved",
   "theorems": [
    "C87_embedded",
    "C87_on_extended_line",
    "C87_failures"
   ],
   "note": ""
  },
  {
   "property": "C88",
   "status": "proved",
   "theorems": [
    "C88_contrasts",
    "C88_surfaces",
    "C88_depth_unique",
    "C88_flat",
    "C88_missing"
   ],
   "note": ""
  },
  {
   "property": "C89",
   "status": "proved",
   "theorems": [
    "C89_resampled",
    "C89_outside",
    "C89_any_order",
    "C89_linear",
    "C89_ends"
   ],
   "note": ""
  },
  {
   "property": "C90",
   "status": "proved",
   "theorems": [
    "C90_envelope",
    "C90_covers",
    "C90_covers_always_refuted",
    "C90_failures"
   ],
   "note": "Part of the statement that the code violates is refuted by C90_covers_always_refuted."
  },
  {
   "property": "C91",
   "status": "proved",
   "theorems": [
    "C91_coherence",
    "C91_range",
    "C91_full",
    "C91_one_segment",
    "C91_units",
    "C91_symmetric",
    "C91_linear",
    "C91_unrelated",
    "C91_constant",
    "C91_script"
   ],
   "note": ""
  },
  {
   "property": "C92",
   "status": "proved",
   "theorems": [
    "C92_loads",
    "C92_duplicates",
    "C92_text_kept",
    "C92_same_number",
    "C92_number_forms",
    "C92_rejected",
    "C92_loads_always_refuted",
    "C92_text_value_refuted",
    "C92_exceptions"
   ],
   "note": "Part of the statement that the code violates is refuted by C92_loads_always_refuted, C92_text_value_refuted."
  },
  {
   "property": "C93",
   "status": "proved",
   "theorems": [
    "C93_columns",
    "C93_gravity",
    "C93_full_scale",
    "C93_first_failure",
    "C93_succeeds_iff",
    "C93_from_file"
   ],
   "note": ""
  },
  {
   "property": "C94",
   "status": "proved",
   "theorems": [
    "C94_missing",
    "C94_values",
    "C94_difference",
    "C94_failures",
    "C94_complete",
    "C94_navigation_gap"
   ],
   "note": ""
  },
  {
   "property": "C95",
   "status": "proved",
   "theorems": [
    "C95_missing",
    "C95_values",
    "C95_complete"
   ],
   "note": ""
  },
  {
   "property": "C96",
   "status": "proved",
   "theorems": [
    "C96_table",
    "C96_time_order",
    "C96_time_order_refuted"
   ],
   "note": "Part of the statement that the code violates is refuted by C96_time_order_refuted."
  },
  {
   "property": "C97",
   "status": "proved",
   "theorems": [
    "C97_Atlantis",
    "C97_NBP",
    "C97_Thompson",
    "C97_Revelle",
    "C97_Langseth",
    "C97_Ride_posix",
    "C97_Ride_iso",
    "C97_positions"
   ],
   "note": ""
  },
  {
   "property": "C98",
   "status": "proved",
   "theorems": [
    "C98_filter_error",
    "C98_working_precision",
    "C98_constant",
    "C98_same_exceptions",
    "C98_unrounded"
   ],
   "note": ""
  },
  {
   "property": "C99",
   "status": "proved",
   "theorems": [
    "C99_wgs_grav",
    "C99_free_air",
    "C99_eotvos"
   ],
   "note": ""
  },
  {
   "property": "C100",
   "status": "proved",
   "theorems": [
    "C100_spacing",
    "C100_every_series",
    "C100_curves",
    "C100_gains",
    "C100_constant",
    "C100_missing",
    "C100_drawn",
    "C100_recovered_in_place_refuted"
   ],
   "note": "Part of the statement that the code violates is refuted by C100_recovered_in_place_refuted."
  },
  {
   "property": "C101",
   "status": "proved",
   "theorems": [
    "C101_tide",
    "C101_node"
   ],
   "note": ""
  },
  {
   "property": "C102",
   "status": "proved",
   "theorems": [
    "C102_anomaly",
    "C102_anchored"
   ],
   "note": ""
  },
  {
   "property": "C103",
   "status": "proved",
   "theorems": [
    "C103_equator",
    "C103_still",
    "C103_two_meters",
    "C103_file_order",
    "C103_failures",
    "C103_positions",
    "C103_dates"
   ],
   "note": ""
  },
  {
   "property": "C104",
   "status": "proved",
   "theorems": [
    "C104_same_fixes",
    "C104_order",
    "C104_repeated",
    "C104_script",
    "C104_any_order_refuted"
   ],
   "note": "Part of the statement that the code violates is refuted by C104_any_order_refuted."
  },
  {
   "property": "C105",
   "status": "proved",
   "theorems": [
    "C105_position",
    "C105_still",
    "C105_anchored"
   ],
   "note": ""
  },
  {
   "property": "C106",
   "status": "proved",
   "theorems": [
    "C106_fit",
    "C106_correction",
    "C106_fit_exists"
   ],
   "note": ""
  },
  {
   "property": "C107",
   "status": "proved",
   "theorems": [
    "C107_cross_coupling",
    "C107_steady"
   ],
   "note": ""
  },
  {
   "property": "C108",
   "status": "proved",
   "theorems": [
    "C108_numbers",
    "C108_positions",
    "C108_enough_fields",
    "C108_read_nav",
    "C108_attained"
   ],
   "note": ""
  },
  {
   "property": "C109",
   "status": "proved",
   "theorems": [
    "C109_read_nav",
    "C109_read_bgm",
    "C109_constants",
    "C109_new_ship",
    "C109_errors"
   ],
   "note": ""
  },
  {
   "property": "C110",
   "status": "proved",
   "theorems": [
    "C110_difference",
    "C110_filtered",
    "C110_offset"
   ],
   "note": ""
  },
  {
   "property": "C111",
   "status": "proved",
   "theorems": [
    "C111_crustal_thickness",
    "C111_thermal",
    "C111_tide",
    "C111_corrections",
    "C111_up_vecs",
    "C111_gaussian_filter",
    "C111_padded",
    "C111_folding",
    "C111_status",
    "C111_cross_coupling"
   ],
   "note": ""
  },
  {
   "property": "C112",
   "status": "proved",
   "theorems": [
    "C112_table",
    "C112_names",
    "C112_files",
    "C112_profile"
   ],
   "note": ""
  },
  {
   "property": "C113",
   "status": "proved",
   "theorems": [
    "C113_curves",
    "C113_file_order",
    "C113_positions",
    "C113_failures"
   ],
   "note": ""
  },
  {
   "property": "C114",
   "status": "proved",
   "theorems": [
    "C114_curves",
    "C114_bias",
    "C114_file_order",
    "C114_channels",
    "C114_failures"
   ],
   "note": ""
  },
  {
   "property": "C115",
   "status": "proved",
   "theorems": [
    "C115_file",
    "C115_raw",
    "C115_meters",
    "C115_ccp"
   ],
   "note": ""
  },
  {
   "property": "C116",
   "status": "proved",
   "theorems": [
    "C116_profile",
    "C116_offset",
    "C116_flat",
    "C116_failures"
   ],
   "note": ""
  }
 ]
}