# Axioms used by each theorem (output of `Print Assumptions`)

## Closed under the global context

`C01_ion_refusals`, `C01_name_order_irrelevant`, `C01_reparse_is_identity`, `C01_several_arguments_order_irrelevant`, `C01_single_argument_sorted_names`, `C02_success_iff`, `C02_type_error_iff`, `C02_value_error_iff`, `C03_ion_species`, `C03_setting_species`, `C03_setting_species_idempotent`, `C04_check_succeeds_iff`, `C04_unavailable_always_reported_refuted`, `C04_unavailable_nonempty_reported_partial`, `C05_drop_species`, `C05_unknown_species`, `C06_complete_table_accepted`, `C06_field_of_a_species`, `C06_kept_columns`, `C06_missing_label`, `C06_no_thermal_speed`, `C09_setting_own_data`, `C105_digits_partial`, `C105_insignificant_digits_refuted`, `C105_no_uncertainty`, `C106_argument_changed_refuted`, `C106_second_use_same_partial`, `C107_first_names_partial`, `C107_names_again_refuted`, `C109_crash_while_replacing_refuted`, `C109_recovers_next_day_partial`, `C109_torn_file_is_fresh_refuted`, `C111_summary`, `C112_default_threshold_refuted`, `C112_given_threshold_used`, `C116_safe_path`, `C117_ascii_distinct_partial`, `C117_lt_gt_same_path_refuted`, `C118_comparison_units`, `C118_function_units`, `C118_unitless_operand`, `C119_count`, `C119_normalised`, `C120_uncertainty_label`, `C124_no_boxes`, `C136_vector_validation`, `C138_spacecraft_needed`, `C139_wrong_length`, `C139_wrong_selection`, `C140_linear_and_log_y_share_a_path_refuted`, `C140_path_components`, `C140_path_identifies_the_plot_partial`, `C140_set_labels`, `C140_set_log`, `C143_resid_kwargs_are_modified_refuted`, `C144_both_keeps_the_label`, `C144_no_label`, `C144_one_kind_keeps_the_label_refuted`, `C144_one_kind_partial`, `C146_automatic_path`, `C146_ends_in`, `C146_given_path`, `C146_path_after_set_log_refuted`, `C146_path_identifies_labels_and_scales`, `C146_set_labels`, `C146_set_log`, `C146_unexpected_label`, `C146_unknown_labels`, `C149_colour_bar`, `C149_second_plot_with_the_same_dict_refuted`, `C150_clipped_scatter_refuted`, `C151_transposed`, `C152_all_data`, `C152_indicator_data`, `C152_indicator_plot_refuted`, `C153_fraction_refused`, `C156_legs`, `C156_refused`, `C159_axes`, `C159_colour_bar_error`, `C159_colour_bar_refuted`, `C159_in_out`, `C159_kinds_partial`, `C159_limited_colours`, `C159_limited_colours_refused`, `C165_function_refuted`, `C165_given_levels`, `C165_labelled`, `C167_swapped_band_refuted`, `C168_frequency_distinct`, `C168_frequency_plain_refuted`, `C168_frequency_says`, `C168_timedelta_distinct`, `C168_timedelta_says`, `C168_unknown_step`, `C169_datetime_path`, `C169_datetime_paths_refuted`, `C169_epoch_distinct`, `C169_epoch_says`, `C169_epoch_spaces`, `C169_january`, `C169_title_case`, `C170_abundance_says`, `C170_known_species_refuted`, `C170_normalised_distinct`, `C170_paths_tell_species`, `C170_percent_path_refuted`, `C171_charges`, `C171_integer_charge_refuted`, `C171_ion_says`, `C171_ions_distinct`, `C171_ratio`, `C171_usual_notation_refuted`, `C172_ssn_accepts`, `C172_ssn_distinct`, `C172_ssn_says`, `C172_xcorr_accepts`, `C172_xcorr_errors`, `C172_xcorr_quotes`, `C172_xcorr_tex`, `C173_keys`, `C173_urls`, `C174_calendar`, `C174_other_keys`, `C174_time_of_row`, `C174_times_in_order`, `C175_file_layout`, `C176_nan_mark_refuted`, `C178_normalisation_refuted`, `C180_joint_table`, `C180_when`, `C181_fitted_values_by_name`, `C183_absolute_value`, `C183_correlation_file`, `C183_count`, `C183_dates`, `C183_directories`, `C183_distance`, `C183_distance_text`, `C183_function`, `C183_manual`, `C183_probability_and_count`, `C183_spaced_comparison`, `C183_sunspots`, `C183_template_names`, `C183_units_line`, `C184_dangling_refuted`, `C184_default_frame`, `C184_well_formed`, `C195_axnorm_keeps_the_path_refuted`, `C195_density_by_name_refuted`, `C195_hist1d_axnorm`, `C195_hist1d_label_refuted`, `C195_label_names_normalisation_partial`, `C195_new_hist1d`, `C195_set_labels_refreshes`, `C195_shared_label_refuted`, `C195_stale_path_refuted`, `C195_text_label`, `C195_unknown_normalisation`, `C197_labels`, `C201_failed_save`, `C201_one_save`, `C202_second_save_refuted`, `C202_stamps_pile_up`, `C202_without_information_partial`, `C203_dotted_names_refuted`, `C203_kept`, `C203_plain_names_partial`, `C204_dirty`, `C204_new_files_refuted`, `C204_nothing_staged_partial`, `C204_staged_changes_refuted`, `C204_warning`, `C205_branch`, `C205_installed_package_refuted`, `C205_which_commit`, `C206_citation`, `C206_same_beginning_refuted`, `C206_unknown`, `C210_error_bars_partial`, `C210_given_twice`, `C210_line_options`, `C210_options_without_effect_refuted`, `C210_residual_options`, `C210_short_names`, `C210_style_of_error_bars_refuted`, `C211_shared_labels`, `C211_without_z_refuted`, `C213_cannot_start_refuted`, `C215_annotation`, `C215_formula_altered_refuted`, `C215_relative_errors`, `C215_without_uncertainties`, `C216_name_refuted`, `C217_guess_unavailable`, `C224_made_of`, `C224_new_data_refuted`, `C225_names`, `C226_fitted_curve`, `C228_annotation`, `C228_documented_place_refuted`, `C228_full_names_refuted`, `C229_told_apart`, `C231_back_to_linear_refuted`, `C231_labels_and_scales`, `C231_residual_axes`, `C238_inverse`, `C238_inverse_unique`, `C239_magnitude_refuted`, `C23_in_place_adds_only_electrons`, `C23_when_electrons_can_be_estimated`, `C240_colours`, `C240_parts`, `C240_ranges`, `C240_stars`, `C240_window`, `C240_window_refuted`, `C241_columns_split`, `C241_default_is_gaussian`, `C241_disjoint_refuted`, `C241_exceptions`, `C241_fits_come_from_the_last_make`, `C241_made_from`, `C241_made_when_accepted`, `C241_new_exceptions`, `C241_rejected_calls_change_nothing`, `C241_trend`, `C241_trend_given`, `C241_untouched`, `C244_interpolated_in_step`, `C244_interpolation`, `C244_outcomes`, `C244_returned_samples`, `C244_the_last_method_counts`, `C25_accepted_exactly_when_aligned`, `C25_aligned_in_every_history`, `C26_load_named_species`, `C26_save_load_identity`, `C26_save_needs_scalars`, `C27_file_holds_last_save_partial`, `C28_empty_window_rejected`, `C28_missing_time_refused`, `C28_unordered_times_refused`, `C28_window_exact_partial`, `C34_carrington`, `C34_frame_and_name`, `C34_position`, `C34_spacecraft_accepted`, `C34_spacecraft_rejected`, `C34_velocity`, `C36_initialised_lookup_partial`, `C36_uninitialised_lookup_refuted`, `C41_canonical_idempotent`, `C41_only_strings`, `C41_order_irrelevant`, `C41_order_irrelevant_two_sides`, `C41_rejects_iff_two_commas`, `C41_sides_sorted`, `C43_bin_names`, `C45_shipped_tables`, `C45_years`, `C48_gaussian_failures_look_like_success_refuted`, `C48_insufficient_data_iff_partial`, `C48_returned_failures`, `C50_named_bounds`, `C58_annotation_lines_partial`, `C58_colliding_names_lose_values_refuted`, `C58_failed_fit_single_line_partial`, `C58_failed_multi_line_refuted`, `C58_list_checked`, `C58_math_escapes`, `C58_renaming_keeps_values`, `C58_string_not_checked_refuted`, `C58_unbalanced_rejected`, `C58_unknown_parameter_rejected`, `C59_current_if_rebuilt_partial`, `C59_setters_do_not_show_refuted`, `C59_shown_is_last_built`, `C60_calendar`, `C60_clock_behind_refuted`, `C60_digits_in_home_refuted`, `C60_every_history`, `C60_first_use_downloads`, `C60_fresh_cache_reused`, `C60_midnight_refuted`, `C60_reused_loader_refuted`, `C60_stale_cache_refreshed`, `C60_two_days_rejected`, `C62_cycles_tile`, `C62_numbering_gap_overlaps_refuted`, `C62_rise_and_fall_make_the_cycle`, `C62_shipped_table`, `C62_shipped_table_accepted`, `C63_assigned_iff_contained`, `C63_default_kind_refuted`, `C63_every_time_has_one_cycle_and_one_edge`, `C63_unknown_kinds_rejected`, `C64_labelled_iff_within_band`, `C64_lisird_extrema_refuted`, `C64_shipped_table_default_width`, `C64_unknown_kind`, `C64_wide_bands_rejected`, `C65_alternation_refuted`, `C65_first_sample_ignored_refuted`, `C65_gap_begins_interval`, `C65_no_values_refused`, `C65_one_extremum_per_run_partial`, `C65_one_sided_refused`, `C65_ordered_and_apart`, `C65_short_run_refuted`, `C65_table_of_cycles`, `C65_two_sample_run_refuted`, `C67_edge_agrees_with_intervals`, `C67_extremum_of_each_sample`, `C67_unknown_maximum_refuted`, `C68_interval_end`, `C68_not_before_start`, `C69_contains_is_membership`, `C70_data_at_most_30_days_old`, `C70_downloads_iff_stale`, `C70_events_in_range`, `C70_filter_by_spacecraft_partial`, `C70_filter_ignores_case`, `C70_range_keeps_order`, `C70_two_spellings_refuted`, `C70_unnamed_event_refuted`, `C70_without_cache_directory`, `C76_density_of_other_aggregates`, `C77_le_ge_refuted`, `C77_strict_order_partial`, `C78_angular_refuted`, `C78_ratio_units_partial`, `C79_species_longest_match`, `C79_unknown_text`, `C80_grid_fits`, `C80_invalid_counts`, `C81_bad_position`, `C81_empty_grid`, `C81_layout`, `C82_joint_legend`, `C82_no_such_axes`, `C82_succeeds`, `C89_crash_tables_old_or_new_partial`, `C90_vector_call_refuted`, `C94_legend_rows`, `C94_legend_rows_mislabelled_refuted`, `C95_comments`, `C95_comments_by_year`, `C95_comments_never_fail`, `C96_no_value_before_a_fit`

## ClassicalDedekindReals.sig_forall_dec, ClassicalDedekindReals.sig_not_dec, Classical_Prop.classic, FunctionalExtensionality.functional_extensionality_dep

`C100_angles_agree`, `C100_parametrizations_agree`, `C101_gaussian_ln_formula_refuted`, `C101_moyal_formula_refuted`, `C101_reported_formulas_partial`, `C101_text_of_exponential`, `C101_text_of_exponential_cdf`, `C101_text_of_exponential_plus_c`, `C101_text_of_gaussian`, `C101_text_of_gaussian_ln_refuted`, `C101_text_of_gaussian_normalized`, `C101_text_of_gaussian_plus_step`, `C101_text_of_hinge_at_point`, `C101_text_of_hinge_max`, `C101_text_of_hinge_min`, `C101_text_of_hinge_saturation`, `C101_text_of_line`, `C101_text_of_line_through_x0`, `C101_text_of_moyal_refuted`, `C101_text_of_plateau_and_gaussian`, `C101_text_of_power_law`, `C101_text_of_power_law_off_center`, `C101_text_of_power_law_plus_c`, `C101_text_of_saturation`, `C101_text_of_step`, `C101_text_of_truncated_gaussian`, `C101_text_of_two_lines`, `C102_moyal_is_symmetric_refuted`, `C104_trend_observations`, `C104_trend_refusals`, `C113_specific_entropy`, `C113_specific_entropy_columns`, `C115_rejections`, `C115_vdf_ratio`, `C121_coulomb_number`, `C121_needs_spacecraft_and_single_species`, `C126_projection_is_column_sum`, `C126_with_limits_refuted`, `C131_energies_never_negative`, `C131_exact_balance_refuted`, `C131_normalised_quantities_bounded`, `C132_swap_orders_densities`, `C133_total_density`, `C133_total_density_strict`, `C134_coulomb_logarithm_symmetric`, `C134_drift_antisymmetric`, `C135_cosine_bound_refuted`, `C139_plotted_residuals_partial`, `C139_same_residuals_refuted`, `C141_number_of_marks`, `C153_exactly_n`, `C153_sampled_data`, `C154_never_twice_partial`, `C154_never_twice_refuted`, `C155_each_once_partial`, `C155_each_once_refuted`, `C157_counts_2d`, `C158_columns`, `C158_densities_integrate_to_one`, `C158_densities_partial`, `C158_rows`, `C158_total`, `C158_unequal_bins_refuted`, `C162_gap_refuted`, `C162_labels_partial`, `C162_low_column_refuted`, `C162_no_gaps_partial`, `C163_borders`, `C163_lower_border_refuted`, `C163_small_refuted`, `C163_smoothing_partial`, `C164_constant_refuted`, `C164_means_1d`, `C164_on_y_refuted`, `C164_projection_axes`, `C164_projection_partial`, `C166_opacity`, `C167_band_partial`, `C167_band_without_spread_refuted`, `C167_bars`, `C181_named_parameters`, `C185_gaussian_plus_step_guess_partial`, `C185_gaussian_plus_step_negative_refuted`, `C185_nothing_beyond`, `C186_level_scales_the_curve`, `C186_no_fit_without_level_partial`, `C187_guess`, `C187_guess_refuted`, `C187_reported_lines`, `C189_guesses`, `C189_named_parameters`, `C192_counts_in_drawn_cells`, `C192_every_cell_in_its_place`, `C193_counts_keep_their_opacity`, `C193_empty_column_refuted`, `C193_opacity_partial`, `C194_contours_fit_or_are_refused`, `C194_contours_follow_the_picture`, `C194_default_smoothing_refuted`, `C194_default_smoothing_without_gaps`, `C194_nan_aware_smoothing`, `C196_bars_are_totals_partial`, `C197_five_counts`, `C198_every_row_is_drawn_once`, `C198_mesh_succeeds_iff_finite`, `C198_rectangles_show_their_rows`, `C198_refused_before_grouping`, `C198_stale_groups_refuted`, `C198_stale_picture_refuted`, `C199_contour_points`, `C199_opacity`, `C199_unknown_method`, `C200_new_data_are_not_shown_refuted`, `C200_new_mesh_old_bins`, `C200_regrouping_ignores_coordinates_refuted`, `C207_drawn_are_used_partial`, `C207_leftmost_on_log_axis_refuted`, `C207_log_axis_refuted`, `C208_all_fits_drawn`, `C208_no_fits`, `C208_rejections`, `C209_in_fit_was_used_partial`, `C209_left_out_says_in_fit_refuted`, `C209_used_says_in_fit`, `C212_empty_boxes_counted_twice_refuted`, `C212_nonempty_partial`, `C212_summary_counts`, `C213_each_box`, `C214_sample_drawn_in_boxes`, `C214_unknown_label`, `C217_converged_fit_is_complete`, `C217_initial_guess_is_not_the_start_refuted`, `C219_bounds_of_a_failed_fit_refuted`, `C219_mixed_reports_refuted`, `C219_reports_of_one_fit`, `C21_coulomb_logarithm_symmetric`, `C21_coulomb_logarithm_value`, `C221_count_label_refuted`, `C221_projected_counts`, `C221_projected_means`, `C221_weighted_refuted`, `C222_lines_of_counts`, `C222_lines_of_the_legs`, `C223_as_the_plasma_reports`, `C223_entropy_of_an_ion`, `C223_unknown_ion`, `C225_given_twice`, `C225_observations_with_bars`, `C225_observations_with_window`, `C227_all_three`, `C227_annotated`, `C227_own_drawstyle_refuted`, `C229_contours`, `C229_refusals`, `C229_required_pandas_refuted`, `C229_table_cells`, `C229_table_legend_refuted`, `C22_both_directions_added`, `C22_collision_frequency_value`, `C22_same_species_rejected`, `C22_totals_rejected`, `C22_zero_drift_undefined_refuted`, `C230_both_kinds_own_style_refuted`, `C230_both_kinds_partial`, `C230_one_kind`, `C230_same_residuals`, `C230_unknown_kind`, `C232_alfven_speed`, `C232_anisotropy`, `C232_beta`, `C232_field`, `C232_mass_density`, `C232_number_density`, `C232_pressure`, `C232_sound_speed`, `C232_temperature`, `C233_energies`, `C233_normalised`, `C233_ratios`, `C234_column_scaled`, `C234_counts_exact`, `C234_counts_positive`, `C234_normalised_counts`, `C234_row_scaled`, `C234_total_scaled`, `C235_column_density`, `C235_density_1d`, `C235_density_2d`, `C235_row_density`, `C236_column`, `C236_feature`, `C236_max`, `C237_cosine`, `C237_cosine_bound`, `C237_magnitude`, `C237_perpendicular`, `C237_projection`, `C237_unit_length`, `C237_unit_vector`, `C238_every_row_has_a_colour`, `C242_exactly_the_empty_boxes`, `C242_no_sample_in_the_hatching`, `C242_otherwise_sampled`, `C243_centre_of_mass_velocity`, `C33_latitude_is_elevation_refuted`, `C33_missing_component`, `C33_spherical_angles_partial`, `C43_classification_total_exclusive_partial`, `C43_missing_data_refuted`, `C43_unknown_growth_rate`, `C43_unusable_with_required_pandas_refuted`, `C44_lower_thresholds_increase_below_one`, `C44_published_thresholds`, `C44_thresholds_tend_to_isotropy`, `C44_upper_thresholds_decrease_above_one`, `C46_missing_uncertainty_refuted`, `C46_ratios_consistent`, `C46_uncertainty_partial`, `C47_kinds_of_refusal`, `C47_rejections`, `C47_used_are_the_admissible_observations`, `C48_returned_by_the_others`, `C52_both_branches_at_x0_refuted`, `C52_gaussian_plus_step`, `C52_plateau_and_gaussian_partial`, `C52_truncated_gaussian`, `C53_flat_branch_undefined_refuted`, `C53_saturation`, `C55_exponential`, `C55_exponential_cdf`, `C55_gaussian`, `C55_gaussian_ln`, `C55_gaussian_normalized`, `C55_moyal_peaks_at_mu`, `C55_power_law`, `C56_limits_lost_refuted`, `C56_parallel_is_sequential_partial`, `C56_schedule_independent`, `C56_single_fit_refuted`, `C57_failed_gaussian_counts_as_good_refuted`, `C57_partition_partial`, `C57_second_call_forgets_refuted`, `C71_counts_1d`, `C71_counts_2d`, `C72_column_density`, `C72_density_1d`, `C72_density_2d`, `C72_log_density_1d_partial`, `C72_log_density_1d_refuted`, `C72_row_density`, `C72_witness`, `C73_column_normalised`, `C73_counts_are_positive`, `C73_row_normalised`, `C73_total_normalised`, `C74_count_limit_masks_1d`, `C74_count_limit_masks_2d`, `C74_normalised_refuted`, `C74_value_limit_masks`, `C75_above_threshold_1d`, `C75_above_threshold_2d_partial`, `C75_plotted_counts_2d`, `C75_plotted_data_1d`, `C75_plotted_data_2d_partial`, `C75_two_axes_refuted`, `C76_cdf`, `C76_single_datum_refuted`, `C76_weights_allowed`, `C93_fitted_lognormal`, `C93_lognormal_moments`, `C96_parameters_come_from_a_successful_fit`, `C96_stale_parameters_after_failed_refit_refuted`, `C99_normalized_guess`

## ClassicalDedekindReals.sig_forall_dec, ClassicalDedekindReals.sig_not_dec, FunctionalExtensionality.functional_extensionality_dep

`C07_scalar_thermal_speed`, `C08_missing_components_partial`, `C08_missing_speed_stays_missing_refuted`, `C103_hinge_at_point_height`, `C103_hinge_at_point_start_refuted`, `C103_hinge_guess_without_left_points`, `C103_hinge_min_start_refuted`, `C10_density_is_sum`, `C10_density_monotone`, `C10_mass_density_is_sum`, `C10_pressure_is_sum`, `C10_pressure_nonnegative`, `C10_repeated_names_count_once`, `C10_several_arguments_give_columns`, `C114_heat_flux`, `C114_needs_two_species`, `C114_reverses_with_field`, `C11_columns_propagate_partial`, `C11_missing_propagates_refuted`, `C11_strict_density_propagates_partial`, `C11_total_is_sum_of_present_partial`, `C122_rejections`, `C122_turbulence_from_species`, `C122_turbulence_of_relative_motion`, `C123_automatic_bins_partial`, `C123_minimum_lost_refuted`, `C123_no_data`, `C124_labels_in_boxes`, `C124_no_repeats`, `C124_witness`, `C125_bottom_border`, `C125_one_entry_per_column`, `C125_top_border`, `C125_witness`, `C127_every_datum_must_be_inside`, `C127_outside_data_ignored_refuted`, `C128_cell_values`, `C128_counts_add_up`, `C128_filter_of_other_mesh`, `C129_edges_grow_on_reuse`, `C129_edges_used_as_given_refuted`, `C129_explicit_edges`, `C12_ideal_gas`, `C12_pressure_and_temperature_defined`, `C12_pressure_density_speed`, `C12_scalar_pressure_is_trace`, `C130_density_filter`, `C130_density_filter_refuses_outside_data`, `C130_filters_off_keep_everything`, `C130_size_filter`, `C130_uniform_mesh_is_emptied`, `C137_alfven_object`, `C137_refusals`, `C138_corotation_speed_gse_refuted`, `C138_corotation_speed_hci`, `C138_polarised_object`, `C139_zero_of_the_fit`, `C13_beta_defined`, `C13_beta_in_null_field`, `C13_beta_is_additive`, `C13_beta_is_pressure_ratio`, `C13_beta_scaling`, `C13_beta_times_magnetic_pressure`, `C13_magnetic_pressure`, `C142_curves_drawn`, `C142_unknown_kind_draws_nothing_refuted`, `C145_window`, `C147_no_z`, `C147_only_nan_refused`, `C147_plotted_rows`, `C148_limits`, `C14_anisotropy_columns`, `C14_anisotropy_defined`, `C14_anisotropy_is_ratio`, `C150_scatter_partial`, `C157_counts_1d`, `C157_density_1d_refuted`, `C15_centre_of_mass_velocity`, `C15_projected_velocity`, `C15_single_species_velocity`, `C15_totals_not_projected`, `C15_velocity_between_species`, `C160_clipping`, `C160_off`, `C160_one_sided_refuted`, `C161_counts_refuted`, `C161_fractions`, `C161_limits_partial`, `C161_no_norm_refuted`, `C163_points`, `C165_default_levels`, `C16_drift_antisymmetric`, `C16_drift_is_difference`, `C16_no_drift_with_itself`, `C16_projected_drift`, `C175_columns`, `C175_hemispheric_refuted`, `C175_missing_error_refuted`, `C175_rows`, `C175_standard_error`, `C175_total_tables_work`, `C176_missing_values`, `C176_refusals`, `C176_times_untouched_refuted`, `C177_one_row_per_time`, `C177_sorted_refuted`, `C177_times_increase`, `C177_times_that_look_missing`, `C179_curve`, `C179_on_the_bar_refuted`, `C179_quiet_refuted`, `C17_dynamic_pressure_any_species`, `C17_dynamic_pressure_defined`, `C17_needs_two_species`, `C17_projected_three_species_refuted`, `C17_projected_two_species`, `C17_two_species_dynamic_pressure`, `C182_anisotropy`, `C182_refusals`, `C182_sound_speed`, `C185_truncated_guess`, `C188_guess`, `C188_shallow_rise_refuted`, `C18_sound_speed`, `C18_sound_speed_defined`, `C190_covariance_partial`, `C190_no_degrees_of_freedom`, `C190_uncertainties_reported`, `C190_undetermined_parameter_refuted`, `C191_chisq_reported`, `C191_robust_chisq`, `C19_alfven_speed`, `C19_alfven_speed_defined`, `C19_decreasing_in_density`, `C19_linear_in_field`, `C209_before_trend`, `C20_anisotropy_factor`, `C20_anisotropy_factor_additive`, `C20_anisotropy_factor_defined`, `C20_caani`, `C217_before_any_fit`, `C218_repeated_abscissa_refuted`, `C220_default_start_is_feasible`, `C239_two_columns`, `C23_neutral_and_current_free`, `C242_covers_the_box`, `C24_electron_pressure_equals_proton_pressure_partial`, `C24_equal_temperature_refuted`, `C25_set_data_misaligns_refuted`, `C26_default_keys_refuted`, `C27_stale_data_refuted`, `C28_repeated_times_refuted`, `C29_magnitude`, `C29_missing_component`, `C30_other_arguments_rejected`, `C30_projection_pythagoras`, `C31_missing_component_ignored_refuted`, `C31_undefined_direction_gives_zero_partial`, `C31_undefined_direction_refuted`, `C32_cos_theta`, `C34_distance_to_sun`, `C34_missing_position_refuted`, `C34_other_frames`, `C35_equality_is_equivalence`, `C37_elsasser_energy_balance`, `C38_normalised_quantities_bounded`, `C39_ratios`, `C40_undefined_rows_report_zero_energy_partial`, `C40_warm_up_rows_refuted`, `C42_idempotent_refuted`, `C42_refusals`, `C42_rows_only_exchange_protons`, `C42_second_proton_not_denser`, `C42_second_run_changes_no_row`, `C42_unequal_columns_lose_data_refuted`, `C45_ambiguous_key`, `C45_lookup`, `C46_shipped_hydrogen`, `C49_residuals`, `C49_rsq_at_most_one`, `C51_at_the_step_partial`, `C51_at_the_step_refuted`, `C51_step_levels`, `C53_branches_exchanged_refuted`, `C53_hinge_at_point`, `C53_hinge_min_max`, `C53_hinge_saturation`, `C53_twoline`, `C54_line_guess_misses_the_line_refuted`, `C54_line_guess_partial`, `C54_median`, `C54_twoline_guess`, `C66_by_own_cycle`, `C66_degenerate_cycles_partial`, `C66_feature_scale`, `C66_max`, `C66_zscore`, `C71_each_value_in_one_bin`, `C71_witness`, `C83_nan_smoothing`, `C84_bin_numbers`, `C84_cells_partition_region`, `C84_only_finite_cells`, `C84_schedule_independent`, `C85_cells_respect_threshold`, `C85_no_needless_division`, `C86_result_unique`, `C86_terminates_iff`, `C86_terminates_refuted`, `C87_default_edges_cover`, `C87_finite_rows_are_placed`, `C87_only_finite_data`, `C88_kinetic_energy_flux_refuted`, `C89_crash_mixes_saves_refuted`, `C91_energies_with_zero_polarity_refuted`, `C91_polarity_preserves_energies`, `C91_polarity_values`, `C92_constant_data_has_no_fluctuations`, `C92_fluctuation_is_value_minus_window_mean`, `C92_fluctuations_galilean_invariant`, `C92_one_fluctuation_per_row`, `C97_chisq_dof`, `C98_default_step_position`, `C98_single_level_guess_ignored_refuted`, `C98_step_guess_partial`, `C99_guess_moves_with_the_data`, `C99_moment_guess`

## ClassicalDedekindReals.sig_forall_dec, FunctionalExtensionality.functional_extensionality_dep

`C108_band_is_nearest_midpoint`, `C108_covered_values_partial`, `C108_maximum_in_no_band_refuted`, `C108_refusals`, `C157_both_legs`, `C179_ticks`, `C216_exponent_partial`, `C216_exponent_refuted`, `C216_lines`, `C232_fourteen_digits`, `C238_bands`, `C238_ends`, `C238_no_colour_outside`, `C238_ticks`, `C53_bent_curves_are_continuous`

## ClassicalDedekindReals.sig_forall_dec

`C178_interpolates_measured`, `C178_missing_samples_dropped`, `C178_refusals`, `C178_unsorted_refuted`, `C180_two_a_day_refuted`, `C182_known_names`, `C50_unknown_names_accepted_refuted`, `C61_missing_source_rejected`, `C61_never_extrapolates_partial`, `C61_refusals`, `C61_unsorted_extrapolates_refuted`

