{
 "claims": [
  {
   "property": "C01",
   "status": "proved",
   "theorems": [
    "C01_single_argument_sorted_names",
    "C01_name_order_irrelevant",
    "C01_reparse_is_identity",
    "C01_several_arguments_order_irrelevant",
    "C01_ion_refusals"
   ],
   "note": "Species specification is canonical"
  },
  {
   "property": "C02",
   "status": "proved",
   "theorems": [
    "C02_type_error_iff",
    "C02_value_error_iff",
    "C02_success_iff"
   ],
   "note": "Species arguments are rejected exactly in the documented cases"
  },
  {
   "property": "C03",
   "status": "proved",
   "theorems": [
    "C03_setting_species",
    "C03_setting_species_idempotent",
    "C03_ion_species"
   ],
   "note": "Setting species validates and sorts"
  },
  {
   "property": "C04",
   "status": "partial",
   "theorems": [
    "C04_unavailable_nonempty_reported_partial",
    "C04_check_succeeds_iff",
    "C04_unavailable_always_reported_refuted"
   ],
   "note": "False as stated: a stray '+' yields the empty species name, which the availability check lets through (the later lookup raises KeyError). Proved: every missing non-empty name is a ValueError, exact success condition; refuted: the unrestricted claim, with the witness 'a+'."
  },
  {
   "property": "C05",
   "status": "proved",
   "theorems": [
    "C05_drop_species",
    "C05_unknown_species"
   ],
   "note": "drop_species returns exactly the remaining plasma"
  },
  {
   "property": "C06",
   "status": "proved",
   "theorems": [
    "C06_kept_columns",
    "C06_complete_table_accepted",
    "C06_missing_label",
    "C06_field_of_a_species",
    "C06_no_thermal_speed"
   ],
   "note": "Plasma keeps exactly the plasma columns"
  },
  {
   "property": "C07",
   "status": "proved",
   "theorems": [
    "C07_scalar_thermal_speed"
   ],
   "note": "Scalar thermal speed is the trace average"
  },
  {
   "property": "C08",
   "status": "partial",
   "theorems": [
    "C08_missing_components_partial",
    "C08_missing_speed_stays_missing_refuted"
   ],
   "note": "False of the code: the NaN-skipping sum counts a missing component as 0 (refuted with a witness). Proved instead: the exact value in every missing-value case, for every row of every reachable plasma."
  },
  {
   "property": "C09",
   "status": "proved",
   "theorems": [
    "C09_setting_own_data"
   ],
   "note": "Setting a plasma's own data back changes nothing"
  },
  {
   "property": "C10",
   "status": "proved",
   "theorems": [
    "C10_density_is_sum",
    "C10_mass_density_is_sum",
    "C10_pressure_is_sum",
    "C10_density_monotone",
    "C10_pressure_nonnegative",
    "C10_several_arguments_give_columns",
    "C10_repeated_names_count_once"
   ],
   "note": "Total density and pressure are sums over species"
  },
  {
   "property": "C11",
   "status": "partial",
   "theorems": [
    "C11_missing_propagates_refuted",
    "C11_total_is_sum_of_present_partial",
    "C11_strict_density_propagates_partial",
    "C11_columns_propagate_partial"
   ],
   "note": "False as stated: pandas sums skip NaN, so a missing density or thermal speed is counted as zero in totals (refuted with a witness). Proved: what a total is in the presence of missing values; strict density (skipna=False) and per-species columns do propagate."
  },
  {
   "property": "C12",
   "status": "proved",
   "theorems": [
    "C12_pressure_density_speed",
    "C12_ideal_gas",
    "C12_scalar_pressure_is_trace",
    "C12_pressure_and_temperature_defined"
   ],
   "note": "Ideal gas relation per species"
  },
  {
   "property": "C13",
   "status": "proved",
   "theorems": [
    "C13_magnetic_pressure",
    "C13_beta_times_magnetic_pressure",
    "C13_beta_is_pressure_ratio",
    "C13_beta_is_additive",
    "C13_beta_scaling",
    "C13_beta_in_null_field",
    "C13_beta_defined"
   ],
   "note": "Beta is thermal over magnetic pressure and additive"
  },
  {
   "property": "C14",
   "status": "proved",
   "theorems": [
    "C14_anisotropy_is_ratio",
    "C14_anisotropy_columns",
    "C14_anisotropy_defined"
   ],
   "note": "Anisotropy is pth_per/pth_par"
  },
  {
   "property": "C15",
   "status": "proved",
   "theorems": [
    "C15_projected_velocity",
    "C15_totals_not_projected",
    "C15_single_species_velocity",
    "C15_centre_of_mass_velocity",
    "C15_velocity_between_species"
   ],
   "note": "Centre-of-mass velocity"
  },
  {
   "property": "C16",
   "status": "proved",
   "theorems": [
    "C16_projected_drift",
    "C16_drift_antisymmetric",
    "C16_drift_is_difference",
    "C16_no_drift_with_itself"
   ],
   "note": "Differential flow is antisymmetric"
  },
  {
   "property": "C17",
   "status": "partial",
   "theorems": [
    "C17_projected_two_species",
    "C17_two_species_dynamic_pressure",
    "C17_dynamic_pressure_any_species",
    "C17_needs_two_species",
    "C17_projected_three_species_refuted",
    "C17_dynamic_pressure_defined"
   ],
   "note": "Proved for every number of species >= 2 without projection. Refuted: project_m2q=True with three or more species raises UnboundLocalError."
  },
  {
   "property": "C18",
   "status": "proved",
   "theorems": [
    "C18_sound_speed",
    "C18_sound_speed_defined"
   ],
   "note": "Sound speed"
  },
  {
   "property": "C19",
   "status": "proved",
   "theorems": [
    "C19_alfven_speed",
    "C19_linear_in_field",
    "C19_decreasing_in_density",
    "C19_alfven_speed_defined"
   ],
   "note": "Alfven speed"
  },
  {
   "property": "C20",
   "status": "proved",
   "theorems": [
    "C20_anisotropy_factor",
    "C20_anisotropy_factor_additive",
    "C20_caani",
    "C20_anisotropy_factor_defined"
   ],
   "note": "Anisotropy factor is additive"
  },
  {
   "property": "C21",
   "status": "proved",
   "theorems": [
    "C21_coulomb_logarithm_value",
    "C21_coulomb_logarithm_symmetric"
   ],
   "note": "Coulomb logarithm is symmetric"
  },
  {
   "property": "C22",
   "status": "partial",
   "theorems": [
    "C22_collision_frequency_value",
    "C22_same_species_rejected",
    "C22_totals_rejected",
    "C22_both_directions_added",
    "C22_zero_drift_undefined_refuted"
   ],
   "note": "Proved for non-zero drift. Refuted: at exactly zero drift the code evaluates inf*0 and returns NaN although the collision frequency has a finite limit."
  },
  {
   "property": "C23",
   "status": "proved",
   "theorems": [
    "C23_in_place_adds_only_electrons",
    "C23_when_electrons_can_be_estimated",
    "C23_neutral_and_current_free"
   ],
   "note": "Proved, including the in-place variant, for every reachable plasma."
  },
  {
   "property": "C24",
   "status": "partial",
   "theorems": [
    "C24_electron_pressure_equals_proton_pressure_partial",
    "C24_equal_temperature_refuted"
   ],
   "note": "False as stated: the code makes n_e T_e = n_p T_p (proved), which is equal temperature iff n_e = n_p (proved); refuted with a witness containing alphas."
  },
  {
   "property": "C25",
   "status": "partial",
   "theorems": [
    "C25_accepted_exactly_when_aligned",
    "C25_aligned_in_every_history",
    "C25_set_data_misaligns_refuted"
   ],
   "note": "Proved for every history of construction, set_spacecraft, set_auxiliary_data and drop_species (accepted or rejected). Refuted when set_data is called by hand on an existing plasma: it leaves the other tables behind."
  },
  {
   "property": "C26",
   "status": "partial",
   "theorems": [
    "C26_save_load_identity",
    "C26_load_named_species",
    "C26_default_keys_refuted",
    "C26_save_needs_scalars"
   ],
   "note": "Proved for every reachable plasma and every prior file contents when the keys of the parts the plasma has are passed. Refuted for the default keys: loading a plasma saved without spacecraft or auxiliary data raises KeyError."
  },
  {
   "property": "C27",
   "status": "partial",
   "theorems": [
    "C27_file_holds_last_save_partial",
    "C27_stale_data_refuted"
   ],
   "note": "False of the code: keys written by an earlier save persist (refuted). Proved: exactly what each key holds after a save."
  },
  {
   "property": "C28",
   "status": "partial",
   "theorems": [
    "C28_window_exact_partial",
    "C28_empty_window_rejected",
    "C28_repeated_times_refuted",
    "C28_unordered_times_refused",
    "C28_missing_time_refused"
   ],
   "note": "Proved for an index without repeated time stamps. Refuted with a repeated stamp: the label lookup multiplies rows and the load fails."
  },
  {
   "property": "C29",
   "status": "proved",
   "theorems": [
    "C29_magnitude",
    "C29_missing_component"
   ],
   "note": "Vector magnitude"
  },
  {
   "property": "C30",
   "status": "proved",
   "theorems": [
    "C30_projection_pythagoras",
    "C30_other_arguments_rejected"
   ],
   "note": "Projection is a Pythagorean decomposition"
  },
  {
   "property": "C31",
   "status": "partial",
   "theorems": [
    "C31_undefined_direction_gives_zero_partial",
    "C31_undefined_direction_refuted",
    "C31_missing_component_ignored_refuted"
   ],
   "note": "False of the code: unit vectors of a zero or missing direction are NaN, and the NaN-skipping sums turn them into par=0, per=0, cos=0 (proved for all vectors, and refuted with a witness)."
  },
  {
   "property": "C32",
   "status": "proved",
   "theorems": [
    "C32_cos_theta"
   ],
   "note": "cos_theta is a cosine"
  },
  {
   "property": "C33",
   "status": "partial",
   "theorems": [
    "C33_spherical_angles_partial",
    "C33_latitude_is_elevation_refuted",
    "C33_missing_component"
   ],
   "note": "latitude and colatitude are exchanged in the code (refuted). Proved: what the three angles are, their ranges, that they reconstruct the vector, and that missing components propagate."
  },
  {
   "property": "C34",
   "status": "partial",
   "theorems": [
    "C34_velocity",
    "C34_carrington",
    "C34_position",
    "C34_other_frames",
    "C34_frame_and_name",
    "C34_spacecraft_accepted",
    "C34_spacecraft_rejected",
    "C34_distance_to_sun",
    "C34_missing_position_refuted"
   ],
   "note": "Acceptance, rejection, upper-casing, distance formula in both frames proved. Refuted: a missing position component counts as zero in the distance instead of making it missing."
  },
  {
   "property": "C35",
   "status": "proved",
   "theorems": [
    "C35_equality_is_equivalence"
   ],
   "note": "Object equality is an equivalence"
  },
  {
   "property": "C36",
   "status": "partial",
   "theorems": [
    "C36_initialised_lookup_partial",
    "C36_uninitialised_lookup_refuted"
   ],
   "note": "Initialised objects: proved. Refuted before initialisation: every look-up of an undefined name recurses until the stack is exhausted, whatever the limit, so copy/pickle fail."
  },
  {
   "property": "C37",
   "status": "proved",
   "theorems": [
    "C37_elsasser_energy_balance"
   ],
   "note": "Elsasser energy balance"
  },
  {
   "property": "C38",
   "status": "proved",
   "theorems": [
    "C38_normalised_quantities_bounded"
   ],
   "note": "Normalised cross helicity and residual energy are bounded"
  },
  {
   "property": "C39",
   "status": "proved",
   "theorems": [
    "C39_ratios"
   ],
   "note": "Elsasser and Alfven ratios match the normalised ones"
  },
  {
   "property": "C40",
   "status": "partial",
   "theorems": [
    "C40_undefined_rows_report_zero_energy_partial",
    "C40_warm_up_rows_refuted"
   ],
   "note": "False of the code: the energies use NaN-skipping sums, so rows whose rolling mean is undefined report energy 0 (and cross helicity 0); only the normalised quantities are missing. Proved: exactly that behaviour."
  },
  {
   "property": "C41",
   "status": "proved",
   "theorems": [
    "C41_rejects_iff_two_commas",
    "C41_canonical_idempotent",
    "C41_sides_sorted",
    "C41_order_irrelevant",
    "C41_order_irrelevant_two_sides",
    "C41_only_strings"
   ],
   "note": "Alfven species parsing is canonical"
  },
  {
   "property": "C42",
   "status": "partial",
   "theorems": [
    "C42_refusals",
    "C42_rows_only_exchange_protons",
    "C42_second_proton_not_denser",
    "C42_second_run_changes_no_row",
    "C42_idempotent_refuted",
    "C42_unequal_columns_lose_data_refuted"
   ],
   "note": "Proved: only exchanges, order afterwards (non-negative densities), second run exchanges nothing. Refuted: the second run adds the column swapped_protons again (duplicate label), and a measurement only one proton has is lost in exchanged rows."
  },
  {
   "property": "C43",
   "status": "partial",
   "theorems": [
    "C43_unusable_with_required_pandas_refuted",
    "C43_classification_total_exclusive_partial",
    "C43_missing_data_refuted",
    "C43_unknown_growth_rate",
    "C43_bin_names"
   ],
   "note": "Proved for finite data and a pandas that still has DataFrame.iteritems. Refuted: with the required pandas >= 2.0 every construction raises AttributeError; a row with missing data is classified Stable."
  },
  {
   "property": "C44",
   "status": "proved",
   "theorems": [
    "C44_upper_thresholds_decrease_above_one",
    "C44_lower_thresholds_increase_below_one",
    "C44_thresholds_tend_to_isotropy",
    "C44_published_thresholds"
   ],
   "note": "Instability thresholds are monotone and separated"
  },
  {
   "property": "C45",
   "status": "proved",
   "theorems": [
    "C45_years",
    "C45_shipped_tables",
    "C45_lookup",
    "C45_ambiguous_key"
   ],
   "note": "Abundance queries are keyed safely"
  },
  {
   "property": "C46",
   "status": "partial",
   "theorems": [
    "C46_ratios_consistent",
    "C46_shipped_hydrogen",
    "C46_uncertainty_partial",
    "C46_missing_uncertainty_refuted"
   ],
   "note": "Multiplicativity proved for every table with H = 12 and shown for the shipped ones. Refuted: relative to 'H' a missing uncertainty is not replaced by 0 as for every other denominator."
  },
  {
   "property": "C47",
   "status": "proved",
   "theorems": [
    "C47_used_are_the_admissible_observations",
    "C47_rejections",
    "C47_kinds_of_refusal"
   ],
   "note": "Fit selection uses exactly the admissible observations"
  },
  {
   "property": "C48",
   "status": "partial",
   "theorems": [
    "C48_insufficient_data_iff_partial",
    "C48_gaussian_failures_look_like_success_refuted",
    "C48_returned_failures",
    "C48_returned_by_the_others"
   ],
   "note": "Proved: raises iff too few observations, and is returned with return_exception=True unless the class drops it. Refuted: Gaussian and GaussianNormalized override make_fit without returning, so every failure looks like success."
  },
  {
   "property": "C49",
   "status": "proved",
   "theorems": [
    "C49_residuals",
    "C49_rsq_at_most_one"
   ],
   "note": "Residuals and r-squared"
  },
  {
   "property": "C50",
   "status": "partial",
   "theorems": [
    "C50_named_bounds",
    "C50_unknown_names_accepted_refuted"
   ],
   "note": "Proved: each named interval reaches its parameter, in any dictionary order, and a missing name is an error. Refuted: a name that is no parameter is accepted silently."
  },
  {
   "property": "C51",
   "status": "partial",
   "theorems": [
    "C51_step_levels",
    "C51_at_the_step_partial",
    "C51_at_the_step_refuted"
   ],
   "note": "Proved away from x0. At x0 the code gives y0 + y1(y0+y1)/2; proved to lie between the levels iff there is no step or the left level is in [0,2]; refuted otherwise."
  },
  {
   "property": "C52",
   "status": "partial",
   "theorems": [
    "C52_gaussian_plus_step",
    "C52_truncated_gaussian",
    "C52_plateau_and_gaussian_partial",
    "C52_both_branches_at_x0_refuted"
   ],
   "note": "Proved, except that GaussianTimesHeavySidePlusHeavySide adds both branches at x0 (refuted for every positive plateau and amplitude)."
  },
  {
   "property": "C53",
   "status": "partial",
   "theorems": [
    "C53_bent_curves_are_continuous",
    "C53_hinge_saturation",
    "C53_twoline",
    "C53_saturation",
    "C53_hinge_min_max",
    "C53_hinge_at_point",
    "C53_flat_branch_undefined_refuted",
    "C53_branches_exchanged_refuted"
   ],
   "note": "Proved with the slopes in the order each class is meant for. Refuted: a horizontal second branch makes HingeAtPoint and Saturation NaN everywhere; with the slopes the other way round HingeSaturation exchanges its branches."
  },
  {
   "property": "C54",
   "status": "partial",
   "theorems": [
    "C54_line_guess_partial",
    "C54_line_guess_misses_the_line_refuted",
    "C54_twoline_guess",
    "C54_median"
   ],
   "note": "TwoLine proved exact. Refuted for Line and LineXintercept: the guessed intercept has the wrong sign."
  },
  {
   "property": "C55",
   "status": "proved",
   "theorems": [
    "C55_gaussian",
    "C55_gaussian_normalized",
    "C55_gaussian_ln",
    "C55_power_law",
    "C55_exponential",
    "C55_exponential_cdf",
    "C55_moyal_peaks_at_mu"
   ],
   "note": "Shape of the fitted curves"
  },
  {
   "property": "C56",
   "status": "partial",
   "theorems": [
    "C56_parallel_is_sequential_partial",
    "C56_schedule_independent",
    "C56_single_fit_refuted",
    "C56_limits_lost_refuted"
   ],
   "note": "Proved for every completion order of the pool for two or more unweighted fits without limits. Refuted: the parallel path forgets limits and weights, and with at most one fit and n_jobs other than 1 it raises UnboundLocalError."
  },
  {
   "property": "C57",
   "status": "partial",
   "theorems": [
    "C57_partition_partial",
    "C57_failed_gaussian_counts_as_good_refuted",
    "C57_second_call_forgets_refuted"
   ],
   "note": "Proved partition for classes whose make_fit returns its failure. Refuted: the default Gaussian drops it, so failures count as good and popt_1d raises; a second make_1dfits forgets earlier bad fits."
  },
  {
   "property": "C58",
   "status": "partial",
   "theorems": [
    "C58_math_escapes",
    "C58_annotation_lines_partial",
    "C58_renaming_keeps_values",
    "C58_colliding_names_lose_values_refuted",
    "C58_string_not_checked_refuted",
    "C58_list_checked",
    "C58_failed_fit_single_line_partial",
    "C58_failed_multi_line_refuted",
    "C58_unbalanced_rejected",
    "C58_unknown_parameter_rejected"
   ],
   "note": "Proved: escapes are balanced, every annotation line is one math expression, renaming to fresh names keeps all values. Refuted: a TeX name equal to another parameter loses it, additional_info given as a string is unchecked, and a failed fit of a class with a several-line formula gives unbalanced lines."
  },
  {
   "property": "C59",
   "status": "partial",
   "theorems": [
    "C59_shown_is_last_built",
    "C59_current_if_rebuilt_partial",
    "C59_setters_do_not_show_refuted"
   ],
   "note": "Proved what is shown over every history; it is the current text after build_info. Refuted: setters do not invalidate the cache."
  },
  {
   "property": "C60",
   "status": "partial",
   "theorems": [
    "C60_stale_cache_refreshed",
    "C60_first_use_downloads",
    "C60_fresh_cache_reused",
    "C60_every_history",
    "C60_two_days_rejected",
    "C60_clock_behind_refuted",
    "C60_midnight_refuted",
    "C60_reused_loader_refuted",
    "C60_digits_in_home_refuted",
    "C60_calendar"
   ],
   "note": "Proved over every history of uses on days that do not go backwards, for a cache directory without eight digits in a row in its path. Refuted: clock behind the cache date and midnight between check and read give FileNotFoundError, a loader object reused on later days leaves two dated files so that no loader can be made again, digits in the home directory."
  },
  {
   "property": "C61",
   "status": "partial",
   "theorems": [
    "C61_never_extrapolates_partial",
    "C61_unsorted_extrapolates_refuted",
    "C61_missing_source_rejected",
    "C61_refusals"
   ],
   "note": "Proved for non-decreasing target times; refuted for unsorted targets, whose first and last element bound the interpolation."
  },
  {
   "property": "C62",
   "status": "partial",
   "theorems": [
    "C62_rise_and_fall_make_the_cycle",
    "C62_cycles_tile",
    "C62_numbering_gap_overlaps_refuted",
    "C62_shipped_table_accepted",
    "C62_shipped_table"
   ],
   "note": "Proved for consecutively numbered tables and the shipped one; refuted for a gap in the numbering."
  },
  {
   "property": "C63",
   "status": "partial",
   "theorems": [
    "C63_assigned_iff_contained",
    "C63_unknown_kinds_rejected",
    "C63_every_time_has_one_cycle_and_one_edge",
    "C63_default_kind_refuted"
   ],
   "note": "Proved for the explicit kinds; the default kind=None always raises (refuted)."
  },
  {
   "property": "C64",
   "status": "partial",
   "theorems": [
    "C64_labelled_iff_within_band",
    "C64_shipped_table_default_width",
    "C64_wide_bands_rejected",
    "C64_lisird_extrema_refuted",
    "C64_unknown_kind"
   ],
   "note": "Proved for SSNExtrema; refuted for LISIRDExtrema, whose index name makes it raise KeyError always."
  },
  {
   "property": "C65",
   "status": "partial",
   "theorems": [
    "C65_one_extremum_per_run_partial",
    "C65_ordered_and_apart",
    "C65_alternation_refuted",
    "C65_short_run_refuted",
    "C65_two_sample_run_refuted",
    "C65_first_sample_ignored_refuted",
    "C65_table_of_cycles",
    "C65_no_values_refused",
    "C65_one_sided_refused",
    "C65_gap_begins_interval"
   ],
   "note": "Proved for every series: extrema are in order of time, same kinds more than 1000 days apart; and for series with clean runs of at least three samples lasting long enough: exactly one extremum per run, alternating. Refuted in general: a dropped or one-sample run breaks alternation, a two-sample run raises AssertionError, the first sample of a run is never its extremum. The table of cycles is proved ordered for alternating extrema."
  },
  {
   "property": "C66",
   "status": "partial",
   "theorems": [
    "C66_max",
    "C66_feature_scale",
    "C66_zscore",
    "C66_by_own_cycle",
    "C66_degenerate_cycles_partial"
   ],
   "note": "Proved for cycles with a positive maximum (max) or two distinct values; all-zero or constant cycles give NaN (hence partial)."
  },
  {
   "property": "C67",
   "status": "partial",
   "theorems": [
    "C67_edge_agrees_with_intervals",
    "C67_unknown_maximum_refuted",
    "C67_extremum_of_each_sample"
   ],
   "note": "Proved for known extrema; a cycle with unknown maximum gets no edge (refuted)."
  },
  {
   "property": "C68",
   "status": "proved",
   "theorems": [
    "C68_interval_end",
    "C68_not_before_start"
   ],
   "note": "ICME interval end fallback"
  },
  {
   "property": "C69",
   "status": "proved",
   "theorems": [
    "C69_contains_is_membership"
   ],
   "note": "contains is interval membership"
  },
  {
   "property": "C70",
   "status": "partial",
   "theorems": [
    "C70_filter_by_spacecraft_partial",
    "C70_two_spellings_refuted",
    "C70_unnamed_event_refuted",
    "C70_events_in_range",
    "C70_range_keeps_order",
    "C70_data_at_most_30_days_old",
    "C70_downloads_iff_stale",
    "C70_filter_ignores_case",
    "C70_without_cache_directory"
   ],
   "note": "Filter proved for catalogues with one spelling per name; refuted for two spellings (events lost whichever is asked for) and for unnamed events (AttributeError). Range and cache proved."
  },
  {
   "property": "C71",
   "status": "proved",
   "theorems": [
    "C71_each_value_in_one_bin",
    "C71_witness",
    "C71_counts_1d",
    "C71_counts_2d"
   ],
   "note": "Histogram bins partition the data"
  },
  {
   "property": "C72",
   "status": "partial",
   "theorems": [
    "C72_density_1d",
    "C72_log_density_1d_partial",
    "C72_log_density_1d_refuted",
    "C72_density_2d",
    "C72_column_density",
    "C72_row_density",
    "C72_witness"
   ],
   "note": "Proved for linear axes in 1D and 2D (with any count limits) and for 'cd'/'rd' columns and rows along the plotted coordinate. On a log axis the program divides by the ratio of the bin edges (10**dx): proved that the density then sums to one against that ratio and always to less than one per decade (refuted)."
  },
  {
   "property": "C73",
   "status": "proved",
   "theorems": [
    "C73_column_normalised",
    "C73_row_normalised",
    "C73_total_normalised",
    "C73_counts_are_positive"
   ],
   "note": "Row/column/total normalisation"
  },
  {
   "property": "C74",
   "status": "partial",
   "theorems": [
    "C74_count_limit_masks_1d",
    "C74_count_limit_masks_2d",
    "C74_value_limit_masks",
    "C74_normalised_refuted"
   ],
   "note": "Count and value limits proved to mask exactly; unchanged-others holds without normalisation (value limits: always), and is refuted for count limits combined with a normalisation (2/3 becomes 1)."
  },
  {
   "property": "C75",
   "status": "partial",
   "theorems": [
    "C75_plotted_data_1d",
    "C75_above_threshold_1d",
    "C75_plotted_data_2d_partial",
    "C75_above_threshold_2d_partial",
    "C75_two_axes_refuted",
    "C75_plotted_counts_2d"
   ],
   "note": "One axis exact. On two axes the rows and columns are tested separately: proved exactly what is selected (superset), exact without limits, and refuted with limits by five points."
  },
  {
   "property": "C76",
   "status": "partial",
   "theorems": [
    "C76_cdf",
    "C76_single_datum_refuted",
    "C76_weights_allowed",
    "C76_density_of_other_aggregates"
   ],
   "note": "Proved for two or more data; with a single datum the position is 0/0 = NaN (refuted)."
  },
  {
   "property": "C77",
   "status": "partial",
   "theorems": [
    "C77_strict_order_partial",
    "C77_le_ge_refuted"
   ],
   "note": "Proved for ==, <, > and hashing. <= and >= are refuted: base.py defines __le__ with strict < and no __ge__, so a<=a is False."
  },
  {
   "property": "C78",
   "status": "partial",
   "theorems": [
    "C78_ratio_units_partial",
    "C78_angular_refuted"
   ],
   "note": "Proved when neither component is lat/colat/lon; refuted otherwise (build_label ignores the component when it computes ratio units)."
  },
  {
   "property": "C79",
   "status": "proved",
   "theorems": [
    "C79_species_longest_match",
    "C79_unknown_text"
   ],
   "note": "Species translation in labels is longest-match"
  },
  {
   "property": "C80",
   "status": "proved",
   "theorems": [
    "C80_grid_fits",
    "C80_invalid_counts"
   ],
   "note": "Axis grid size fits n panels"
  },
  {
   "property": "C81",
   "status": "proved",
   "theorems": [
    "C81_layout",
    "C81_bad_position",
    "C81_empty_grid"
   ],
   "note": "Axis grid never overlaps the colour bar"
  },
  {
   "property": "C82",
   "status": "proved",
   "theorems": [
    "C82_joint_legend",
    "C82_succeeds",
    "C82_no_such_axes"
   ],
   "note": "Joint legend has each label once"
  },
  {
   "property": "C83",
   "status": "proved",
   "theorems": [
    "C83_nan_smoothing"
   ],
   "note": "NaN-aware smoothing"
  },
  {
   "property": "C84",
   "status": "proved",
   "theorems": [
    "C84_cells_partition_region",
    "C84_bin_numbers",
    "C84_schedule_independent",
    "C84_only_finite_cells"
   ],
   "note": "Spiral mesh partitions the plane region"
  },
  {
   "property": "C85",
   "status": "proved",
   "theorems": [
    "C85_cells_respect_threshold",
    "C85_no_needless_division"
   ],
   "note": "Spiral mesh cells respect the threshold"
  },
  {
   "property": "C86",
   "status": "partial",
   "theorems": [
    "C86_terminates_iff",
    "C86_result_unique",
    "C86_terminates_refuted"
   ],
   "note": "Refuted as stated: min_per_bin+1 equal points make generate_mesh loop for ever (for every threshold). Proved exactly when it returns: iff no point of the half-open rectangle occurs more than min_per_bin times; the result is then unique."
  },
  {
   "property": "C87",
   "status": "proved",
   "theorems": [
    "C87_default_edges_cover",
    "C87_finite_rows_are_placed",
    "C87_only_finite_data"
   ],
   "note": "Default spiral edges cover all finite data"
  },
  {
   "property": "C88",
   "status": "partial",
   "theorems": [
    "C88_kinetic_energy_flux_refuted"
   ],
   "note": "False: Units has no kinetic_energy_flux attribute, so every call raises AttributeError (proved for all requests)."
  },
  {
   "property": "C89",
   "status": "partial",
   "theorems": [
    "C89_crash_tables_old_or_new_partial",
    "C89_crash_mixes_saves_refuted"
   ],
   "note": "Each table is wholly old or wholly new (proved, taking one to_hdf call as atomic); refuted for the file as a whole: new data load with old auxiliary data."
  },
  {
   "property": "C90",
   "status": "partial",
   "theorems": [
    "C90_vector_call_refuted"
   ],
   "note": "False of the code: __call__ uses a __getattr__ that no class defines; every call raises AttributeError."
  },
  {
   "property": "C91",
   "status": "partial",
   "theorems": [
    "C91_polarity_preserves_energies",
    "C91_polarity_values",
    "C91_energies_with_zero_polarity_refuted"
   ],
   "note": "Proved for polarity +-1; refuted for polarity 0 (np.sign(0)=0): the magnetic energy of the row disappears."
  },
  {
   "property": "C92",
   "status": "proved",
   "theorems": [
    "C92_fluctuation_is_value_minus_window_mean",
    "C92_one_fluctuation_per_row",
    "C92_fluctuations_galilean_invariant",
    "C92_constant_data_has_no_fluctuations"
   ],
   "note": "Fluctuations are Galilean invariant"
  },
  {
   "property": "C93",
   "status": "proved",
   "theorems": [
    "C93_fitted_lognormal",
    "C93_lognormal_moments"
   ],
   "note": "Log-normal parameters"
  },
  {
   "property": "C94",
   "status": "partial",
   "theorems": [
    "C94_legend_rows_mislabelled_refuted",
    "C94_legend_rows"
   ],
   "note": "False of the code: the handles are listed MM, AIC, FMW, OFI under row labels AIC, FMW, MM, OFI."
  },
  {
   "property": "C95",
   "status": "proved",
   "theorems": [
    "C95_comments",
    "C95_comments_never_fail",
    "C95_comments_by_year"
   ],
   "note": "Abundance comments"
  },
  {
   "property": "C96",
   "status": "partial",
   "theorems": [
    "C96_parameters_come_from_a_successful_fit",
    "C96_stale_parameters_after_failed_refit_refuted",
    "C96_no_value_before_a_fit"
   ],
   "note": "Proved: popt is absent or the optimiser's own result for observations the object had. Refuted: after a failed refit with new observations the old parameters remain."
  },
  {
   "property": "C97",
   "status": "proved",
   "theorems": [
    "C97_chisq_dof"
   ],
   "note": "Chi-squared per degree of freedom"
  },
  {
   "property": "C98",
   "status": "partial",
   "theorems": [
    "C98_step_guess_partial",
    "C98_single_level_guess_ignored_refuted",
    "C98_default_step_position"
   ],
   "note": "Proved that exact data give the exact step. Refuted: a guess for only one of y0, y1 is ignored."
  },
  {
   "property": "C99",
   "status": "proved",
   "theorems": [
    "C99_moment_guess",
    "C99_guess_moves_with_the_data",
    "C99_normalized_guess"
   ],
   "note": "Moment guess of peaked functions"
  },
  {
   "property": "C100",
   "status": "proved",
   "theorems": [
    "C100_parametrizations_agree",
    "C100_angles_agree"
   ],
   "note": "One bent line, five parametrizations"
  },
  {
   "property": "C101",
   "status": "partial",
   "theorems": [
    "C101_reported_formulas_partial",
    "C101_gaussian_ln_formula_refuted",
    "C101_moyal_formula_refuted",
    "C101_text_of_two_lines",
    "C101_text_of_hinge_min",
    "C101_text_of_hinge_max",
    "C101_text_of_hinge_at_point",
    "C101_text_of_hinge_saturation",
    "C101_text_of_saturation",
    "C101_text_of_gaussian_ln_refuted",
    "C101_text_of_moyal_refuted",
    "C101_text_of_gaussian",
    "C101_text_of_gaussian_normalized",
    "C101_text_of_line",
    "C101_text_of_line_through_x0",
    "C101_text_of_power_law",
    "C101_text_of_power_law_plus_c",
    "C101_text_of_power_law_off_center",
    "C101_text_of_exponential",
    "C101_text_of_exponential_plus_c",
    "C101_text_of_exponential_cdf",
    "C101_text_of_step",
    "C101_text_of_gaussian_plus_step",
    "C101_text_of_truncated_gaussian",
    "C101_text_of_plateau_and_gaussian"
   ],
   "note": "The TeX texts are read by a parser defined in TexFormulaThms.v and given a meaning over the reals (says, gives); for each of the 22 classes the value the text gives is the value that is fitted, wherever the text is defined (for Saturation the text gives only fitted values, and all of them for angles between 0 and a right angle with a second line neither flat nor upright). Refuted for GaussianLn (missing minus sign) and Moyal (A(exp(g)-1) is fitted, A g reported); C101_reported_formulas_partial is the earlier hand-transcribed version."
  },
  {
   "property": "C102",
   "status": "partial",
   "theorems": [
    "C102_moyal_is_symmetric_refuted"
   ],
   "note": "False of the code: symmetric about mu for all parameters."
  },
  {
   "property": "C103",
   "status": "partial",
   "theorems": [
    "C103_hinge_at_point_start_refuted",
    "C103_hinge_min_start_refuted",
    "C103_hinge_guess_without_left_points",
    "C103_hinge_at_point_height"
   ],
   "note": "False of the code: with fewer than two points at or beyond the guessed hinge, HingeAtPoint starts with NaN everywhere and HingeMin with -inf."
  },
  {
   "property": "C104",
   "status": "proved",
   "theorems": [
    "C104_trend_refusals",
    "C104_trend_observations"
   ],
   "note": "Trend observations"
  },
  {
   "property": "C105",
   "status": "partial",
   "theorems": [
    "C105_digits_partial",
    "C105_insignificant_digits_refuted",
    "C105_no_uncertainty"
   ],
   "note": "Proved exactly when the uncertainty's exponent is not above the value's; refuted otherwise."
  },
  {
   "property": "C106",
   "status": "partial",
   "theorems": [
    "C106_argument_changed_refuted",
    "C106_second_use_same_partial"
   ],
   "note": "False of the code: a list given as additional_info is changed in place; a second use of it gives the same text."
  },
  {
   "property": "C107",
   "status": "partial",
   "theorems": [
    "C107_first_names_partial",
    "C107_names_again_refuted"
   ],
   "note": "Proved for a first translation; refuted for a second one."
  },
  {
   "property": "C108",
   "status": "partial",
   "theorems": [
    "C108_band_is_nearest_midpoint",
    "C108_covered_values_partial",
    "C108_maximum_in_no_band_refuted",
    "C108_refusals"
   ],
   "note": "Proved for values within the bands made; the largest value can fall outside all bands (refuted)."
  },
  {
   "property": "C109",
   "status": "partial",
   "theorems": [
    "C109_recovers_next_day_partial",
    "C109_crash_while_replacing_refuted",
    "C109_torn_file_is_fresh_refuted"
   ],
   "note": "Recovery on a later day proved for crashes before the first operation, after the removal of the old csv, or during the very first download. Refuted: a crash between creating the new csv and removing the old one makes every later use on every day raise; a torn first csv is taken for fresh data."
  },
  {
   "property": "C111",
   "status": "proved",
   "theorems": [
    "C111_summary"
   ],
   "note": "ICME summary"
  },
  {
   "property": "C112",
   "status": "partial",
   "theorems": [
    "C112_given_threshold_used",
    "C112_default_threshold_refuted"
   ],
   "note": "Given and listed thresholds proved used. Refuted: the documented median default is not called (np.nanmedian is no FunctionType with the required numpy), so every series without threshold raises TypeError."
  },
  {
   "property": "C116",
   "status": "proved",
   "theorems": [
    "C116_safe_path"
   ],
   "note": "Label save paths are safe"
  },
  {
   "property": "C117",
   "status": "partial",
   "theorems": [
    "C117_lt_gt_same_path_refuted",
    "C117_ascii_distinct_partial"
   ],
   "note": "Refuted for \\lt versus \\gt (special.py:277 and 371 map both to GT); proved for the ASCII signs."
  },
  {
   "property": "C118",
   "status": "proved",
   "theorems": [
    "C118_comparison_units",
    "C118_unitless_operand",
    "C118_function_units"
   ],
   "note": "Combined labels have consistent units"
  },
  {
   "property": "C119",
   "status": "proved",
   "theorems": [
    "C119_normalised",
    "C119_count"
   ],
   "note": "Normalised labels are dimensionless"
  },
  {
   "property": "C120",
   "status": "proved",
   "theorems": [
    "C120_uncertainty_label"
   ],
   "note": "Uncertainty labels match their quantity"
  },
  {
   "property": "C113",
   "status": "proved",
   "theorems": [
    "C113_specific_entropy",
    "C113_specific_entropy_columns"
   ],
   "note": "Specific entropy"
  },
  {
   "property": "C114",
   "status": "proved",
   "theorems": [
    "C114_heat_flux",
    "C114_needs_two_species",
    "C114_reverses_with_field"
   ],
   "note": "Heat flux"
  },
  {
   "property": "C115",
   "status": "proved",
   "theorems": [
    "C115_vdf_ratio",
    "C115_rejections"
   ],
   "note": "VDF ratio"
  },
  {
   "property": "C121",
   "status": "proved",
   "theorems": [
    "C121_coulomb_number",
    "C121_needs_spacecraft_and_single_species"
   ],
   "note": "Coulomb number"
  },
  {
   "property": "C122",
   "status": "proved",
   "theorems": [
    "C122_turbulence_from_species",
    "C122_turbulence_of_relative_motion",
    "C122_rejections"
   ],
   "note": "What turbulence is built from"
  },
  {
   "property": "C123",
   "status": "partial",
   "theorems": [
    "C123_automatic_bins_partial",
    "C123_minimum_lost_refuted",
    "C123_no_data"
   ],
   "note": "Refuted: the first bin is open on the left, so integer data always lose their minimum; proved exactly which values are kept (rounding to five digits, half to even, as in the code)."
  },
  {
   "property": "C124",
   "status": "proved",
   "theorems": [
    "C124_labels_in_boxes",
    "C124_no_repeats",
    "C124_witness",
    "C124_no_boxes"
   ],
   "note": "Selecting data in boxes returns exactly those data"
  },
  {
   "property": "C125",
   "status": "proved",
   "theorems": [
    "C125_top_border",
    "C125_bottom_border",
    "C125_one_entry_per_column",
    "C125_witness"
   ],
   "note": "Histogram borders"
  },
  {
   "property": "C126",
   "status": "partial",
   "theorems": [
    "C126_projection_is_column_sum",
    "C126_with_limits_refuted"
   ],
   "note": "Proved without limits; refuted with a count limit because the plotted-data selection on two axes is too wide (C75)."
  },
  {
   "property": "C127",
   "status": "partial",
   "theorems": [
    "C127_every_datum_must_be_inside",
    "C127_outside_data_ignored_refuted"
   ],
   "note": "Placement proved. Leaving data out is refuted: with pandas >= 2 remove_categories has no inplace argument, so one datum outside the mesh makes build_cat raise TypeError and there is no aggregate."
  },
  {
   "property": "C128",
   "status": "proved",
   "theorems": [
    "C128_cell_values",
    "C128_counts_add_up",
    "C128_filter_of_other_mesh"
   ],
   "note": "Spiral cells show the aggregate of their own data"
  },
  {
   "property": "C129",
   "status": "partial",
   "theorems": [
    "C129_explicit_edges",
    "C129_edges_used_as_given_refuted",
    "C129_edges_grow_on_reuse"
   ],
   "note": "Refuted: the last edge is overwritten by max(0.01, 1.01*max) in the caller's own array, and grows each time the array is reused; the other edges are proved unchanged."
  },
  {
   "property": "C130",
   "status": "proved",
   "theorems": [
    "C130_filters_off_keep_everything",
    "C130_size_filter",
    "C130_uniform_mesh_is_emptied",
    "C130_density_filter_refuses_outside_data",
    "C130_density_filter"
   ],
   "note": "Size filter, density filter (positive areas, all data placed) and off state proved separately; a mesh of equal cells is emptied by every size filter."
  },
  {
   "property": "C131",
   "status": "partial",
   "theorems": [
    "C131_energies_never_negative",
    "C131_normalised_quantities_bounded",
    "C131_exact_balance_refuted"
   ],
   "note": "Signs and bounds proved in Flocq's binary64 for every row; the exact balance of energies is refuted by v=(0.1,0,0), b=(0.2,0,0)."
  },
  {
   "property": "C132",
   "status": "proved",
   "theorems": [
    "C132_swap_orders_densities"
   ],
   "note": "Swapping the proton beams is exact in double precision"
  },
  {
   "property": "C133",
   "status": "proved",
   "theorems": [
    "C133_total_density",
    "C133_total_density_strict"
   ],
   "note": "Total densities in double precision"
  },
  {
   "property": "C134",
   "status": "proved",
   "theorems": [
    "C134_coulomb_logarithm_symmetric",
    "C134_drift_antisymmetric"
   ],
   "note": "Two-species quantities keep their symmetry in double precision"
  },
  {
   "property": "C135",
   "status": "partial",
   "theorems": [
    "C135_cosine_bound_refuted"
   ],
   "note": "Refuted: v=(1,0,5) gives 1.0000000000000002 with itself. (In exact arithmetic the bound is C32.)"
  },
  {
   "property": "C136",
   "status": "proved",
   "theorems": [
    "C136_vector_validation"
   ],
   "note": "Vector data are validated"
  },
  {
   "property": "C137",
   "status": "proved",
   "theorems": [
    "C137_alfven_object",
    "C137_refusals"
   ],
   "note": "An AlfvenicTurbulence object holds the fluctuations of its inputs"
  },
  {
   "property": "C138",
   "status": "partial",
   "theorems": [
    "C138_polarised_object",
    "C138_spacecraft_needed",
    "C138_corotation_speed_hci",
    "C138_corotation_speed_gse_refuted"
   ],
   "note": "Rows, polarity and refusals proved for every corotation speed; the speed is proved right in HCI coordinates and refuted in GSE, where the colatitude is computed from the position relative to the Earth."
  },
  {
   "property": "C139",
   "status": "partial",
   "theorems": [
    "C139_plotted_residuals_partial",
    "C139_same_residuals_refuted",
    "C139_zero_of_the_fit",
    "C139_wrong_length",
    "C139_wrong_selection"
   ],
   "note": "Proved that the plot shows fit minus observation, the opposite sign of FitFunction.residuals (refuted); a zero of the fit gives an infinity; curves of the wrong length are refused."
  },
  {
   "property": "C140",
   "status": "partial",
   "theorems": [
    "C140_linear_and_log_y_share_a_path_refuted",
    "C140_path_identifies_the_plot_partial",
    "C140_path_components",
    "C140_set_log",
    "C140_set_labels"
   ],
   "note": "The y scale is never part of the path (refuted: the test on log.y is overwritten by a literal logY); the path determines everything else."
  },
  {
   "property": "C141",
   "status": "proved",
   "theorems": [
    "C141_number_of_marks"
   ],
   "note": "A fit plot marks a readable number of points"
  },
  {
   "property": "C142",
   "status": "partial",
   "theorems": [
    "C142_curves_drawn",
    "C142_unknown_kind_draws_nothing_refuted"
   ],
   "note": "The three kinds are proved; a misspelled kind silently draws nothing (refuted)."
  },
  {
   "property": "C143",
   "status": "partial",
   "theorems": [
    "C143_resid_kwargs_are_modified_refuted"
   ],
   "note": "Refuted: resid_pct is popped from the caller's dictionary."
  },
  {
   "property": "C144",
   "status": "partial",
   "theorems": [
    "C144_both_keeps_the_label",
    "C144_one_kind_partial",
    "C144_one_kind_keeps_the_label_refuted",
    "C144_no_label"
   ],
   "note": "Refuted for kind='simple'/'robust' with labels starting with a backslash, blank or semicolon: lstrip eats them; proved for all other labels and for 'both'."
  },
  {
   "property": "C145",
   "status": "proved",
   "theorems": [
    "C145_window"
   ],
   "note": "Error windows are centred on the data"
  },
  {
   "property": "C146",
   "status": "partial",
   "theorems": [
    "C146_automatic_path",
    "C146_path_identifies_labels_and_scales",
    "C146_set_labels",
    "C146_unexpected_label",
    "C146_path_after_set_log_refuted",
    "C146_set_log",
    "C146_given_path",
    "C146_ends_in",
    "C146_unknown_labels"
   ],
   "note": "Proved for automatic and given paths and set_labels; after set_log alone the path is stale (refuted)."
  },
  {
   "property": "C147",
   "status": "proved",
   "theorems": [
    "C147_plotted_rows",
    "C147_no_z",
    "C147_only_nan_refused"
   ],
   "note": "Exactly the complete rows are plotted"
  },
  {
   "property": "C148",
   "status": "proved",
   "theorems": [
    "C148_limits"
   ],
   "note": "Axis limits fit the data"
  },
  {
   "property": "C149",
   "status": "partial",
   "theorems": [
    "C149_colour_bar",
    "C149_second_plot_with_the_same_dict_refuted"
   ],
   "note": "Placement proved; refuted: the caller's cbar_kwargs is filled in, so a reused dictionary puts the second colour bar beside the first plot."
  },
  {
   "property": "C150",
   "status": "partial",
   "theorems": [
    "C150_scatter_partial",
    "C150_clipped_scatter_refuted"
   ],
   "note": "Proved without clipping; clip_data=True raises AttributeError (refuted)."
  },
  {
   "property": "C151",
   "status": "proved",
   "theorems": [
    "C151_transposed"
   ],
   "note": "Transposing a plot transposes labels and scales together"
  },
  {
   "property": "C152",
   "status": "partial",
   "theorems": [
    "C152_indicator_data",
    "C152_all_data",
    "C152_indicator_plot_refuted"
   ],
   "note": "plot_data is proved; the constructor itself raises AttributeError because labels.special has no DateTime (refuted)."
  },
  {
   "property": "C153",
   "status": "proved",
   "theorems": [
    "C153_sampled_data",
    "C153_exactly_n",
    "C153_fraction_refused"
   ],
   "note": "Data sampled from a figure lie in the drawn boxes"
  },
  {
   "property": "C154",
   "status": "partial",
   "theorems": [
    "C154_never_twice_partial",
    "C154_never_twice_refuted"
   ],
   "note": "Proved when all earlier selections are among this figure's data; one foreign label makes pandas' drop raise, the error is swallowed and nothing is dropped (refuted)."
  },
  {
   "property": "C155",
   "status": "partial",
   "theorems": [
    "C155_each_once_partial",
    "C155_each_once_refuted"
   ],
   "note": "Proved for boxes that share no datum; overlapping boxes repeat labels (refuted)."
  },
  {
   "property": "C156",
   "status": "proved",
   "theorems": [
    "C156_legs",
    "C156_refused"
   ],
   "note": "Orbit legs partition the data by time"
  },
  {
   "property": "C157",
   "status": "partial",
   "theorems": [
    "C157_counts_2d",
    "C157_counts_1d",
    "C157_both_legs",
    "C157_density_1d_refuted"
   ],
   "note": "Counts are proved; 1D densities raise TypeError because the index holds pairs (refuted)."
  },
  {
   "property": "C158",
   "status": "partial",
   "theorems": [
    "C158_columns",
    "C158_rows",
    "C158_total",
    "C158_densities_integrate_to_one",
    "C158_densities_partial",
    "C158_unequal_bins_refuted"
   ],
   "note": "Fractions are proved; densities integrate to one per leg but, divided by the bin sizes twice, are the fraction over the size only for equal bins (refuted for unequal ones)."
  },
  {
   "property": "C159",
   "status": "partial",
   "theorems": [
    "C159_kinds_partial",
    "C159_colour_bar_refuted",
    "C159_in_out",
    "C159_limited_colours",
    "C159_axes",
    "C159_limited_colours_refused",
    "C159_colour_bar_error"
   ],
   "note": "Proved without a colour bar; with one (the default) every plot raises TypeError since the axes are passed twice, and Both is switched off (refuted)."
  },
  {
   "property": "C160",
   "status": "partial",
   "theorems": [
    "C160_clipping",
    "C160_off",
    "C160_one_sided_refuted"
   ],
   "note": "Two-sided clipping and no clipping are proved; clip_data='l'/'u' raises AttributeError for Hist1D since pandas has no clip_lower/clip_upper (refuted)."
  },
  {
   "property": "C161",
   "status": "partial",
   "theorems": [
    "C161_limits_partial",
    "C161_fractions",
    "C161_no_norm_refuted",
    "C161_counts_refuted"
   ],
   "note": "Proved with a norm; without one, for counts and fractions of the total, the call raises AttributeError (refuted), and the limits come from the z data, which are all 1 for unweighted histograms, not from the counts (refuted)."
  },
  {
   "property": "C162",
   "status": "partial",
   "theorems": [
    "C162_labels_partial",
    "C162_no_gaps_partial",
    "C162_low_column_refuted",
    "C162_gap_refuted"
   ],
   "note": "Proved: a datum is labelled iff it lies between the lowest and the highest bin at the level in its column. Refuted: a datum in a lower bin between those is labelled too, and one column without a bin at the level makes the call fail."
  },
  {
   "property": "C163",
   "status": "partial",
   "theorems": [
    "C163_borders",
    "C163_points",
    "C163_smoothing_partial",
    "C163_small_refuted",
    "C163_lower_border_refuted"
   ],
   "note": "Unsmoothed borders are proved, smoothed ones from 50 points on. Refuted: the smoothing arguments are popped for the upper border so the lower border always uses the defaults; fewer than 50 points cannot be smoothed."
  },
  {
   "property": "C164",
   "status": "partial",
   "theorems": [
    "C164_means_1d",
    "C164_projection_partial",
    "C164_constant_refuted",
    "C164_on_y_refuted",
    "C164_projection_axes"
   ],
   "note": "Proved for Hist1D with y and for projections on x without only_plotted. Refuted: constant y gives numbers of rows; on y the x values are neither limited to the edges nor taken back from log."
  },
  {
   "property": "C165",
   "status": "partial",
   "theorems": [
    "C165_default_levels",
    "C165_given_levels",
    "C165_labelled",
    "C165_function_refuted"
   ],
   "note": "Refuted for axnorm with a function, which has no default levels."
  },
  {
   "property": "C166",
   "status": "proved",
   "theorems": [
    "C166_opacity"
   ],
   "note": "Opacity falls with the value"
  },
  {
   "property": "C167",
   "status": "partial",
   "theorems": [
    "C167_bars",
    "C167_band_partial",
    "C167_swapped_band_refuted",
    "C167_band_without_spread_refuted"
   ],
   "note": "Bars and the untransposed band are proved; a transposed band or one without spread raises TypeError (refuted)."
  },
  {
   "property": "C168",
   "status": "partial",
   "theorems": [
    "C168_timedelta_says",
    "C168_timedelta_distinct",
    "C168_unknown_step",
    "C168_frequency_says",
    "C168_frequency_distinct",
    "C168_frequency_plain_refuted"
   ],
   "note": "Refuted: the frequency's unit is written (..)^-1 without braces, so TeX raises only the sign, and its path holds blanks, backslashes and braces."
  },
  {
   "property": "C169",
   "status": "partial",
   "theorems": [
    "C169_epoch_spaces",
    "C169_title_case",
    "C169_epoch_says",
    "C169_epoch_distinct",
    "C169_datetime_path",
    "C169_datetime_paths_refuted",
    "C169_january"
   ],
   "note": "Refuted: DateTime kinds that differ in case or in blank/dash share a path, and a slash makes the path a directory."
  },
  {
   "property": "C170",
   "status": "partial",
   "theorems": [
    "C170_abundance_says",
    "C170_normalised_distinct",
    "C170_paths_tell_species",
    "C170_percent_path_refuted",
    "C170_known_species_refuted"
   ],
   "note": "Refuted: percent and plain labels share a path; small-letter species (a, p1, e, ...) are title-cased before lookup and so never translated."
  },
  {
   "property": "C171",
   "status": "partial",
   "theorems": [
    "C171_charges",
    "C171_ion_says",
    "C171_ions_distinct",
    "C171_ratio",
    "C171_usual_notation_refuted",
    "C171_integer_charge_refuted"
   ],
   "note": "Refuted: the usual notation 6+ is refused; an ion whose charge is an int has no path (AttributeError). int() is modelled on sign and digits."
  },
  {
   "property": "C172",
   "status": "proved",
   "theorems": [
    "C172_ssn_accepts",
    "C172_ssn_distinct",
    "C172_ssn_says",
    "C172_xcorr_accepts",
    "C172_xcorr_errors",
    "C172_xcorr_tex",
    "C172_xcorr_quotes"
   ],
   "note": "Sunspot number and cross-correlation labels"
  },
  {
   "property": "C173",
   "status": "proved",
   "theorems": [
    "C173_keys",
    "C173_urls"
   ],
   "note": "Activity tables are identified by their keys"
  },
  {
   "property": "C174",
   "status": "proved",
   "theorems": [
    "C174_calendar",
    "C174_time_of_row",
    "C174_times_in_order",
    "C174_other_keys"
   ],
   "note": "Rows are dated by their calendar date"
  },
  {
   "property": "C175",
   "status": "partial",
   "theorems": [
    "C175_rows",
    "C175_standard_error",
    "C175_columns",
    "C175_total_tables_work",
    "C175_hemispheric_refuted",
    "C175_missing_error_refuted",
    "C175_file_layout"
   ],
   "note": "Refuted: hemispheric keys (hd, hm, hm13) are accepted but SIDC(key) then raises KeyError for the column ssn; the standard error is computed before -1 is replaced, so a missing spread with no observations gives -inf."
  },
  {
   "property": "C176",
   "status": "partial",
   "theorems": [
    "C176_missing_values",
    "C176_refusals",
    "C176_nan_mark_refuted",
    "C176_times_untouched_refuted"
   ],
   "note": "Refuted: a NaN mark is refused because NaN != NaN; the mark is also replaced in the column of milliseconds."
  },
  {
   "property": "C177",
   "status": "partial",
   "theorems": [
    "C177_one_row_per_time",
    "C177_times_increase",
    "C177_sorted_refuted",
    "C177_times_that_look_missing"
   ],
   "note": "Proved when no time equals the mark for missing values. Refuted: verify_monotonic_epoch does not sort, so times need not increase."
  },
  {
   "property": "C178",
   "status": "partial",
   "theorems": [
    "C178_interpolates_measured",
    "C178_missing_samples_dropped",
    "C178_normalisation_refuted",
    "C178_unsorted_refuted",
    "C178_refusals"
   ],
   "note": "Refuted: LISIRD.run_normalization always raises NotImplementedError, there are no extrema; unsorted tables cannot be interpolated."
  },
  {
   "property": "C179",
   "status": "partial",
   "theorems": [
    "C179_curve",
    "C179_ticks",
    "C179_on_the_bar_refuted",
    "C179_quiet_refuted"
   ],
   "note": "Proved for maxima above 50 and unchanged axis limits. Refuted: rounding down lets the curve leave the bar; up to a maximum of 50 the scale ends at 0 and points are at infinity."
  },
  {
   "property": "C180",
   "status": "partial",
   "theorems": [
    "C180_joint_table",
    "C180_when",
    "C180_two_a_day_refuted"
   ],
   "note": "Refuted: two MgII samples on one day make the join fail."
  },
  {
   "property": "C181",
   "status": "proved",
   "theorems": [
    "C181_named_parameters",
    "C181_fitted_values_by_name"
   ],
   "note": "Fitted parameters by their documented names"
  },
  {
   "property": "C182",
   "status": "proved",
   "theorems": [
    "C182_sound_speed",
    "C182_anisotropy",
    "C182_known_names",
    "C182_refusals"
   ],
   "note": "An ion's own quantities"
  },
  {
   "property": "C183",
   "status": "proved",
   "theorems": [
    "C183_count",
    "C183_probability_and_count",
    "C183_function",
    "C183_absolute_value",
    "C183_units_line",
    "C183_distance",
    "C183_manual",
    "C183_dates",
    "C183_sunspots",
    "C183_correlation_file",
    "C183_template_names",
    "C183_directories",
    "C183_spaced_comparison",
    "C183_distance_text"
   ],
   "note": "Labels spell out what they show"
  },
  {
   "property": "C184",
   "status": "partial",
   "theorems": [
    "C184_well_formed",
    "C184_default_frame",
    "C184_dangling_refuted"
   ],
   "note": "Proved for balance and empty groups, for all table names and all plain names. Refuted: a dangling subscript stays in uncertainties without species (zp_err), flux without species keeps '()', cos_theta without component keeps '_{_'."
  },
  {
   "property": "C185",
   "status": "partial",
   "theorems": [
    "C185_truncated_guess",
    "C185_nothing_beyond",
    "C185_gaussian_plus_step_guess_partial",
    "C185_gaussian_plus_step_negative_refuted"
   ],
   "note": "Proved for both truncated Gaussians, and for GaussianPlusHeavySide at positive x. Refuted: at negative x GaussianPlusHeavySide's guess can be NaN, which makes its curve NaN everywhere."
  },
  {
   "property": "C186",
   "status": "partial",
   "theorems": [
    "C186_no_fit_without_level_partial",
    "C186_level_scales_the_curve"
   ],
   "note": "The missing level surfaces as AttributeError even with return_exception=True."
  },
  {
   "property": "C187",
   "status": "partial",
   "theorems": [
    "C187_reported_lines",
    "C187_guess",
    "C187_guess_refuted"
   ],
   "note": "Refuted for the guess: beyond a right angle theta is a half turn off, and the user's guess_s is ignored."
  },
  {
   "property": "C188",
   "status": "partial",
   "theorems": [
    "C188_guess",
    "C188_shallow_rise_refuted"
   ],
   "note": "numpy.polyfit is modelled by the normal equations. Refuted: a rise of at most 1e-10 per unit is not recognised, its intercept becomes the smallest x."
  },
  {
   "property": "C189",
   "status": "proved",
   "theorems": [
    "C189_named_parameters",
    "C189_guesses"
   ],
   "note": "Named parameters of the remaining models"
  },
  {
   "property": "C190",
   "status": "partial",
   "theorems": [
    "C190_uncertainties_reported",
    "C190_covariance_partial",
    "C190_no_degrees_of_freedom",
    "C190_undetermined_parameter_refuted"
   ],
   "note": "Proved when no singular value is negligible; the singular value decomposition is an input with its defining properties as hypotheses. Refuted: a parameter no observation depends on is reported with uncertainty 0."
  },
  {
   "property": "C191",
   "status": "proved",
   "theorems": [
    "C191_chisq_reported",
    "C191_robust_chisq"
   ],
   "note": "Robust and plain chi-square"
  },
  {
   "property": "C192",
   "status": "proved",
   "theorems": [
    "C192_every_cell_in_its_place",
    "C192_counts_in_drawn_cells"
   ],
   "note": "The picture of a 2D histogram"
  },
  {
   "property": "C193",
   "status": "partial",
   "theorems": [
    "C193_opacity_partial",
    "C193_empty_column_refuted",
    "C193_counts_keep_their_opacity"
   ],
   "note": "Proved when every row and column of bins holds data. Refuted: one empty row or column makes alpha_fcn fail with a ValueError, because its aggregate is not reindexed."
  },
  {
   "property": "C194",
   "status": "partial",
   "theorems": [
    "C194_contours_follow_the_picture",
    "C194_nan_aware_smoothing",
    "C194_default_smoothing_refuted",
    "C194_default_smoothing_without_gaps",
    "C194_contours_fit_or_are_refused"
   ],
   "note": "Contours and NaN-aware smoothing proved for every kernel. Refuted for the default smoothing: a cell disappears when any cell under the kernel is empty."
  },
  {
   "property": "C195",
   "status": "partial",
   "theorems": [
    "C195_label_names_normalisation_partial",
    "C195_shared_label_refuted",
    "C195_axnorm_keeps_the_path_refuted",
    "C195_stale_path_refuted",
    "C195_set_labels_refreshes",
    "C195_hist1d_axnorm",
    "C195_density_by_name_refuted",
    "C195_hist1d_label_refuted",
    "C195_text_label",
    "C195_unknown_normalisation",
    "C195_new_hist1d"
   ],
   "note": "Proved for all histories in which no label object is given to two histograms. Refuted: shared labels; the save path after set_axnorm; the name 'density' in the constructor of Hist1D; new labels on a Hist1D."
  },
  {
   "property": "C196",
   "status": "partial",
   "theorems": [
    "C196_bars_are_totals_partial"
   ],
   "note": "Proved without limits and normalisation; with limits the bars also count data of hidden cells (C126_with_limits_refuted)."
  },
  {
   "property": "C197",
   "status": "proved",
   "theorems": [
    "C197_five_counts",
    "C197_labels"
   ],
   "note": "Beta-anisotropy plots show well-populated cells"
  },
  {
   "property": "C198",
   "status": "partial",
   "theorems": [
    "C198_rectangles_show_their_rows",
    "C198_every_row_is_drawn_once",
    "C198_refused_before_grouping",
    "C198_mesh_succeeds_iff_finite",
    "C198_stale_groups_refuted",
    "C198_stale_picture_refuted"
   ],
   "note": "Proved for every history ending with up-to-date groups. Refuted otherwise: after a second initialize_mesh without build_grouped the plot shows the old cells' values in the new cells of the same number (general theorem and a two-row witness)."
  },
  {
   "property": "C199",
   "status": "proved",
   "theorems": [
    "C199_opacity",
    "C199_contour_points",
    "C199_unknown_method"
   ],
   "note": "Opacity and contours of an adaptive-mesh plot"
  },
  {
   "property": "C200",
   "status": "partial",
   "theorems": [
    "C200_new_data_are_not_shown_refuted",
    "C200_regrouping_ignores_coordinates_refuted",
    "C200_new_mesh_old_bins"
   ],
   "note": "Making mesh and groups again is proved right (with C198, which covers plots whose data were replaced). Refuted before that: the old rows stay on display, and grouping again without a new mesh counts the new rows where the old rows with the same position lie, if their number is the same (it is refused otherwise)."
  },
  {
   "property": "C201",
   "status": "proved",
   "theorems": [
    "C201_one_save",
    "C201_failed_save"
   ],
   "note": "Saving a figure"
  },
  {
   "property": "C202",
   "status": "partial",
   "theorems": [
    "C202_stamps_pile_up",
    "C202_second_save_refuted",
    "C202_without_information_partial"
   ],
   "note": "Refuted for every figure saved twice: the stamp stays on the figure, so the second pdf carries it and the second png two. Proved: the exact number of stamps after any history; files are clean while add_info is off."
  },
  {
   "property": "C203",
   "status": "partial",
   "theorems": [
    "C203_kept",
    "C203_plain_names_partial",
    "C203_dotted_names_refuted"
   ],
   "note": "Refuted: names that differ only after their last dot ('v_0.5', 'v_0.7') are the same files. Proved for names without a dot, and that files of another stem are never touched."
  },
  {
   "property": "C204",
   "status": "partial",
   "theorems": [
    "C204_dirty",
    "C204_staged_changes_refuted",
    "C204_new_files_refuted",
    "C204_nothing_staged_partial",
    "C204_warning"
   ],
   "note": "Refuted: 'git diff --quiet' compares the disk with the index, so staged changes and new files are reported clean. Proved: exact meaning of dirty; the claim for committed files if nothing was staged since the last commit."
  },
  {
   "property": "C205",
   "status": "partial",
   "theorems": [
    "C205_which_commit",
    "C205_installed_package_refuted",
    "C205_branch"
   ],
   "note": "Proved: the innermost enclosing repository, 'unknown' otherwise, NotADirectoryError for a path that is a file. Refuted: an installed package inside another project is reported with the project's commit."
  },
  {
   "property": "C206",
   "status": "partial",
   "theorems": [
    "C206_citation",
    "C206_unknown",
    "C206_same_beginning_refuted"
   ],
   "note": "Proved: the sentence and when it mentions modifications. Refuted: it does not identify the commit if the first seven characters agree; without git it never mentions modifications."
  },
  {
   "property": "C207",
   "status": "partial",
   "theorems": [
    "C207_drawn_are_used_partial",
    "C207_log_axis_refuted",
    "C207_leftmost_on_log_axis_refuted"
   ],
   "note": "Proved for linear axes. Refuted for logarithmic axes: log10 bin centres are compared with the trend's abscissae 10**centre, so with bins from 10 to 1000 nothing is drawn, and the leftmost fit never is."
  },
  {
   "property": "C208",
   "status": "proved",
   "theorems": [
    "C208_no_fits",
    "C208_all_fits_drawn",
    "C208_rejections"
   ],
   "note": "Drawing all 1d fits"
  },
  {
   "property": "C209",
   "status": "partial",
   "theorems": [
    "C209_before_trend",
    "C209_used_says_in_fit",
    "C209_in_fit_was_used_partial",
    "C209_left_out_says_in_fit_refuted"
   ],
   "note": "Used fits say 'In Fit' (proved); the converse holds if only the parameters themselves limit the trend and is refuted otherwise (any fit whose parameters lie between those of used fits says 'In Fit')."
  },
  {
   "property": "C210",
   "status": "partial",
   "theorems": [
    "C210_short_names",
    "C210_residual_options",
    "C210_line_options",
    "C210_style_of_error_bars_refuted",
    "C210_error_bars_partial",
    "C210_given_twice",
    "C210_options_without_effect_refuted"
   ],
   "note": "Proved for bands, for error bars without a line style and for repeated options. Refuted: error bars with a line style raise TypeError; plot_trend_fit_resid ignores every other option silently."
  },
  {
   "property": "C211",
   "status": "partial",
   "theorems": [
    "C211_shared_labels",
    "C211_without_z_refuted"
   ],
   "note": "Proved if the trend has a z label; without one every 1d fit's figure path says 'None' (refuted)."
  },
  {
   "property": "C212",
   "status": "partial",
   "theorems": [
    "C212_summary_counts",
    "C212_nonempty_partial",
    "C212_empty_boxes_counted_twice_refuted"
   ],
   "note": "Exact count proved. Refuted: an empty box is counted twice, because disconnect adds a hatched patch for it before counting."
  },
  {
   "property": "C213",
   "status": "partial",
   "theorems": [
    "C213_each_box",
    "C213_cannot_start_refuted"
   ],
   "note": "Proved where RectangleSelector accepts rectprops; refuted from matplotlib 3.7 on (TypeError)."
  },
  {
   "property": "C214",
   "status": "proved",
   "theorems": [
    "C214_sample_drawn_in_boxes",
    "C214_unknown_label"
   ],
   "note": "The drawn sample lies in the boxes"
  },
  {
   "property": "C215",
   "status": "partial",
   "theorems": [
    "C215_annotation",
    "C215_without_uncertainties",
    "C215_formula_altered_refuted",
    "C215_relative_errors"
   ],
   "note": "Proved for plain texts with convert_pow_10 and without relative errors. Refuted otherwise: '+0.5' in a formula loses its zero, '\\\\infty' in a formula becomes '\\\\\\\\inftyty'."
  },
  {
   "property": "C216",
   "status": "partial",
   "theorems": [
    "C216_lines",
    "C216_exponent_partial",
    "C216_exponent_refuted",
    "C216_name_refuted"
   ],
   "note": "Proved for values in positional notation and exponents that are not multiples of ten. Refuted: 1.5e-10 is shown as 1.5e-1 (the exponent's zeros are stripped); spaces in a name are dropped."
  },
  {
   "property": "C217",
   "status": "partial",
   "theorems": [
    "C217_converged_fit_is_complete",
    "C217_initial_guess_is_not_the_start_refuted",
    "C217_before_any_fit",
    "C217_guess_unavailable"
   ],
   "note": "Proved. Refuted in one point: initial_guess_info (and the annotation) reports the class's own guess, not the start passed to make_fit."
  },
  {
   "property": "C218",
   "status": "partial",
   "theorems": [
    "C218_repeated_abscissa_refuted"
   ],
   "note": "Refuted for every such line, start and optimiser result: p0 is None, initial_guess_info raises TypeError inside make_fit, also with return_exception=True."
  },
  {
   "property": "C219",
   "status": "partial",
   "theorems": [
    "C219_reports_of_one_fit",
    "C219_bounds_of_a_failed_fit_refuted",
    "C219_mixed_reports_refuted"
   ],
   "note": "Proved for calls without shape errors, covariance failures or classes without a guess. Refuted otherwise: a failing covariance leaves the new bounds with the old parameters; a refitted line with a repeated abscissa keeps the old TeX info with new parameters."
  },
  {
   "property": "C220",
   "status": "proved",
   "theorems": [
    "C220_default_start_is_feasible"
   ],
   "note": "The default start is feasible"
  },
  {
   "property": "C221",
   "status": "partial",
   "theorems": [
    "C221_projected_counts",
    "C221_projected_means",
    "C221_weighted_refuted",
    "C221_count_label_refuted"
   ],
   "note": "Proved for counts and for unweighted data. Refuted: weighted data without project_counts raise KeyError (log and edges have no z); counts are labelled with the other axis' label."
  },
  {
   "property": "C222",
   "status": "proved",
   "theorems": [
    "C222_lines_of_the_legs",
    "C222_lines_of_counts"
   ],
   "note": "Lines of an orbit histogram"
  },
  {
   "property": "C223",
   "status": "proved",
   "theorems": [
    "C223_entropy_of_an_ion",
    "C223_as_the_plasma_reports",
    "C223_unknown_ion"
   ],
   "note": "Specific entropy of an ion"
  },
  {
   "property": "C224",
   "status": "partial",
   "theorems": [
    "C224_made_of",
    "C224_new_data_refuted"
   ],
   "note": "Proved for construction. Refuted for set_data: it validates the new table and keeps the old one."
  },
  {
   "property": "C225",
   "status": "proved",
   "theorems": [
    "C225_names",
    "C225_observations_with_window",
    "C225_observations_with_bars",
    "C225_given_twice"
   ],
   "note": "Drawn observations"
  },
  {
   "property": "C226",
   "status": "proved",
   "theorems": [
    "C226_fitted_curve"
   ],
   "note": "Drawn fit"
  },
  {
   "property": "C227",
   "status": "partial",
   "theorems": [
    "C227_all_three",
    "C227_annotated",
    "C227_own_drawstyle_refuted"
   ],
   "note": "Proved without a drawstyle among the parts' own options. Refuted otherwise: a drawstyle (or ds) in raw_kwargs or used_kwargs raises TypeError."
  },
  {
   "property": "C228",
   "status": "partial",
   "theorems": [
    "C228_annotation",
    "C228_full_names_refuted",
    "C228_documented_place_refuted"
   ],
   "note": "Proved for the settings' names in this method. Refuted: full names (horizontalalignment, ...) raise TypeError; the default place is (1.1, 0.95), not the documented (0.05, 0.9)."
  },
  {
   "property": "C229",
   "status": "partial",
   "theorems": [
    "C229_contours",
    "C229_told_apart",
    "C229_refusals",
    "C229_required_pandas_refuted",
    "C229_table_legend_refuted",
    "C229_table_cells"
   ],
   "note": "Proved for a pandas that still has Series.iteritems. Refuted: with the required pandas >= 2.0 every call raises AttributeError; the table legend puts MM's marker in the row named AIC."
  },
  {
   "property": "C230",
   "status": "partial",
   "theorems": [
    "C230_one_kind",
    "C230_both_kinds_partial",
    "C230_both_kinds_own_style_refuted",
    "C230_unknown_kind",
    "C230_same_residuals"
   ],
   "note": "Proved for one kind with all options and for both kinds without colour, marker or line style. Refuted: with both kinds (the default) any of these three raises TypeError."
  },
  {
   "property": "C231",
   "status": "partial",
   "theorems": [
    "C231_labels_and_scales",
    "C231_residual_axes",
    "C231_back_to_linear_refuted"
   ],
   "note": "Proved on fresh axes. Refuted: on axes already used with a logarithmic scale, set_log(x=False) has no effect."
  },
  {
   "property": "C232",
   "status": "proved",
   "theorems": [
    "C232_fourteen_digits",
    "C232_number_density",
    "C232_mass_density",
    "C232_pressure",
    "C232_temperature",
    "C232_field",
    "C232_beta",
    "C232_sound_speed",
    "C232_alfven_speed",
    "C232_anisotropy"
   ],
   "note": "Refers to the readings and constants as stored: how they were rounded when read is not part of the claim. The bounds count 2^-52 per rounding (a rounding is at most half of it)."
  },
  {
   "property": "C233",
   "status": "proved",
   "theorems": [
    "C233_energies",
    "C233_normalised",
    "C233_ratios"
   ],
   "note": "Refers to the fluctuations as stored; their computation by rolling means is not part of the claim."
  },
  {
   "property": "C234",
   "status": "proved",
   "theorems": [
    "C234_counts_exact",
    "C234_normalised_counts",
    "C234_column_scaled",
    "C234_row_scaled",
    "C234_total_scaled",
    "C234_counts_positive"
   ],
   "note": "Coordinates are those binned (after the optional logarithm). Value limits (alim) are left out of the normalised part: they compare rounded values."
  },
  {
   "property": "C235",
   "status": "proved",
   "theorems": [
    "C235_density_1d",
    "C235_density_2d",
    "C235_column_density",
    "C235_row_density"
   ],
   "note": "Linear axes for 'd' (on logarithmic ones it is false, C72_log_density_1d_refuted). The integral is the exact sum of shown value times true bin width. The bound is per histogram: it does not grow with the number of bins."
  },
  {
   "property": "C236",
   "status": "proved",
   "theorems": [
    "C236_feature",
    "C236_max",
    "C236_column"
   ],
   "note": "The z-score is not bounded and is not part of the claim."
  },
  {
   "property": "C237",
   "status": "proved",
   "theorems": [
    "C237_perpendicular",
    "C237_magnitude",
    "C237_unit_vector",
    "C237_cosine",
    "C237_cosine_bound",
    "C237_projection",
    "C237_unit_length"
   ],
   "note": "Vectors outside 2^-50..2^50 are not covered. C135 shows that the cosine can exceed 1."
  },
  {
   "property": "C238",
   "status": "proved",
   "theorems": [
    "C238_bands",
    "C238_no_colour_outside",
    "C238_ends",
    "C238_ticks",
    "C238_inverse",
    "C238_inverse_unique",
    "C238_every_row_has_a_colour"
   ],
   "note": "matplotlib's Normalize and ListedColormap are modelled from their documentation."
  },
  {
   "property": "C239",
   "status": "partial",
   "theorems": [
    "C239_magnitude_refuted",
    "C239_two_columns"
   ],
   "note": "False of the code: every tensor that can be made has at least three columns and pandas refuses a dictionary of two weights for them, so magnitude always raises ValueError (refuted for all tensors); a table of just the two columns would give the stated value (proved)."
  },
  {
   "property": "C240",
   "status": "partial",
   "theorems": [
    "C240_stars",
    "C240_parts",
    "C240_ranges",
    "C240_window_refuted",
    "C240_colours",
    "C240_window"
   ],
   "note": "The window ends on 2 January 2020 whatever the data, so an extremum found later is drawn outside it (refuted with a witness); everything else is proved."
  },
  {
   "property": "C241",
   "status": "partial",
   "theorems": [
    "C241_made_from",
    "C241_default_is_gaussian",
    "C241_made_when_accepted",
    "C241_exceptions",
    "C241_new_exceptions",
    "C241_rejected_calls_change_nothing",
    "C241_fits_come_from_the_last_make",
    "C241_columns_split",
    "C241_trend",
    "C241_trend_given",
    "C241_untouched",
    "C241_disjoint_refuted"
   ],
   "note": "The last clause is false: make_ffunc1ds does not clear bad_fits, so after new data a column can be in both (refuted with a witness); everything else is proved. Fits run with return_exception=True and one job; C56 covers the parallel path."
  },
  {
   "property": "C242",
   "status": "proved",
   "theorems": [
    "C242_covers_the_box",
    "C242_exactly_the_empty_boxes",
    "C242_no_sample_in_the_hatching",
    "C242_otherwise_sampled"
   ],
   "note": "Proved when all earlier selections are among the data (C154 says what happens otherwise) and labels are unique."
  },
  {
   "property": "C243",
   "status": "proved",
   "theorems": [
    "C243_centre_of_mass_velocity"
   ],
   "note": "Missing readings are not covered."
  },
  {
   "property": "C244",
   "status": "proved",
   "theorems": [
    "C244_the_last_method_counts",
    "C244_interpolated_in_step",
    "C244_outcomes",
    "C244_returned_samples",
    "C244_interpolation"
   ],
   "note": "Columns other than ssn and nssn are not interpolated in the model; the spline is any function (C61 has its own theorems). When the interpolated table holds only the normalised column, run_normalization raises KeyError after it has stored the new column and method: a defect, proved as it is."
  }
 ]
}