{
 "claims": [
  {
   "property": "C01",
   "status": "proved",
   "theorems": [
    "C01_wavelength_roundtrip_temperature"
   ],
   "note": ""
  },
  {
   "property": "C02",
   "status": "proved",
   "theorems": [
    "C02_wavelength_roundtrip_radiance"
   ],
   "note": ""
  },
  {
   "property": "C03",
   "status": "proved",
   "theorems": [
    "C03_wavenumber_roundtrip_temperature",
    "C03_wavenumber_roundtrip_radiance"
   ],
   "note": ""
  },
  {
   "property": "C04",
   "status": "proved",
   "theorems": [
    "C04_wavelength_radiance",
    "C04_wavenumber_radiance",
    "C04_brightness_temperature_increasing"
   ],
   "note": ""
  },
  {
   "property": "C05",
   "status": "proved",
   "theorems": [
    "C05_spaces_agree_radiance",
    "C05_spaces_agree_temperature"
   ],
   "note": ""
  },
  {
   "property": "C06",
   "status": "proved",
   "theorems": [
    "C06_undefined_temperature",
    "C06_negative_temperature",
    "C06_python_zero_radiance",
    "C06_nonpositive_radiance"
   ],
   "note": ""
  },
  {
   "property": "C07",
   "status": "proved",
   "theorems": [
    "C07_table_entries",
    "C07_shape_lost",
    "C07_empty_arrays"
   ],
   "note": ""
  },
  {
   "property": "C08",
   "status": "proved",
   "theorems": [
    "C08_chunking_irrelevant",
    "C08_rad2temp_chunking",
    "C08_keyword_fails",
    "C08_unknown_chunked",
    "C08_python_float_radiance_refuted"
   ],
   "note": ""
  },
  {
   "property": "C09",
   "status": "proved",
   "theorems": [
    "C09_band_radiance_is_weighted_mean",
    "C09_units"
   ],
   "note": ""
  },
  {
   "property": "C10",
   "status": "proved",
   "theorems": [
    "C10_band_radiance_increases"
   ],
   "note": ""
  },
  {
   "property": "C11",
   "status": "proved",
   "theorems": [
    "C11_response_scale",
    "C11_reversed_grid"
   ],
   "note": ""
  },
  {
   "property": "C12",
   "status": "proved",
   "theorems": [
    "C12_lookup_stays_in_table",
    "C12_lookup_accuracy",
    "C12_lookup_monotone"
   ],
   "note": ""
  },
  {
   "property": "C13",
   "status": "proved",
   "theorems": [
    "C13_multiples_hit_their_row",
    "C13_stored_temperatures_off_by_one",
    "C13_every_double",
    "C13_wraparound",
    "C13_monotone_refuted"
   ],
   "note": ""
  },
  {
   "property": "C14",
   "status": "proved",
   "theorems": [
    "C14_seviri_roundtrip_temperature",
    "C14_seviri_roundtrip_radiance",
    "C14_seviri_increasing"
   ],
   "note": ""
  },
  {
   "property": "C15",
   "status": "proved",
   "theorems": [
    "C15_which_channels_convert",
    "C15_water_vapour_alias_refuted",
    "C15_refused_requests",
    "C15_band_must_be_a_name"
   ],
   "note": ""
  },
  {
   "property": "C16",
   "status": "proved",
   "theorems": [
    "C16_no_calculator_in_wavenumber",
    "C16_wavespace_checked_first",
    "C16_wavespace_accepted",
    "C16_wavenumber_by_name",
    "C16_wavenumber_by_number_fails",
    "C16_wavenumber_radiance2tb_fails"
   ],
   "note": ""
  },
  {
   "property": "C17",
   "status": "proved",
   "theorems": [
    "C17_masked_exactly",
    "C17_pixels_are_independent",
    "C17_call_succeeds",
    "C17_default_limits"
   ],
   "note": ""
  },
  {
   "property": "C18",
   "status": "proved",
   "theorems": [
    "C18_energy_closure"
   ],
   "note": ""
  },
  {
   "property": "C19",
   "status": "proved",
   "theorems": [
    "C19_range",
    "C19_negative_when_colder",
    "C19_between_0_and_1_refuted"
   ],
   "note": ""
  },
  {
   "property": "C20",
   "status": "proved",
   "theorems": [
    "C20_monotone"
   ],
   "note": ""
  },
  {
   "property": "C21",
   "status": "proved",
   "theorems": [
    "C21_solar_radiance",
    "C21_decreasing_in_zenith"
   ],
   "note": ""
  },
  {
   "property": "C22",
   "status": "proved",
   "theorems": [
    "C22_correction",
    "C22_increasing",
    "C22_factor_used"
   ],
   "note": ""
  },
  {
   "property": "C23",
   "status": "proved",
   "theorems": [
    "C23_history_free"
   ],
   "note": ""
  },
  {
   "property": "C24",
   "status": "proved",
   "theorems": [
    "C24_after_a_call",
    "C24_without_a_call",
    "C24_mixed_after_failure"
   ],
   "note": ""
  },
  {
   "property": "C25",
   "status": "proved",
   "theorems": [
    "C25_file_name",
    "C25_calculator"
   ],
   "note": ""
  },
  {
   "property": "C26",
   "status": "proved",
   "theorems": [
    "C26_own_table",
    "C26_first_come",
    "C26_after_crash"
   ],
   "note": ""
  },
  {
   "property": "C27",
   "status": "proved",
   "theorems": [
    "C27_accepted_band",
    "C27_refused_band",
    "C27_shape_mismatch",
    "C27_sun_shape",
    "C27_co2_shape"
   ],
   "note": ""
  },
  {
   "property": "C28",
   "status": "proved",
   "theorems": [
    "C28_conversion_conserves_energy",
    "C28_no_second_conversion"
   ],
   "note": ""
  },
  {
   "property": "C29",
   "status": "proved",
   "theorems": [
    "C29_solar_constant_both_spaces",
    "C29_no_coordinate"
   ],
   "note": ""
  },
  {
   "property": "C30",
   "status": "proved",
   "theorems": [
    "C30_irradiance_is_a_mean",
    "C30_scaling",
    "C30_other_detectors_ignored"
   ],
   "note": ""
  },
  {
   "property": "C31",
   "status": "proved",
   "theorems": [
    "C31_grids_agree",
    "C31_narrow_band_refuted"
   ],
   "note": ""
  },
  {
   "property": "C32",
   "status": "proved",
   "theorems": [
    "C32_calls_do_not_interfere",
    "C32_resolution_sticks"
   ],
   "note": ""
  },
  {
   "property": "C33",
   "status": "proved",
   "theorems": [
    "C33_angles_are_clipped"
   ],
   "note": ""
  },
  {
   "property": "C34",
   "status": "proved",
   "theorems": [
    "C34_wavelength_blending",
    "C34_wavelength_index"
   ],
   "note": ""
  },
  {
   "property": "C35",
   "status": "proved",
   "theorems": [
    "C35_outside_is_zero"
   ],
   "note": ""
  },
  {
   "property": "C36",
   "status": "proved",
   "theorems": [
    "C36_percent",
    "C36_number",
    "C36_call_succeeds"
   ],
   "note": ""
  },
  {
   "property": "C37",
   "status": "proved",
   "theorems": [
    "C37_interpolation_bounds",
    "C37_call_bounds",
    "C37_node",
    "C37_affine"
   ],
   "note": ""
  },
  {
   "property": "C38",
   "status": "proved",
   "theorems": [
    "C38_cloud_relaxation",
    "C38_red_band"
   ],
   "note": ""
  },
  {
   "property": "C39",
   "status": "proved",
   "theorems": [
    "C39_high_zenith"
   ],
   "note": ""
  },
  {
   "property": "C40",
   "status": "proved",
   "theorems": [
    "C40_sensor_name"
   ],
   "note": ""
  },
  {
   "property": "C41",
   "status": "proved",
   "theorems": [
    "C41_unsupported_rejected",
    "C41_construction",
    "C41_download_setting",
    "C41_tables"
   ],
   "note": ""
  },
  {
   "property": "C42",
   "status": "proved",
   "theorems": [
    "C42_requests_the_outdated_types",
    "C42_dry_run_requests_nothing",
    "C42_bad_type_requests_nothing",
    "C42_setting_respected_refuted"
   ],
   "note": ""
  },
  {
   "property": "C43",
   "status": "proved",
   "theorems": [
    "C43_indexing",
    "C43_standard_name_unique",
    "C43_get_with_default",
    "C43_get_never_raises_refuted",
    "C43_list_instrument",
    "C43_membership_follows_indexing_refuted"
   ],
   "note": ""
  },
  {
   "property": "C44",
   "status": "proved",
   "theorems": [
    "C44_other_combinations_rejected",
    "C44_filename_never_downloads",
    "C44_names_read_the_standard_file"
   ],
   "note": ""
  },
  {
   "property": "C45",
   "status": "proved",
   "theorems": [
    "C45_returns_true_iff_outdated",
    "C45_downloads_exactly_when",
    "C45_download_setting",
    "C45_setting_is_enabled",
    "C45_quiet_after_download",
    "C45_other_destination_repeats"
   ],
   "note": ""
  },
  {
   "property": "C46",
   "status": "proved",
   "theorems": [
    "C46_nothing_else_touched",
    "C46_version_last_is_safe",
    "C46_version_early_is_unsafe"
   ],
   "note": ""
  },
  {
   "property": "C47",
   "status": "proved",
   "theorems": [
    "C47_success",
    "C47_chunking_irrelevant",
    "C47_http_error_changes_nothing",
    "C47_lost_connection"
   ],
   "note": ""
  },
  {
   "property": "C48",
   "status": "proved",
   "theorems": [
    "C48_conversion",
    "C48_order",
    "C48_same_pairs"
   ],
   "note": ""
  },
  {
   "property": "C49",
   "status": "proved",
   "theorems": [
    "C49_first_convert",
    "C49_histories",
    "C49_failed_conversion_changes_nothing_refuted",
    "C49_empty_keeps_unit"
   ],
   "note": ""
  },
  {
   "property": "C50",
   "status": "proved",
   "theorems": [
    "C50_central_within_band",
    "C50_scaling_the_response",
    "C50_reversing_the_samples",
    "C50_axis_change",
    "C50_symmetric_response",
    "C50_weighted_within_band",
    "C50_rayleigh_weight_within_band"
   ],
   "note": ""
  },
  {
   "property": "C51",
   "status": "proved",
   "theorems": [
    "C51_candidates",
    "C51_missing_first_detector",
    "C51_name_is_a_band_refuted"
   ],
   "note": ""
  },
  {
   "property": "C52",
   "status": "proved",
   "theorems": [
    "C52_sort_data",
    "C52_empty"
   ],
   "note": ""
  },
  {
   "property": "C53",
   "status": "proved",
   "theorems": [
    "C53_single",
    "C53_single_writes",
    "C53_multi",
    "C53_other_names",
    "C53_wavelengths_lost",
    "C53_wavelengths_refuted"
   ],
   "note": ""
  },
  {
   "property": "C54",
   "status": "proved",
   "theorems": [
    "C54_contents",
    "C54_reads_or_KeyError"
   ],
   "note": ""
  },
  {
   "property": "C55",
   "status": "proved",
   "theorems": [
    "C55_platform",
    "C55_instrument",
    "C55_determined",
    "C55_translation_idempotent",
    "C55_bad_name"
   ],
   "note": ""
  },
  {
   "property": "C56",
   "status": "proved",
   "theorems": [
    "C56_fwhm",
    "C56_scale_invariance_refuted"
   ],
   "note": ""
  },
  {
   "property": "C57",
   "status": "proved",
   "theorems": [
    "C57_wave_range",
    "C57_threshold_monotone"
   ],
   "note": ""
  },
  {
   "property": "C58",
   "status": "proved",
   "theorems": [
    "C58_energy_bounds",
    "C58_defined",
    "C58_scale_invariant",
    "C58_percentage_monotone",
    "C58_lower_below_upper_refuted"
   ],
   "note": ""
  },
  {
   "property": "C59",
   "status": "proved",
   "theorems": [
    "C59_convert2str",
    "C59_idempotent",
    "C59_utf8",
    "C59_only_value_error_refuted"
   ],
   "note": ""
  },
  {
   "property": "C60",
   "status": "proved",
   "theorems": [
    "C60_adjusted_name",
    "C60_several_instruments",
    "C60_single_instrument_idempotent",
    "C60_idempotent_refuted"
   ],
   "note": ""
  },
  {
   "property": "C61",
   "status": "proved",
   "theorems": [
    "C61_identity",
    "C61_identical_iff",
    "C61_non_strings",
    "C61_symmetric_refuted"
   ],
   "note": ""
  },
  {
   "property": "C62",
   "status": "proved",
   "theorems": [
    "C62_aerosol_type_selection"
   ],
   "note": ""
  },
  {
   "property": "C63",
   "status": "proved",
   "theorems": [
    "C63_printed_at_most_once",
    "C63_on",
    "C63_debug_on",
    "C63_off",
    "C63_on_after_off_is_silent",
    "C63_get_logger"
   ],
   "note": ""
  },
  {
   "property": "C64",
   "status": "proved",
   "theorems": [
    "C64_leaves_set",
    "C64_rest_kept",
    "C64_idempotent",
    "C64_into_empty",
    "C64_conflict_fails",
    "C64_only_conflicts_fail"
   ],
   "note": ""
  },
  {
   "property": "C65",
   "status": "proved",
   "theorems": [
    "C65_environment_then_builtin",
    "C65_explicit_file_wins",
    "C65_result",
    "C65_only_directories_appear",
    "C65_empty_file_raises",
    "C65_missing_file_raises"
   ],
   "note": ""
  },
  {
   "property": "C66",
   "status": "proved",
   "theorems": [
    "C66_masked_array_pixelwise",
    "C66_dask_pixelwise",
    "C66_zones_cover",
    "C66_never_lowers_off_nadir",
    "C66_caller_arrays_untouched",
    "C66_plain_numpy_refuted",
    "C66_nonfinite_becomes_masked"
   ],
   "note": ""
  },
  {
   "property": "C67",
   "status": "proved",
   "theorems": [
    "C67_jump_at_nadir",
    "C67_one_pixel",
    "C67_atmosphere_argument"
   ],
   "note": ""
  },
  {
   "property": "C68",
   "status": "proved",
   "theorems": [
    "C68_restored",
    "C68_given_path",
    "C68_temporary_file",
    "C68_nesting"
   ],
   "note": ""
  },
  {
   "property": "C69",
   "status": "proved",
   "theorems": [
    "C69_mocked_downloads",
    "C69_mocked_rayleigh",
    "C69_outdated_tables_request",
    "C69_outdated_responses_request",
    "C69_disabled",
    "C69_mocked_rsr",
    "C69_mocked_tb_conversion",
    "C69_rsr_disabled"
   ],
   "note": ""
  },
  {
   "property": "C70",
   "status": "proved",
   "theorems": [
    "C70_translation_idempotent",
    "C70_targets_fixed",
    "C70_generic_numbers",
    "C70_generic_numbers_only"
   ],
   "note": ""
  },
  {
   "property": "C71",
   "status": "proved",
   "theorems": [
    "C71_integer_temperatures"
   ],
   "note": ""
  },
  {
   "property": "C72",
   "status": "proved",
   "theorems": [
    "C72_ban"
   ],
   "note": ""
  },
  {
   "property": "C73",
   "status": "proved",
   "theorems": [
    "C73_name_is_wavelength",
    "C73_towards_blue",
    "C73_normalisation",
    "C73_nanometres",
    "C73_unreadable",
    "C73_unknown_name"
   ],
   "note": ""
  },
  {
   "property": "C74",
   "status": "proved",
   "theorems": [
    "C74_sort_doubles"
   ],
   "note": ""
  },
  {
   "property": "C75",
   "status": "proved",
   "theorems": [
    "C75_grid_stays_in_band",
    "C75_band_result"
   ],
   "note": ""
  },
  {
   "property": "C76",
   "status": "proved",
   "theorems": [
    "C76_own_file",
    "C76_all_bands_needed",
    "C76_columns",
    "C76_no_data_no_file",
    "C76_output_directory",
    "C76_instrument",
    "C76_known_bands",
    "C76_complete"
   ],
   "note": ""
  },
  {
   "property": "C77",
   "status": "proved",
   "theorems": [
    "C77_virr_refuted",
    "C77_own_column_refuted",
    "C77_other_columns"
   ],
   "note": "Findings: VirrRSR always raises (C77_virr_refuted); MERSI-1 FY-3B ch4 and ch8 share a column (C77_own_column_refuted)."
  },
  {
   "property": "C78",
   "status": "proved",
   "theorems": [
    "C78_wavenumbers"
   ],
   "note": ""
  },
  {
   "property": "C79",
   "status": "proved",
   "theorems": [
    "C79_trimmed",
    "C79_mersi1",
    "C79_fractions_refuted"
   ],
   "note": "Finding C79_fractions_refuted: fractions with a peak above 1 are divided by 100."
  },
  {
   "property": "C82",
   "status": "proved",
   "theorems": [
    "C82_visible_refuted",
    "C82_wavenumber_refuted",
    "C82_infrared",
    "C82_columns",
    "C82_pairs"
   ],
   "note": "Findings C82_visible_refuted (IndexError for any work book with a non-infrared channel) and C82_wavenumber_refuted."
  },
  {
   "property": "C83",
   "status": "proved",
   "theorems": [
    "C83_same_name",
    "C83_same_name_refuted"
   ],
   "note": "Finding C83_same_name_refuted: instruments with '-' in their name."
  },
  {
   "property": "C80",
   "status": "proved",
   "theorems": [
    "C80_rows",
    "C80_names",
    "C80_load",
    "C80_all_missing",
    "C80_back",
    "C80_alike",
    "C80_odd_names",
    "C80_writes",
    "C80_own_wavelengths_refuted"
   ],
   "note": "Finding C80_own_wavelengths_refuted: detectors whose wavelengths nearly agree all get those of the first detector."
  },
  {
   "property": "C81",
   "status": "proved",
   "theorems": [
    "C81_back",
    "C81_other_format",
    "C81_same_lengths_refuted"
   ],
   "note": "Finding C81_same_lengths_refuted: NaN wavelength, one detector. C81_back is about tables of real numbers."
  },
  {
   "property": "C84",
   "status": "proved",
   "theorems": [
    "C84_integral",
    "C84_converter_integral",
    "C84_freshly_loaded"
   ],
   "note": ""
  },
  {
   "property": "C85",
   "status": "proved",
   "theorems": [
    "C85_radiance2tb_inverts_planck",
    "C85_roundtrip_keeps_order"
   ],
   "note": ""
  },
  {
   "property": "C86",
   "status": "proved",
   "theorems": [
    "C86_planck_at_the_channel",
    "C86_every_channel"
   ],
   "note": ""
  },
  {
   "property": "C87",
   "status": "proved",
   "theorems": [
    "C87_given_flux",
    "C87_derived_flux",
    "C87_own_detector_refuted"
   ],
   "note": "Finding: the in-band solar flux is always that of det-1 (the default of inband_solarflux), whichever detector the calculator is for (C87_own_detector_refuted)."
  },
  {
   "property": "C88",
   "status": "proved",
   "theorems": [
    "C88_range",
    "C88_inside",
    "C88_outside",
    "C88_termination_refuted",
    "C88_only_the_range_refuted"
   ],
   "note": "Findings: C88_termination_refuted (resolution <= 0 never ends), C88_only_the_range_refuted (resolution is in micrometres, help says nanometres)."
  },
  {
   "property": "C89",
   "status": "proved",
   "theorems": [
    "C89_platforms",
    "C89_labels",
    "C89_nothing_readable",
    "C89_own_sensors_tried",
    "C89_tried",
    "C89_other_errors",
    "C89_by_wavelength",
    "C89_file_name",
    "C89_range_in_name_refuted",
    "C89_own_data_refuted",
    "C89_first_untried",
    "C89_accepted_names_tried_refuted"
   ],
   "note": "Findings: C89_own_data_refuted (stale object drawn again), C89_first_untried (NameError), C89_accepted_names_tried_refuted (avhrr-3 not tried for NOAA-19). The constructor of RelativeSpectralResponse is an arbitrary function."
  },
  {
   "property": "C90",
   "status": "proved",
   "theorems": [
    "C90_all_bands",
    "C90_stops"
   ],
   "note": ""
  },
  {
   "property": "C91",
   "status": "proved",
   "theorems": [
    "C91_dry_run",
    "C91_all_types",
    "C91_empty_destination",
    "C91_installs",
    "C91_types",
    "C91_verbose",
    "C91_success_means_installed_refuted",
    "C91_setting_respected_refuted"
   ],
   "note": "Findings: C91_success_means_installed_refuted, C91_setting_respected_refuted."
  },
  {
   "property": "C92",
   "status": "proved",
   "theorems": [
    "C92_points",
    "C92_plot_rsr",
    "C92_no_single_band",
    "C92_other_names",
    "C92_unknown_names"
   ],
   "note": ""
  },
  {
   "property": "C93",
   "status": "proved",
   "theorems": [
    "C93_planck_monotone",
    "C93_rad2temp_monotone",
    "C93_wn_rad2temp_monotone"
   ],
   "note": ""
  },
  {
   "property": "C94",
   "status": "proved",
   "theorems": [
    "C94_band_radiance_monotone",
    "C94_table_monotone",
    "C94_seviri_monotone"
   ],
   "note": ""
  },
  {
   "property": "C95",
   "status": "proved",
   "theorems": [
    "C95_radiance",
    "C95_temperature",
    "C95_round_trip"
   ],
   "note": ""
  },
  {
   "property": "C96",
   "status": "proved",
   "theorems": [
    "C96_band_radiance"
   ],
   "note": ""
  },
  {
   "property": "C97",
   "status": "proved",
   "theorems": [
    "C97_alone",
    "C97_one_after_the_other",
    "C97_others_untouched",
    "C97_both_succeed_refuted",
    "C97_complete_refuted"
   ],
   "note": "Findings: C97_both_succeed_refuted, C97_complete_refuted (no locking, one fixed temporary name in the target directory)."
  },
  {
   "property": "C98",
   "status": "proved",
   "theorems": [
    "C98_rad2temp",
    "C98_wn_rad2temp",
    "C98_wn_rad2temp_refuted",
    "C98_planck",
    "C98_band_radiance",
    "C98_lut",
    "C98_lut_value",
    "C98_reflectance",
    "C98_emissive",
    "C98_seviri",
    "C98_limb",
    "C98_limb_integers",
    "C98_limb_same_type_refuted",
    "C98_rayleigh",
    "C98_rayleigh_integers_refuted",
    "C98_reduce",
    "C98_doubles",
    "C98_doubles_reflectance",
    "C98_doubles_emissive",
    "C98_doubles_limb"
   ],
   "note": "Promotion rules of NumPy 2. Findings: C98_wn_rad2temp_refuted, C98_limb_same_type_refuted, C98_rayleigh_integers_refuted."
  },
  {
   "property": "C99",
   "status": "proved",
   "theorems": [
    "C99_rad2temp_integers",
    "C99_radiance2tb_integers",
    "C99_same_value_refuted",
    "C99_wavenumber_integers",
    "C99_rayleigh_table",
    "C99_rayleigh_no_correction"
   ],
   "note": "Findings: C99_rad2temp_integers, C99_radiance2tb_integers, C99_same_value_refuted (blackbody.py:38-40 casts the wavelength to the radiance's integer type); C99_rayleigh_no_correction."
  },
  {
   "property": "C100",
   "status": "proved",
   "theorems": [
    "C100_one_band",
    "C100_no_band",
    "C100_several_bands",
    "C100_calculator"
   ],
   "note": "Over exact numbers. Wavenumber space: see C16 (a number never works there)."
  },
  {
   "property": "C101",
   "status": "proved",
   "theorems": [
    "C101_fci",
    "C101_fci_succeeds",
    "C101_olci",
    "C101_olci_succeeds",
    "C101_olci_missing",
    "C101_slstr",
    "C101_slstr_bands",
    "C101_slstr_succeeds",
    "C101_metimage",
    "C101_metimage_file"
   ],
   "note": "NetCDF files are an oracle; masked values are ordinary numbers. SLSTR: no success theorem (the script opens a fixed path)."
  },
  {
   "property": "C102",
   "status": "proved",
   "theorems": [
    "C102_epic",
    "C102_epic_succeeds",
    "C102_goci2",
    "C102_goci2_succeeds",
    "C102_gaps_refuted",
    "C102_msi",
    "C102_msi_succeeds",
    "C102_msi_missing",
    "C102_oli",
    "C102_oli_succeeds",
    "C102_oli_missing",
    "C102_oli_bands_refuted",
    "C102_tirs_units_refuted",
    "C102_msugsa",
    "C102_msugsa_succeeds",
    "C102_aatsr",
    "C102_output"
   ],
   "note": "pandas and xlrd are oracles. Findings: C102_gaps_refuted (rows dropped per column mispair), C102_oli_bands_refuted, C102_tirs_units_refuted (micrometres divided by 1000)."
  },
  {
   "property": "C103",
   "status": "proved",
   "theorems": [
    "C103_holds",
    "C103_succeeds",
    "C103_misprint",
    "C103_file",
    "C103_file_succeeds",
    "C103_file_incomplete",
    "C103_every_sheet_refuted",
    "C103_fallback_never_opened"
   ],
   "note": "Findings: C103_every_sheet_refuted (a sheet with an unknown name ends the loop), C103_fallback_never_opened (avhrr1_rsr.py:51 sets another attribute), C103_succeeds (wavenumber: AttributeError)."
  },
  {
   "property": "C104",
   "status": "proved",
   "theorems": [
    "C104_holds",
    "C104_succeeds",
    "C104_missing_file",
    "C104_no_file_written"
   ],
   "note": "Findings: C104_no_file_written (a dictionary's view has no HDF5 type), C104_missing_file (AttributeError instead of IOError)."
  },
  {
   "property": "C105",
   "status": "proved",
   "theorems": [
    "C105_split",
    "C105_wavelengths",
    "C105_increasing",
    "C105_last_row_refuted",
    "C105_old",
    "C105_old_lengths",
    "C105_own_rows_refuted"
   ],
   "note": "Findings: C105_last_row_refuted, C105_own_rows_refuted."
  },
  {
   "property": "C106",
   "status": "proved",
   "theorems": [
    "C106_renamed",
    "C106_missing"
   ],
   "note": ""
  },
  {
   "property": "C107",
   "status": "proved",
   "theorems": [
    "C107_kind",
    "C107_values",
    "C107_plain",
    "C107_result_mask",
    "C107_mask_lost",
    "C107_mask_kept_refuted"
   ],
   "note": "C107_mask_kept_refuted is a finding: masked pixels are not masked in the result (numpy indexing and numpy.where ignore masks; masked_invalid marks only non-finite values). Calls with a CO2 channel or without a table on masked arrays are not covered."
  },
  {
   "property": "C108",
   "status": "proved",
   "theorems": [
    "C108_band_table",
    "C108_fake_responses",
    "C108_user_names",
    "C108_avhrr_user_names_refuted",
    "C108_names_from_file",
    "C108_names_from_file_refuted",
    "C108_same_wavelength",
    "C108_table_in_use",
    "C108_correction",
    "C108_no_correction_outside",
    "C108_mocked_correction",
    "C108_correction_bounds"
   ],
   "note": "Two findings: C108_avhrr_user_names_refuted (the adjusted instrument name 'avhrr3' is no key of BANDNAMES, so '3b' is not translated; the same holds for real files) and C108_names_from_file_refuted. Exact arithmetic; the single precision of the fake responses is left out. plain excludes names with '_' or '/'."
  },
  {
   "property": "C109",
   "status": "proved",
   "theorems": [
    "C109_masked",
    "C109_accuracy",
    "C109_range",
    "C109_order",
    "C109_temperature_order"
   ],
   "note": "Float temperatures only; the radiances, the CO2 factor and the solar radiance are taken as stored by the call (their own accuracy is C95-C96). C109_temperature_order is for calls without a CO2 channel."
  },
  {
   "property": "C110",
   "status": "proved",
   "theorems": [
    "C110_own_names",
    "C110_other_instruments",
    "C110_indexing",
    "C110_one_band_each",
    "C110_name_once",
    "C110_band_stays",
    "C110_shared_scheme",
    "C110_platforms",
    "C110_schemes_in_use",
    "C110_every_scheme_in_use_refuted",
    "C110_own_names_found_refuted",
    "C110_aerosol_types",
    "C110_luts",
    "C110_no_other_luts",
    "C110_version_files",
    "C110_addresses",
    "C110_atmospheres"
   ],
   "note": "The rules in S_Tables.v are written from the naming schemes, not generated from the tables. Findings: the schemes filed as 'avhrr-3' and 'VII' belong to no instrument of a platform ('avhrr/3', opened as 'avhrr3', and 'metimage')."
  },
  {
   "property": "C111",
   "status": "proved",
   "theorems": [
    "C111_percent",
    "C111_red_band",
    "C111_red_band_order",
    "C111_high_zenith",
    "C111_high_zenith_order",
    "C111_wavelength"
   ],
   "note": "The C code of the interpolation is modelled as in C37; its rounding errors are bounded in C112. Rounding to nearest, ties to even."
  },
  {
   "property": "C112",
   "status": "proved",
   "theorems": [
    "C112_interpolation",
    "C112_bounds"
   ],
   "note": "The interpolator is C code outside the repository, modelled as in C37 and evaluated in doubles without fused operations. Secants beyond an axis by a rounding error are not covered: the code then extrapolates."
  },
  {
   "property": "C113",
   "status": "proved",
   "theorems": [
    "C113_masked_array",
    "C113_dask_array",
    "C113_zones_cover"
   ],
   "note": "The fourth power of the temperature ratio is modelled as repeated multiplication (numpy calls C pow with exponent 4). Dask arrays stand for their computed values. Rounding to nearest, ties to even."
  },
  {
   "property": "C114",
   "status": "proved",
   "theorems": [
    "C114_channels",
    "C114_exact",
    "C114_radiance",
    "C114_temperature",
    "C114_round_trip"
   ],
   "note": "vc**3 is modelled as repeated multiplication (numpy calls C pow with exponent 3), as in C95. Order preservation of the same conversions is C94."
  },
  {
   "property": "C115",
   "status": "proved",
   "theorems": [
    "C115_pixels",
    "C115_balance"
   ],
   "note": "Over binary64, for 64-bit input arrays of one shape. The NaN test is on the product: a reflectance that is NaN is what makes it NaN for ordinary data."
  },
  {
   "property": "C116",
   "status": "proved",
   "theorems": [
    "C116_constant",
    "C116_in_band"
   ],
   "note": "The spline is any function of the data, as in C30 and C31. Data are zero or from 1e-12 to 1e6. numpy.trapezoid sums in the order of the model (numpy may add pairwise; the error bound holds for the modelled order). Bands narrower than one step: C31_narrow_band_refuted."
  },
  {
   "property": "C117",
   "status": "proved",
   "theorems": [
    "C117_mean",
    "C117_rayleigh",
    "C117_order"
   ],
   "note": "Waves as doubles from 1e-12 to 1e12, responses zero or from 1e-12 to 1e6, at most 10000 samples. wvl**4 is modelled as repeated multiplication; numpy's power of an array differs from it by a few units in the last place."
  }
 ]
}