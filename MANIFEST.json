{
 "claims": [
  {
   "property": "C01",
   "status": "proved",
   "theorems": [
    "C01_category_roundtrip",
    "C01_quality_roundtrip",
    "C01_category_fits",
    "C01_quality_fits",
    "C01_category_bits_documented",
    "C01_quality_bits_documented"
   ],
   "note": ""
  },
  {
   "property": "C02",
   "status": "proved",
   "theorems": [
    "C02_setbit_then_isbit",
    "C02_isbit_is_binary_digit",
    "C02_setbit_idempotent",
    "C02_setbit_order_irrelevant",
    "C02_errors"
   ],
   "note": ""
  },
  {
   "property": "C03",
   "status": "proved",
   "theorems": [
    "C03_target_table",
    "C03_target_range"
   ],
   "note": ""
  },
  {
   "property": "C04",
   "status": "proved",
   "theorems": [
    "C04_detection_status"
   ],
   "note": ""
  },
  {
   "property": "C05",
   "status": "proved",
   "theorems": [
    "C05_signal_source"
   ],
   "note": ""
  },
  {
   "property": "C06",
   "status": "partial",
   "theorems": [
    "C06_status",
    "C06_undetected_with_echo_refuted"
   ],
   "note": "Values 0-5 and the position of value 6 proved. Refuted: 6 ('no radar signal') is also set on pixels that have a radar echo, when a lower pixel is severe. The branch for attenuation variables missing from the file is not modelled."
  },
  {
   "property": "C07",
   "status": "proved",
   "theorems": [
    "C07_ffill_last_valid",
    "C07_ffill_rows_independent"
   ],
   "note": ""
  },
  {
   "property": "C08",
   "status": "partial",
   "theorems": [
    "C08_cumsumr",
    "C08_zero_resets",
    "C08_signed_refuted"
   ],
   "note": "Proved for non-negative numbers, which is how the code uses it; refuted for signed input by a witness."
  },
  {
   "property": "C09",
   "status": "proved",
   "theorems": [
    "C09_wanted_day_once_in_order",
    "C09_error_exactly_without_timestamps",
    "C09_date_is_exact"
   ],
   "note": "Dates are those of the timestamp rounded to microseconds, half to even, as datetime.timedelta does; argsort is any sorting permutation."
  },
  {
   "property": "C10",
   "status": "partial",
   "theorems": [
    "C10_aligned",
    "C10_list_rejected",
    "C10_coincident_length_refuted"
   ],
   "note": "Alignment proved for every array treated as time-dependent. Refuted: an array along another dimension that happens to have as many entries as there are timestamps is selected and reordered as well."
  },
  {
   "property": "C11",
   "status": "proved",
   "theorems": [
    "C11_duplicates_removed",
    "C11_sorted",
    "C11_empty_rejected"
   ],
   "note": ""
  },
  {
   "property": "C12",
   "status": "proved",
   "theorems": [
    "C12_range",
    "C12_order_preserved",
    "C12_exact_hours",
    "C12_total"
   ],
   "note": "Exact arithmetic. A record consisting of one timestamp at the start of its day is also mapped to 24 (example in the file)."
  },
  {
   "property": "C13",
   "status": "partial",
   "theorems": [
    "C13_bins",
    "C13_bins_keepdim",
    "C13_at_most_one_bin",
    "C13_even_grid",
    "C13_short_grid",
    "C13_reported_bin_outside_refuted"
   ],
   "note": "Exact arithmetic, any statistic of the unmasked values, both keepdim modes. Refuted for n_min above 1 (no caller uses it): the list of empty bins may contain the number of bins, which is no bin."
  },
  {
   "property": "C14",
   "status": "proved",
   "theorems": [
    "C14_gaps"
   ],
   "note": "For ascending original grids, as numpy's searchsorted requires."
  },
  {
   "property": "C15",
   "status": "proved",
   "theorems": [
    "C15_nearest_gate"
   ],
   "note": "Source heights ascending; ties may go to either neighbour."
  },
  {
   "property": "C16",
   "status": "proved",
   "theorems": [
    "C16_no_long_gaps",
    "C16_times_outside_the_day_rejected"
   ],
   "note": "Exact arithmetic; scipy's interp1d(kind='linear') is modelled as piecewise linear with constant ends. For duplicated times the first unmasked sample counts."
  },
  {
   "property": "C17",
   "status": "proved",
   "theorems": [
    "C17_keeps_large_clouds",
    "C17_same_pixels",
    "C17_idempotent",
    "C17_cloud_mask"
   ],
   "note": "skimage.measure.label with connectivity 1 is modelled by a flood fill that is proved to give exactly the connected components."
  },
  {
   "property": "C18",
   "status": "proved",
   "theorems": [
    "C18_isolated",
    "C18_along_time",
    "C18_same_pixels"
   ],
   "note": "scipy.ndimage.label with the two structures used is modelled by the same flood fill."
  },
  {
   "property": "C19",
   "status": "proved",
   "theorems": [
    "C19_layers_exact"
   ],
   "note": ""
  },
  {
   "property": "C20",
   "status": "proved",
   "theorems": [
    "C20_base_and_top"
   ],
   "note": "For non-empty positive strictly increasing heights and rows as long as the height vector; a gate at height 0 would be lost (example in the file)."
  },
  {
   "property": "C21",
   "status": "proved",
   "theorems": [
    "C21_integral_and_shape",
    "C21_sign_and_growth",
    "C21_no_retrieval"
   ],
   "note": "Proved for positive gradients and strictly increasing positive heights; adiabatic gradient values are arbitrary positive numbers."
  },
  {
   "property": "C22",
   "status": "proved",
   "theorems": [
    "C22_path_integral",
    "C22_never_decreases",
    "C22_gas"
   ],
   "note": "Exact integral with masked gates, monotonicity, and the choice between saturated and ordinary gas attenuation."
  },
  {
   "property": "C23",
   "status": "partial",
   "theorems": [
    "C23_corrected_implies_attenuated",
    "C23_liquid_corrected_has_value",
    "C23_liquid_fields",
    "C23_melting_corrected_has_value",
    "C23_rain_value_partial",
    "C23_rain_corrected_has_value_refuted",
    "C23_rain_without_rate",
    "C23_reflectivity"
   ],
   "note": "Flags, availability for liquid and melting, and the corrected reflectivity proved. Rain: exact value where the rate is known; refuted where the rate is masked or no warm gate lies at or below the pixel: flagged as corrected, but nothing was added."
  },
  {
   "property": "C24",
   "status": "partial",
   "theorems": [
    "C24_exclusive_before_speckle_removal",
    "C24_where_it_may_fail_partial",
    "C24_aerosol_exclusive_refuted"
   ],
   "note": "Refuted for the whole of classify_measurements: a droplet pixel whose falling flag is removed as speckle keeps droplet and gets aerosol, and a clutter pixel with aerosol gets falling. Proved: exclusive before speckle removal, and the two failures are the only ones."
  },
  {
   "property": "C25",
   "status": "proved",
   "theorems": [
    "C25_no_supercold_droplets",
    "C25_classification"
   ],
   "note": "Proved for the post-processing sequence and for classify_measurements as a whole."
  },
  {
   "property": "C26",
   "status": "partial",
   "theorems": [
    "C26_low_and_slow",
    "C26_no_clutter_in_rain_refuted"
   ],
   "note": "Refuted: the rain flags are integers, their bitwise complement is never zero, so the screening has no effect. The gate and velocity limits are proved."
  },
  {
   "property": "C27",
   "status": "proved",
   "theorems": [
    "C27_insects_screened",
    "C27_nothing_else_screened"
   ],
   "note": "Probabilities are arbitrary numbers; both directions proved."
  },
  {
   "property": "C28",
   "status": "partial",
   "theorems": [
    "C28_changes_partial",
    "C28_no_insects_above_melting",
    "C28_only_insects_change_refuted",
    "C28_far_pixel_refuted"
   ],
   "note": "Refuted in two ways: pixels without insects next to the gate of the melting pixel become falling, and melting pixels in the first five profiles reach the last five. Proved: nothing else changes, and no insect stays at or above the melting layer."
  },
  {
   "property": "C29",
   "status": "proved",
   "theorems": [
    "C29_valid_points"
   ],
   "note": "Gap index sets are arbitrary; arrays of other lengths and dimensions are shown unchanged."
  },
  {
   "property": "C30",
   "status": "proved",
   "theorems": [
    "C30_value_only_for_reliable_ice",
    "C30_value_iff_status_1_or_3",
    "C30_status_meaning",
    "C30_error_only_for_reliable_ice",
    "C30_evaluation_filter_is_identity",
    "C30_rain_flag",
    "C30_rain_flag_missing"
   ],
   "note": "The Z-T formula is an arbitrary value; flags, masks and status order are modelled exactly. Value 5 never occurs."
  },
  {
   "property": "C31",
   "status": "partial",
   "theorems": [
    "C31_status_values",
    "C31_range",
    "C31_rain_is_6_refuted",
    "C31_new_pixels_have_liquid_refuted"
   ],
   "note": "Exact value of every pixel proved, including the top of the extension. Refuted: rain is 4, not 6 as documented; value 3 pixels carry LWC 0."
  },
  {
   "property": "C32",
   "status": "partial",
   "theorems": [
    "C32_terminates_partial",
    "C32_number_of_passes",
    "C32_stays_inside_refuted"
   ],
   "note": "Termination with a bound on the number of passes and the exact set of failing profiles proved; refuted for a cloud whose base is the last gate (IndexError)."
  },
  {
   "property": "C33",
   "status": "partial",
   "theorems": [
    "C33_status_unmasked_partial",
    "C33_status_any_mask",
    "C33_rainy_profiles_masked",
    "C33_status_refuted"
   ],
   "note": "Full statement proved wherever v_sigma is unmasked; refuted at pixels with masked v_sigma: the status array is a copy that drops the mask, so it reports 1 although nothing is retrieved."
  },
  {
   "property": "C34",
   "status": "proved",
   "theorems": [
    "C34_lookup",
    "C34_iterations",
    "C34_no_drizzle",
    "C34_correction",
    "C34_local",
    "C34_product_index",
    "C34_product_index_member"
   ],
   "note": "Proved for all tables of the right shape, all masks and fields; numbers, the diameter formula, the convergence test and the attenuation factor are arbitrary, so not-a-number is covered."
  },
  {
   "property": "C35",
   "status": "proved",
   "theorems": [
    "C35_radius_only_in_droplets",
    "C35_status"
   ],
   "note": "Status table for every flag combination and the layer loop; the radius formula is an arbitrary function of reflectivity."
  },
  {
   "property": "C36",
   "status": "proved",
   "theorems": [
    "C36_history",
    "C36_lines_exist",
    "C36_stamp_unique"
   ],
   "note": "Proved for all inputs; reading of a time stamp (strptime) is an arbitrary partial function, its text is specified exactly."
  },
  {
   "property": "C37",
   "status": "proved",
   "theorems": [
    "C37_uuids",
    "C37_canonical",
    "C37_order_strict"
   ],
   "note": "Proved for all inputs."
  },
  {
   "property": "C38",
   "status": "proved",
   "theorems": [
    "C38_copy_variables",
    "C38_copy_fails",
    "C38_copy_global"
   ],
   "note": "Proved for all files and key lists, with the exact condition for KeyError."
  },
  {
   "property": "C39",
   "status": "proved",
   "theorems": [
    "C39_rows",
    "C39_succeeds",
    "C39_none_takes_part",
    "C39_missing_range"
   ],
   "note": "Proved for all lists of readable files, including missing variables, static variables and other ranges; success and both errors characterised. A file with profiles but without a range variable makes the call raise IndexError. Files with read errors: C60."
  },
  {
   "property": "C40",
   "status": "partial",
   "theorems": [
    "C40_return_value",
    "C40_unreadable_file",
    "C40_content",
    "C40_directly_follows_partial",
    "C40_no_gap_refuted",
    "C40_deep_variables_appended_refuted"
   ],
   "note": "Return value and exact content proved; the claim holds if all new profiles are newer; refuted for overlapping files (gap profiles) and for variables of three or more dimensions."
  },
  {
   "property": "C41",
   "status": "partial",
   "theorems": [
    "C41_starts_at_zero",
    "C41_never_decreases",
    "C41_increments",
    "C41_reset_partial",
    "C41_reset_exact",
    "C41_reset_refuted",
    "C41_leading_gap_refuted",
    "C41_leading_gap_exact"
   ],
   "note": "Start at zero, masks, monotonicity (non-negative raw values) and increments between resets proved for any number of resets; the increment at the first reset proved, exact increment at later resets proved and the claim refuted there; refuted for a series that begins with a gap."
  },
  {
   "property": "C42",
   "status": "proved",
   "theorems": [
    "C42_first_encoding",
    "C42_second_encoding",
    "C42_other_versions"
   ],
   "note": "Proved for both encodings on exact numbers; other versions raise NotImplementedError."
  },
  {
   "property": "C43",
   "status": "partial",
   "theorems": [
    "C43_rpg",
    "C43_rpg_rejects",
    "C43_categorize_partial",
    "C43_per_gate_kept",
    "C43_one_value",
    "C43_single_profile_refuted"
   ],
   "note": "RPG reader: proved for all profiles. Categorize: proved for several profiles and for one value; refuted for a file with a single profile."
  },
  {
   "property": "C44",
   "status": "proved",
   "theorems": [
    "C44_bins",
    "C44_number",
    "C44_succeeds_iff"
   ],
   "note": "Proved on exact numbers, with the exact condition for success."
  },
  {
   "property": "C45",
   "status": "partial",
   "theorems": [
    "C45_date_returned",
    "C45_fallback",
    "C45_raises_iff",
    "C45_never_raises_refuted",
    "C45_impossible_day_refuted"
   ],
   "note": "Exact results and exact conditions for raising proved for all texts with code points below 256; refuted that it never raises."
  },
  {
   "property": "C46",
   "status": "partial",
   "theorems": [
    "C46_preference_partial",
    "C46_preference_unique",
    "C46_stationary",
    "C46_altitude",
    "C46_raises_iff",
    "C46_longitude_refuted",
    "C46_sign_refuted",
    "C46_attribute_never_negative"
   ],
   "note": "Preference, uniqueness, mean or track, altitude and the exact error condition proved; refuted for longitudes above 180 degrees and for the sign of global attributes."
  },
  {
   "property": "C47",
   "status": "proved",
   "theorems": [
    "C47_band",
    "C47_error",
    "C47_outside"
   ],
   "note": "Proved for all frequencies."
  },
  {
   "property": "C48",
   "status": "proved",
   "theorems": [
    "C48_points",
    "C48_bins_tile_the_day",
    "C48_short_steps_rejected"
   ],
   "note": "Exact arithmetic (np.arange in floating point may differ by one point for other steps)."
  },
  {
   "property": "C49",
   "status": "proved",
   "theorems": [
    "C49_cloud_mask",
    "C49_binary"
   ],
   "note": ""
  },
  {
   "property": "C50",
   "status": "proved",
   "theorems": [
    "C50_windows_partition",
    "C50_height_edges",
    "C50_time_edges"
   ],
   "note": "Both for the height edges and for the time edges."
  },
  {
   "property": "C51",
   "status": "proved",
   "theorems": [
    "C51_nearest_location"
   ],
   "note": "Radar times ascending; location variables along time."
  },
  {
   "property": "C52",
   "status": "partial",
   "theorems": [
    "C52_nyquist_partial",
    "C52_prf_always_fails",
    "C52_prf_refuted",
    "C52_no_data"
   ],
   "note": "Proved for files with nyquist_velocity; every file with prf only fails (proved in general and refuted with a witness)."
  },
  {
   "property": "C53",
   "status": "partial",
   "theorems": [
    "C53_top_status_of_cloud",
    "C53_cloudless_profile_refuted"
   ],
   "note": "First part proved for strictly increasing heights; refuted for cloudless profiles: they take the attenuation of the lowest gate."
  },
  {
   "property": "C54",
   "status": "partial",
   "theorems": [
    "C54_product_mean",
    "C54_cloud_fraction_mean_partial",
    "C54_no_observations_is_clear_sky_refuted"
   ],
   "note": "Proved for standard products and for cloud fraction by volume when the window has times and heights. Refuted for cloud fraction otherwise: an empty window stays 0 instead of masked. Cloud fraction by area is not modelled."
  },
  {
   "property": "C55",
   "status": "proved",
   "theorems": [
    "C55_falling"
   ],
   "note": "Masks are booleans, echo comparisons exact."
  },
  {
   "property": "C56",
   "status": "proved",
   "theorems": [
    "C56_liquid_tops"
   ],
   "note": "The IndexError branch is part of the theorem."
  },
  {
   "property": "C57",
   "status": "proved",
   "theorems": [
    "C57_radar_liquid"
   ],
   "note": ""
  },
  {
   "property": "C58",
   "status": "partial",
   "theorems": [
    "C58_melting_values_partial",
    "C58_every_band_supported_refuted"
   ],
   "note": "Proved for Ka and W band; refuted for X band (ValueError)."
  },
  {
   "property": "C59",
   "status": "partial",
   "theorems": [
    "C59_source_names",
    "C59_no_source",
    "C59_canonical",
    "C59_pids",
    "C59_extra_sources_partial",
    "C59_each_source_once_refuted"
   ],
   "note": "Proved for categorize files; for extra inputs proved for one-line sources, refuted for a source of several lines."
  },
  {
   "property": "C60",
   "status": "partial",
   "theorems": [
    "C60_alignment",
    "C60_skipped_file_leaves_nothing_refuted"
   ],
   "note": "Alignment and returned list proved for all files; refuted that skipped files leave nothing behind."
  },
  {
   "property": "C61",
   "status": "proved",
   "theorems": [
    "C61_nearest",
    "C61_common_gates"
   ],
   "note": "Proved for all ranges and profiles."
  },
  {
   "property": "C62",
   "status": "partial",
   "theorems": [
    "C62_raw_columns",
    "C62_raw_aligned_partial",
    "C62_raw_aligned_refuted",
    "C62_logger_columns",
    "C62_logger_aligned_refuted"
   ],
   "note": "Exact contents of all columns and time stamps proved for all files, and an exact condition for alignment; refuted that columns always go with the time stamps (value by value storing, unreadable logger time stamps). The files of Lampedusa and the conversion to arrays are not modelled."
  },
  {
   "property": "C63",
   "status": "proved",
   "theorems": [
    "C63_lines",
    "C63_aligned"
   ],
   "note": "Proved for all telegrams that contain date and time; number and date parsers are arbitrary partial functions. The textual expansion of spectra and the header tables are not modelled."
  },
  {
   "property": "C64",
   "status": "partial",
   "theorems": [
    "C64_records",
    "C64_aligned",
    "C64_skips_invalid_refuted"
   ],
   "note": "Alignment and contents proved for all sequences of records; refuted that unreadable records are skipped (a record without text raises IndexError). The regular expression that finds the records is not modelled."
  },
  {
   "property": "C65",
   "status": "partial",
   "theorems": [
    "C65_rows_partial",
    "C65_other_day",
    "C65_no_row",
    "C65_rows_refuted"
   ],
   "note": "Exact result proved for every file: right if all readable lines are of the wanted day, ValidTimeStampError if none is, ValueError if some are and some are not; the last case refutes the claim. Number and date parsers are arbitrary partial functions; conversion to int32 is not modelled."
  },
  {
   "property": "C66",
   "status": "partial",
   "theorems": [
    "C66_file",
    "C66_files_partial",
    "C66_files_refuted",
    "C66_zulu_refuted"
   ],
   "note": "Single files proved with the exact error condition; several files proved if the titles agree, refuted if they differ and for dates ending with Z. The recognition of title lines is not modelled."
  },
  {
   "property": "C67",
   "status": "partial",
   "theorems": [
    "C67_file",
    "C67_aligned_partial",
    "C67_aligned_refuted"
   ],
   "note": "Exact columns and exact error conditions proved for distinct column names and any position of the time; alignment proved for the time in the first column, refuted otherwise. Quoting of the csv file is not modelled."
  },
  {
   "property": "C68",
   "status": "partial",
   "theorems": [
    "C68_rows",
    "C68_arrays_partial",
    "C68_arrays_refuted"
   ],
   "note": "Plain columns and errors proved; arrays proved to hold the elements of all lines, hence right for a single line and refuted for two. Quoting of the csv file is not modelled."
  },
  {
   "property": "C69",
   "status": "proved",
   "theorems": [
    "C69_wrap"
   ],
   "note": "Proved on exact numbers."
  },
  {
   "property": "C70",
   "status": "proved",
   "theorems": [
    "C70_amount",
    "C70_monotone"
   ],
   "note": "Proved on exact numbers; the resolution is an arbitrary number."
  },
  {
   "property": "C71",
   "status": "partial",
   "theorems": [
    "C71_telegram_partial",
    "C71_headers_partial",
    "C71_no_format",
    "C71_same_quantity_refuted",
    "C71_blank_line_refuted"
   ],
   "note": "Exact outcome proved for every file if no two items are the same quantity; refuted for two items of one quantity (1 and 30) and for a blank line among unreadable rows. int, float and date constructors are arbitrary partial functions; values beyond 16 bits in spectra are not treated."
  },
  {
   "property": "C72",
   "status": "proved",
   "theorems": [
    "C72_toa5",
    "C72_semicolons"
   ],
   "note": "Exact outcome proved for all headers and rows. csv quoting and the substitution of column names by regular expressions are not modelled (arbitrary functions)."
  },
  {
   "property": "C73",
   "status": "partial",
   "theorems": [
    "C73_one_record",
    "C73_records_partial",
    "C73_cut_off_refuted",
    "C73_impossible_stamp_refuted",
    "C73_time_stamp_twice_refuted"
   ],
   "note": "Exact outcome proved unless a record gives a value for the time stamp; refuted for a record that ends within a vector, for an impossible stamp and for the number 019. The search for records by a regular expression is not modelled."
  },
  {
   "property": "C74",
   "status": "partial",
   "theorems": [
    "C74_joined",
    "C74_no_file",
    "C74_aligned_partial",
    "C74_missing_column_refuted",
    "C74_given_stamps",
    "C74_given_stamps_refuted"
   ],
   "note": "Joining and errors proved for all files; alignment proved for equal columns, refuted for a column that one file lacks and for given time stamps of another number. Conversion to arrays (equal lengths of vectors) is not modelled."
  },
  {
   "property": "C75",
   "status": "partial",
   "theorems": [
    "C75_day",
    "C75_any_day",
    "C75_serial_number_partial",
    "C75_no_serial_number",
    "C75_serial_number_refuted"
   ],
   "note": "Screening proved exactly, with IndexError exactly if a column has another length than the time; serial numbers proved if the first row has one, refuted otherwise."
  },
  {
   "property": "C76",
   "status": "proved",
   "theorems": [
    "C76_nearest",
    "C76_covers",
    "C76_monotone",
    "C76_errors"
   ],
   "note": "Exact outcome, cover, monotonicity and errors proved for all inputs."
  },
  {
   "property": "C77",
   "status": "proved",
   "theorems": [
    "C77_base",
    "C77_top",
    "C77_base_found",
    "C77_top_found"
   ],
   "note": "Exact outcome and exact success and failure conditions proved for all inputs."
  },
  {
   "property": "C78",
   "status": "partial",
   "theorems": [
    "C78_measured_kept_partial",
    "C78_gaps_linear",
    "C78_range",
    "C78_nothing_measured",
    "C78_zero_refuted",
    "C78_sum_refuted"
   ],
   "note": "Interpolation, range and empty days proved; measured values proved kept if not zero (partial), refuted for measured zeros and for values that add up to zero."
  },
  {
   "property": "C79",
   "status": "partial",
   "theorems": [
    "C79_exact",
    "C79_strong_signal",
    "C79_total",
    "C79_coarse_refuted",
    "C79_ground_refuted"
   ],
   "note": "Exact set of liquid gates proved for all limits; success proved if 150 m and 200 m are at least one gate, refuted on coarse grids; the altitude of a peak is refuted to count from the ground."
  },
  {
   "property": "C80",
   "status": "partial",
   "theorems": [
    "C80_exact",
    "C80_within_range",
    "C80_falling",
    "C80_top_gate",
    "C80_top_gate_refuted",
    "C80_flat_refuted",
    "C80_position_refuted"
   ],
   "note": "Exact set of gates proved if no two neighbouring velocities are equal and, with depolarisation, the temperature range ends below the top gate; refuted without these conditions. The start of the upper half is refuted to be rounded consistently."
  },
  {
   "property": "C81",
   "status": "partial",
   "theorems": [
    "C81_near",
    "C81_lone_removed",
    "C81_pair_kept",
    "C81_gap_filled",
    "C81_edge_refuted"
   ],
   "note": "Proved for all images and kernels; refuted for a single detection in the first profile."
  },
  {
   "property": "C82",
   "status": "partial",
   "theorems": [
    "C82_exact",
    "C82_unique",
    "C82_between",
    "C82_warm_refuted"
   ],
   "note": "Exact outcome, uniqueness and bounds proved for all images; existence refuted for profiles that are warm up to the top."
  },
  {
   "property": "C83",
   "status": "partial",
   "theorems": [
    "C83_exact",
    "C83_all_cold",
    "C83_upward",
    "C83_warm",
    "C83_last_window_refuted",
    "C83_mean_refuted",
    "C83_warm_refuted"
   ],
   "note": "Exact region proved for two or more profiles at positive heights; refuted for the last four hour window, for the documented mean altitude and for profiles that are warm up to the top."
  },
  {
   "property": "C84",
   "status": "partial",
   "theorems": [
    "C84_probability",
    "C84_requires",
    "C84_detects",
    "C84_missing",
    "C84_warmer",
    "C84_sldr_refuted"
   ],
   "note": "Proved for every increasing distribution function with values in [0, 1] and median 0; monotone probability refuted with side-looking depolarisation."
  },
  {
   "property": "C85",
   "status": "partial",
   "theorems": [
    "C85_rain_exact",
    "C85_no_temperature",
    "C85_too_high",
    "C85_every_image_refuted",
    "C85_hidden_data_refuted",
    "C85_snow_filter_refuted"
   ],
   "note": "Exact for all rectangular images; accepted images, independence of data under the mask and the codes of the snow filter refuted."
  },
  {
   "property": "C86",
   "status": "partial",
   "theorems": [
    "C86_pointing",
    "C86_too_few",
    "C86_bad_angles",
    "C86_scanning_kept_refuted",
    "C86_two_turns_refuted",
    "C86_first_profile_refuted"
   ],
   "note": "Exact where angles are known and the azimuth changes by at most 540 degrees; three refuted cases with missing angles and whole turns."
  },
  {
   "property": "C87",
   "status": "partial",
   "theorems": [
    "C87_masks",
    "C87_same_mask",
    "C87_missing",
    "C87_hidden_ratio_refuted"
   ],
   "note": "Exact; the ratio is compared under its mask (refuted)."
  },
  {
   "property": "C88",
   "status": "partial",
   "theorems": [
    "C88_power",
    "C88_unknown_power",
    "C88_heights_refuted"
   ],
   "note": "Exact; heights are cut with as many gates as profiles (refuted)."
  },
  {
   "property": "C89",
   "status": "partial",
   "theorems": [
    "C89_load",
    "C89_hours",
    "C89_unreadable",
    "C89_empty_day_refuted",
    "C89_other_day_refuted",
    "C89_scalars_refuted"
   ],
   "note": "Exact for ascending ranges; empty days, other days without a date and scalars of another day refuted."
  },
  {
   "property": "C90",
   "status": "partial",
   "theorems": [
    "C90_clutter",
    "C90_missing",
    "C90_rain_below_refuted"
   ],
   "note": "Exact; falling precipitation below clutter is masked (refuted)."
  },
  {
   "property": "C91",
   "status": "proved",
   "theorems": [
    "C91_exact",
    "C91_image",
    "C91_ratio"
   ],
   "note": "Exact for unmasked profiles; the noise enters by its square. With a rational noise the usual form is proved as well."
  },
  {
   "property": "C92",
   "status": "partial",
   "theorems": [
    "C92_strong_kept",
    "C92_no_negative",
    "C92_lower_reveals_refuted",
    "C92_few_gates_refuted"
   ],
   "note": "Strong signals stay and negative ones do not; monotony and the noise of short profiles refuted."
  },
  {
   "property": "C93",
   "status": "partial",
   "theorems": [
    "C93_exact",
    "C93_low_range",
    "C93_missing",
    "C93_nothing_left_refuted",
    "C93_few_gates_refuted"
   ],
   "note": "Exact; removal of all profiles and few high gates refuted."
  },
  {
   "property": "C94",
   "status": "partial",
   "theorems": [
    "C94_beta",
    "C94_depolarisation_partial",
    "C94_cloud_value_refuted",
    "C94_zero_divisor_refuted"
   ],
   "note": "Exact for any smoothing; depolarisation with divisor 0 and the value of clouds hidden by the first screening refuted."
  },
  {
   "property": "C95",
   "status": "partial",
   "theorems": [
    "C95_records",
    "C95_succeeds_iff",
    "C95_error",
    "C95_columns_refuted",
    "C95_blank_line_refuted"
   ],
   "note": "Exact, with the error of the first bad row; shift of values by empty fields and blank lines refuted."
  },
  {
   "property": "C96",
   "status": "partial",
   "theorems": [
    "C96_data",
    "C96_succeeds_iff",
    "C96_negative_refuted",
    "C96_more_integrals_refuted"
   ],
   "note": "Exact, success characterised; negative numbers in profiles and more integrals than processors refuted."
  },
  {
   "property": "C97",
   "status": "proved",
   "theorems": [
    "C97_observations",
    "C97_succeeds_iff",
    "C97_errors"
   ],
   "note": "Exact, success and all errors characterised, for distinct column names."
  },
  {
   "property": "C98",
   "status": "partial",
   "theorems": [
    "C98_day",
    "C98_no_profile",
    "C98_inconsistent",
    "C98_no_date_partial",
    "C98_date_refuted",
    "C98_hours_refuted",
    "C98_missing_variable_refuted"
   ],
   "note": "Exact with a date; without date only that all profiles are kept in order: date and hours refuted, also a file without a variable."
  },
  {
   "property": "C99",
   "status": "partial",
   "theorems": [
    "C99_pixels",
    "C99_succeeds_iff",
    "C99_clean",
    "C99_clean_total",
    "C99_speckle_refuted"
   ],
   "note": "Exact, success characterised; isolated pixels left by the combination of variables refuted."
  },
  {
   "property": "C100",
   "status": "proved",
   "theorems": [
    "C100_speckle",
    "C100_speckle_total",
    "C100_first_gate",
    "C100_sources"
   ],
   "note": "Exact for both filters; the choice of radars through the whole cleaning for less than 300 profiles."
  },
  {
   "property": "C101",
   "status": "proved",
   "theorems": [
    "C101_velocity",
    "C101_other",
    "C101_succeeds",
    "C101_clean"
   ],
   "note": "Exact for one variable; through the whole cleaning for velocity stripes."
  },
  {
   "property": "C102",
   "status": "partial",
   "theorems": [
    "C102_time",
    "C102_altitude",
    "C102_height",
    "C102_succeeds_iff",
    "C102_errors",
    "C102_prefix_refuted"
   ],
   "note": "Exact, success and errors characterised; stability of the time unit under longer files refuted."
  },
  {
   "property": "C103",
   "status": "partial",
   "theorems": [
    "C103_pixels",
    "C103_errors",
    "C103_edges_refuted"
   ],
   "note": "Exact for strictly increasing axes; data at time steps that are not reported as gaps refuted."
  },
  {
   "property": "C104",
   "status": "proved",
   "theorems": [
    "C104_on_grid",
    "C104_same_gaps",
    "C104_error_floor",
    "C104_flags"
   ],
   "note": "Exact; the square root is a parameter, with the only fact needed as hypothesis of the lower bound."
  },
  {
   "property": "C105",
   "status": "proved",
   "theorems": [
    "C105_read",
    "C105_on_grid"
   ],
   "note": "Exact for both methods."
  },
  {
   "property": "C106",
   "status": "partial",
   "theorems": [
    "C106_means",
    "C106_errors",
    "C106_gaps",
    "C106_gap_refuted",
    "C106_last_edge_refuted"
   ],
   "note": "Exact; masking of empty steps refuted for all-zero data, agreement with the two-dimensional version refuted at the last edge."
  },
  {
   "property": "C107",
   "status": "proved",
   "theorems": [
    "C107_type",
    "C107_unknown",
    "C107_heights",
    "C107_mean",
    "C107_errors"
   ],
   "note": "Exact."
  },
  {
   "property": "C108",
   "status": "partial",
   "theorems": [
    "C108_lines",
    "C108_linear_exact",
    "C108_unchanged",
    "C108_succeeds_iff",
    "C108_masked_level_refuted",
    "C108_attenuation_refuted"
   ],
   "note": "Exact for complete and for fully masked profiles; partly masked profiles and attenuations refuted."
  },
  {
   "property": "C109",
   "status": "proved",
   "theorems": [
    "C109_pixels",
    "C109_nodes",
    "C109_fields",
    "C109_succeeds_iff"
   ],
   "note": "scipy's griddata is a parameter; everything else exact."
  },
  {
   "property": "C110",
   "status": "partial",
   "theorems": [
    "C110_files",
    "C110_series",
    "C110_header",
    "C110_constant",
    "C110_differ",
    "C110_missing_refuted"
   ],
   "note": "Exact for variables that all files have; a variable missing in one file is refuted."
  },
  {
   "property": "C111",
   "status": "partial",
   "theorems": [
    "C111_target",
    "C111_fields",
    "C111_chirps_partial",
    "C111_single_chirp_refuted"
   ],
   "note": "The chirp claim needs two chirps in some file and fewer chirps than gates; a single chirp is refuted."
  },
  {
   "property": "C112",
   "status": "partial",
   "theorems": [
    "C112_exact",
    "C112_no_width",
    "C112_zero_velocity_refuted",
    "C112_tolerance_refuted",
    "C112_series_refuted"
   ],
   "note": "Exact; three refutations show which good values are hidden and which bad ones are not."
  },
  {
   "property": "C113",
   "status": "partial",
   "theorems": [
    "C113_zenith",
    "C113_two_angles_refuted",
    "C113_units",
    "C113_units_missing",
    "C113_instrument"
   ],
   "note": "Exact; two equally frequent angles refuted."
  },
  {
   "property": "C114",
   "status": "proved",
   "theorems": [
    "C114_contents",
    "C114_accepted",
    "C114_errors",
    "C114_zenith"
   ],
   "note": "Contents, acceptance and errors of a file are proved exactly. The bytes of the file are not modelled, floats are exact rationals."
  },
  {
   "property": "C115",
   "status": "partial",
   "theorems": [
    "C115_record",
    "C115_lwp_only",
    "C115_lengths",
    "C115_used",
    "C115_succeeds",
    "C115_errors",
    "C115_lower_case_refuted",
    "C115_lower_case_length_refuted",
    "C115_empty_file_refuted",
    "C115_three_files_refuted"
   ],
   "note": "Record, used files, success and errors are proved for directories in which no two names differ in the case of the suffix only. Four refuted parts: a directory with a lower-case .lwp file only is rejected although the file is readable; a lower-case .iwv file leaves the columns with different lengths; an empty file stops the processing with IndexError; three files of one stem stop it with NotImplementedError. Sorting and removal of duplicate times afterwards are covered by the properties of time stamps."
  },
  {
   "property": "C116",
   "status": "partial",
   "theorems": [
    "C116_estimate",
    "C116_line_unique",
    "C116_tolerance_refuted"
   ],
   "note": "Proved with the least squares line defined by minimality over all lines, and its uniqueness. The logarithm, the rate and the root are parameters. Refuted: the upper bound -1.33 lies above -5/3 + 20 per cent (-1.3333)."
  },
  {
   "property": "C117",
   "status": "partial",
   "theorems": [
    "C117_pixels",
    "C117_errors",
    "C117_fast_radar_refuted",
    "C117_missing_refuted",
    "C117_continuous_refuted"
   ],
   "note": "Times, windows, pixels and the only failure are proved exactly. The Fourier transform, the spline, the logarithm and the wind are parameters. Three refuted parts: the interval is rounded to full seconds, so that radars with less than half a second between profiles stop the product with a division by zero; one of nine velocities missing is accepted; nine profiles in the first nine seconds of the five minutes give a value."
  },
  {
   "property": "C118",
   "status": "partial",
   "theorems": [
    "C118_pulse_frequency",
    "C118_round_trip",
    "C118_accumulation_time",
    "C118_wind",
    "C118_wind_succeeds",
    "C118_complete_wind_refuted"
   ],
   "note": "Proved exactly; the interpolators are parameters. Refuted: a wind file without any missing value gives ValueError, because its mask is a single value that cannot index the points."
  },
  {
   "property": "C119",
   "status": "proved",
   "theorems": [
    "C119_variables",
    "C119_all_masked",
    "C119_range",
    "C119_nyquist"
   ],
   "note": "Proved exactly, for any table of names and any file."
  },
  {
   "property": "C120",
   "status": "partial",
   "theorems": [
    "C120_screening",
    "C120_gates",
    "C120_strong_echo_refuted",
    "C120_times_refuted",
    "C120_one_profile_refuted"
   ],
   "note": "Gates, masks and numbers are proved exactly for files of several profiles. Refuted parts: strong echoes are masked as clutter too; with as many profiles as gates the times are cut; with one profile the images are not cut."
  },
  {
   "property": "C121",
   "status": "partial",
   "theorems": [
    "C121_screening",
    "C121_first_gates_refuted",
    "C121_calibration_refuted"
   ],
   "note": "Proved exactly. Refuted parts: the first gates are masked by the range before its correction, so gates at 100 m stay; the default of the calibration is -149.5, not the documented -146.8 (and its name is Zh_offset)."
  },
  {
   "property": "C122",
   "status": "proved",
   "theorems": [
    "C122_background",
    "C122_no_background",
    "C122_date",
    "C122_chilbolton"
   ],
   "note": "Proved exactly; dates of other ISO forms (YYYYMMDD, weeks), which newer versions of Python read, are not modelled."
  },
  {
   "property": "C123",
   "status": "proved",
   "theorems": [
    "C123_units",
    "C123_bits"
   ],
   "note": "Proved exactly."
  },
  {
   "property": "C124",
   "status": "proved",
   "theorems": [
    "C124_types",
    "C124_variables"
   ],
   "note": "Proved exactly; letters of the extension are those of ASCII."
  },
  {
   "property": "C125",
   "status": "partial",
   "theorems": [
    "C125_screening",
    "C125_ldr",
    "C125_limit",
    "C125_no_ldr_refuted"
   ],
   "note": "Proved exactly; the logarithm is a parameter; limits above 10 dB are excluded because masked numbers are 10 after the conversion. Refuted: a file without depolarisation ratio stops with KeyError in the conversion, although the later step allows for it."
  },
  {
   "property": "C126",
   "status": "partial",
   "theorems": [
    "C126_profiles",
    "C126_range",
    "C126_errors",
    "C126_instrument",
    "C126_range_refuted",
    "C126_zero_factor_refuted"
   ],
   "note": "Proved for profiles as the reader ceilopyter gives them (times, backscatter, tilt angle, resolution). The range is proved if the number of gates is neither the number of profiles nor that of different times. Refuted: otherwise the range is reordered or cut with the times; a calibration factor of zero is replaced by 1."
  },
  {
   "property": "C127",
   "status": "partial",
   "theorems": [
    "C127_text",
    "C127_netcdf",
    "C127_site",
    "C127_documented_refuted"
   ],
   "note": "Proved exactly. Refuted: the documented CS135 and DA10 are only recognised if the site names them."
  },
  {
   "property": "C128",
   "status": "partial",
   "theorems": [
    "C128_range",
    "C128_zenith",
    "C128_zenith_refuted",
    "C128_version",
    "C128_lufft_new",
    "C128_lufft_old",
    "C128_vaisala",
    "C128_depolarisation"
   ],
   "note": "Proved exactly; the power function is a parameter, attributes and variables are given. Refuted: if all angles are masked, the zenith angle is 0, not the default."
  },
  {
   "property": "C129",
   "status": "partial",
   "theorems": [
    "C129_files",
    "C129_range",
    "C129_channel",
    "C129_wavelength",
    "C129_data",
    "C129_rows",
    "C129_unusable",
    "C129_heights_refuted",
    "C129_epoch_refuted",
    "C129_wavelength_refuted",
    "C129_zero_sum_refuted"
   ],
   "note": "Proved for sequences of file names. Refuted parts: files with different heights of the same sum are joined; all times are counted from the epoch of the last file; the wavelength stays that of an earlier conversion in the same process; values that add up to zero count as no data."
  },
  {
   "property": "C130",
   "status": "partial",
   "theorems": [
    "C130_beta",
    "C130_depol",
    "C130_limit",
    "C130_profiles",
    "C130_nan_snr_refuted",
    "C130_range_refuted",
    "C130_zenith_refuted"
   ],
   "note": "Proved exactly. Refuted parts: pixels whose signal-to-noise ratio is NaN are kept; with as many gates as profiles the range is cut; the zenith angle of the site is ignored."
  },
  {
   "property": "C131",
   "status": "partial",
   "theorems": [
    "C131_water",
    "C131_radius",
    "C131_growth",
    "C131_unusable",
    "C131_sensitivity",
    "C131_error",
    "C131_bias",
    "C131_radius_error",
    "C131_attenuation_refuted",
    "C131_bias_refuted",
    "C131_formula_refuted"
   ],
   "note": "Proved over real numbers (axioms of the Reals library). Refuted parts: the error is masked where attenuation was not corrected, though the comment announces a contribution; the bias is only right at 0 degrees; the formula in the comment of the effective radius does not hold."
  },
  {
   "property": "C132",
   "status": "partial",
   "theorems": [
    "C132_radius",
    "C132_error",
    "C132_scaled",
    "C132_closure",
    "C132_number",
    "C132_masked",
    "C132_parameters",
    "C132_scaled_parameters",
    "C132_dry_refuted",
    "C132_depths_refuted",
    "C132_layers_refuted",
    "C132_exact_refuted"
   ],
   "note": "Proved over real numbers (axioms of the Reals library). Refuted parts: with a path of zero the scaled radius is one micrometre and visible; in gates of different depth the number differs; two layers together hold twice the path; without any uncertainty the error is a sixth of the radius."
  },
  {
   "property": "C133",
   "status": "proved",
   "theorems": [
    "C133_error",
    "C133_masked",
    "C133_bounds"
   ],
   "note": "Proved over real numbers (axioms of the Reals library)."
  },
  {
   "property": "C134",
   "status": "partial",
   "theorems": [
    "C134_reflectivity",
    "C134_width",
    "C134_narrower",
    "C134_calm_refuted",
    "C134_diameter",
    "C134_smaller"
   ],
   "note": "Proved over real numbers (axioms of the Reals library); the gamma function is any function with its law. Refuted part: in calm air the corrected width is masked."
  },
  {
   "property": "C135",
   "status": "partial",
   "theorems": [
    "C135_total",
    "C135_number",
    "C135_content",
    "C135_tables",
    "C135_none",
    "C135_rain",
    "C135_signs_refuted",
    "C135_zero_refuted"
   ],
   "note": "Proved over real numbers (axioms of the Reals library). Refuted parts: the signs in the comments of the velocities contradict each other; valid zeros are masked."
  },
  {
   "property": "C136",
   "status": "partial",
   "theorems": [
    "C136_error",
    "C136_velocity",
    "C136_number",
    "C136_none",
    "C136_monotone",
    "C136_biases",
    "C136_shape",
    "C136_tiny_refuted",
    "C136_number_refuted"
   ],
   "note": "Proved over real numbers (axioms of the Reals library). Refuted parts: the error of tiny diameters is overwritten by that of the velocity; the error of the number density takes a relative error for decibels."
  },
  {
   "property": "C137",
   "status": "proved",
   "theorems": [
    "C137_errors",
    "C137_marked",
    "C137_kept",
    "C137_hatched"
   ],
   "note": "Proved."
  },
  {
   "property": "C138",
   "status": "partial",
   "theorems": [
    "C138_gap",
    "C138_screen",
    "C138_marked",
    "C138_regular",
    "C138_regular_refuted",
    "C138_last_refuted"
   ],
   "note": "Refuted parts: the step of 20.4 minutes is rounded down and every interval of a complete model is marked as a gap; with any masked pixel the last profile appears twice at the same time."
  },
  {
   "property": "C139",
   "status": "proved",
   "theorems": [
    "C139_hidden"
   ],
   "note": "Proved."
  },
  {
   "property": "C140",
   "status": "partial",
   "theorems": [
    "C140_edges",
    "C140_outer",
    "C140_single",
    "C140_max_y",
    "C140_max_y_refuted"
   ],
   "note": "Refuted part: with all gates above the highest altitude all of them are kept."
  },
  {
   "property": "C141",
   "status": "partial",
   "theorems": [
    "C141_curves",
    "C141_range",
    "C141_gap_refuted"
   ],
   "note": "Proved for all files but models; wind directions are not modelled. Refuted part: the average is taken before the curve is cut at gaps of the time, so it mixes samples from both sides of a gap."
  },
  {
   "property": "C142",
   "status": "partial",
   "theorems": [
    "C142_batches",
    "C142_flagged",
    "C142_flagged_refuted",
    "C142_limits"
   ],
   "note": "Refuted part: a single flagged sample is not covered."
  },
  {
   "property": "C143",
   "status": "partial",
   "theorems": [
    "C143_relative",
    "C143_absolute",
    "C143_shape",
    "C143_nan_refuted",
    "C143_sign",
    "C143_sign_refuted",
    "C143_panels",
    "C143_panels_cf",
    "C143_missing",
    "C143_independent_refuted",
    "C143_stop_refuted"
   ],
   "note": "Refuted parts: the panel of an observation depends on the observations before it (also whether it is drawn at all), the sign of the error is opposite for the cloud fraction, NaN of the model stays visible in the absolute error."
  },
  {
   "property": "C144",
   "status": "partial",
   "theorems": [
    "C144_segments",
    "C144_area",
    "C144_range",
    "C144_independent_refuted"
   ],
   "note": "Refuted part: the area of an observation depends on the observations before it."
  },
  {
   "property": "C145",
   "status": "partial",
   "theorems": [
    "C145_vertical",
    "C145_rolling",
    "C145_bounds",
    "C145_histogram",
    "C145_unmoved",
    "C145_clip_refuted"
   ],
   "note": "Refuted part: without observations values of the model above one are moved to one. A level without numbers is masked or NaN depending on numpy; both are one case in the model."
  },
  {
   "property": "C146",
   "status": "partial",
   "theorems": [
    "C146_names",
    "C146_complete_refuted",
    "C146_small",
    "C146_small_shape"
   ],
   "note": "Refuted part: when the two grids have different numbers of variables only the larger group is drawn."
  },
  {
   "property": "C147",
   "status": "proved",
   "theorems": [
    "C147_preferences",
    "C147_refused",
    "C147_colon",
    "C147_nonempty",
    "C147_bracket",
    "C147_plain"
   ],
   "note": ""
  },
  {
   "property": "C148",
   "status": "partial",
   "theorems": [
    "C148_preferred",
    "C148_available",
    "C148_order",
    "C148_order_refuted"
   ],
   "note": "Refuted part: with two instruments of the same name the choice depends on the order of the set."
  },
  {
   "property": "C149",
   "status": "partial",
   "theorems": [
    "C149_searched",
    "C149_files",
    "C149_instrument",
    "C149_converter",
    "C149_several",
    "C149_right_converter",
    "C149_pid_first_refuted",
    "C149_bracket_refuted",
    "C149_both_refuted",
    "C149_converter_refuted"
   ],
   "note": "Refuted parts: a PID preferred over an instrument id is not found; a misspelt instrument in brackets is replaced by all; of two arguments for one product only the last counts; a Doppler lidar has no converter."
  },
  {
   "property": "C150",
   "status": "partial",
   "theorems": [
    "C150_model",
    "C150_instruments",
    "C150_mwr",
    "C150_others",
    "C150_schedule",
    "C150_own_mwr_refuted",
    "C150_download_only_refuted"
   ],
   "note": "Refuted parts: the microwave radiometer file of this run is replaced by the one of the portal; a product that was only downloaded keeps the file of the portal from being used. Failing requests are not modelled."
  },
  {
   "property": "C151",
   "status": "partial",
   "theorems": [
    "C151_products",
    "C151_model",
    "C151_pid",
    "C151_instrument",
    "C151_categorize",
    "C151_product",
    "C151_product_refuted",
    "C151_distinct_refuted",
    "C151_date_refuted"
   ],
   "note": "Refuted parts: with the word categorize in a folder the product is written elsewhere; two instruments can share a file name; microwave radiometer products keep the dashes of the date."
  },
  {
   "property": "C152",
   "status": "proved",
   "theorems": [
    "C152_rows",
    "C152_refused",
    "C152_aligned"
   ],
   "note": ""
  },
  {
   "property": "C153",
   "status": "proved",
   "theorems": [
    "C153_galati",
    "C153_galati_errors",
    "C153_lampedusa",
    "C153_lampedusa_errors",
    "C153_hyytiala"
   ],
   "note": ""
  },
  {
   "property": "C154",
   "status": "partial",
   "theorems": [
    "C154_rows",
    "C154_refused",
    "C154_short_row_refuted"
   ],
   "note": "Refuted part: a row shorter than the header is not refused and shifts a column."
  },
  {
   "property": "C155",
   "status": "proved",
   "theorems": [
    "C155_rows",
    "C155_refused"
   ],
   "note": ""
  },
  {
   "property": "C156",
   "status": "partial",
   "theorems": [
    "C156_rows",
    "C156_missing_last_refuted"
   ],
   "note": "Refuted part: an empty value at the end of a line makes the whole file unreadable."
  },
  {
   "property": "C157",
   "status": "partial",
   "theorems": [
    "C157_day",
    "C157_no_day",
    "C157_missing",
    "C157_no_date_refuted",
    "C157_fraction_refuted",
    "C157_limassol_refuted"
   ],
   "note": "Refuted parts: without a date rows of different days are merged; times within one second are merged; at Limassol a missing column is written without values. The steps after the conversion of units are C41, C69 and C70."
  },
  {
   "property": "C158",
   "status": "partial",
   "theorems": [
    "C158_sites",
    "C158_one_file",
    "C158_files_refuted"
   ],
   "note": "Refuted part: five readers ignore all files after the first."
  },
  {
   "property": "C159",
   "status": "proved",
   "theorems": [
    "C159_rows22",
    "C159_rows16",
    "C159_refused",
    "C159_format"
   ],
   "note": ""
  },
  {
   "property": "C160",
   "status": "partial",
   "theorems": [
    "C160_output",
    "C160_amount",
    "C160_order_refuted",
    "C160_days_refuted"
   ],
   "note": "Refuted parts: rows out of order are normalised before they are sorted; without a date rows of different days are merged."
  },
  {
   "property": "C161",
   "status": "proved",
   "theorems": [
    "C161_rows",
    "C161_refused",
    "C161_titles"
   ],
   "note": ""
  },
  {
   "property": "C162",
   "status": "partial",
   "theorems": [
    "C162_day",
    "C162_refused",
    "C162_no_date_refuted",
    "C162_no_rows_refuted",
    "C162_empty_file_refuted"
   ],
   "note": "Refuted parts: the optional date is required; a day without rows gives an empty output; a file without rows beside others raises ValueError."
  },
  {
   "property": "C163",
   "status": "proved",
   "theorems": [
    "C163_classes",
    "C163_no_drops",
    "C163_more"
   ],
   "note": ""
  },
  {
   "property": "C164",
   "status": "partial",
   "theorems": [
    "C164_day",
    "C164_none",
    "C164_date_refuted",
    "C164_zenith_refuted",
    "C164_range_refuted",
    "C164_time_refuted"
   ],
   "note": "Refuted parts: the date of the file is that of the first profile; the zenith angle is not screened; the range is reordered if there are as many gates as profiles; a last profile at midnight."
  },
  {
   "property": "C165",
   "status": "partial",
   "theorems": [
    "C165_levels",
    "C165_profile",
    "C165_height",
    "C165_profile_height",
    "C165_refused",
    "C165_order_refuted",
    "C165_unit_refuted"
   ],
   "note": "Refuted parts: heights from the top down; a height in km is written without conversion but with m as its units."
  },
  {
   "property": "C166",
   "status": "proved",
   "theorems": [
    "C166_cloud_fraction",
    "C166_content",
    "C166_missing",
    "C166_unknown"
   ],
   "note": ""
  },
  {
   "property": "C167",
   "status": "proved",
   "theorems": [
    "C167_resolution",
    "C167_accepted",
    "C167_refused",
    "C167_wind",
    "C167_parts"
   ],
   "note": ""
  },
  {
   "property": "C168",
   "status": "partial",
   "theorems": [
    "C168_values",
    "C168_refused",
    "C168_bounds",
    "C168_sensitivity",
    "C168_all_seen",
    "C168_clear_refuted"
   ],
   "note": "Refuted part: without any cloud there is no ValueError, although there is no ice. The detection limit and the variance of a pixel are arbitrary numbers."
  },
  {
   "property": "C169",
   "status": "partial",
   "theorems": [
    "C169_shear",
    "C169_refused",
    "C169_vertical_refuted"
   ],
   "note": "Refuted part: the slopes are between profiles in time, not between levels, so they are not a vertical shear."
  },
  {
   "property": "C170",
   "status": "proved",
   "theorems": [
    "C170_exists",
    "C170_written",
    "C170_errors",
    "C170_units",
    "C170_distinct"
   ],
   "note": ""
  },
  {
   "property": "C171",
   "status": "proved",
   "theorems": [
    "C171_record",
    "C171_determined",
    "C171_ignored",
    "C171_readable",
    "C171_errors"
   ],
   "note": ""
  },
  {
   "property": "C172",
   "status": "partial",
   "theorems": [
    "C172_records",
    "C172_readable",
    "C172_errors",
    "C172_table_refuted",
    "C172_blank_line_refuted"
   ],
   "note": "Refuted parts: a data logger table without telegrams raises KeyError; a blank line makes a file with time stamps unreadable."
  },
  {
   "property": "C173",
   "status": "partial",
   "theorems": [
    "C173_chosen",
    "C173_accepted",
    "C173_other_days",
    "C173_other_instruments",
    "C173_errors",
    "C173_days_refuted",
    "C173_cut",
    "C173_cut_refuted"
   ],
   "note": "Refuted parts: without a date the records of other days are kept, with hours beyond 24; files cut before the rain rate raise KeyError."
  },
  {
   "property": "C174",
   "status": "partial",
   "theorems": [
    "C174_output",
    "C174_velocities_refuted",
    "C174_diameters_refuted"
   ],
   "note": "Refuted parts: with 20 (22) records that are not in order or not distinct in time the velocity (diameter) classes are permuted or cut. Proved for every other number of records."
  },
  {
   "property": "C175",
   "status": "partial",
   "theorems": [
    "C175_flags",
    "C175_product",
    "C175_left_refuted",
    "C175_coefficients",
    "C175_names_refuted"
   ],
   "note": "Refuted parts: a refused file stays on disk; links with the same file name overwrite each other. The retrievals of mwrpy are an arbitrary outcome."
  },
  {
   "property": "C176",
   "status": "partial",
   "theorems": [
    "C176_window",
    "C176_monotone",
    "C176_no_wind",
    "C176_calm_refuted"
   ],
   "note": "Refuted part: with a wind of exactly zero no observation is used."
  },
  {
   "property": "C177",
   "status": "partial",
   "theorems": [
    "C177_values",
    "C177_shape",
    "C177_success",
    "C177_error",
    "C177_extra_rows_refuted"
   ],
   "note": "Refuted part: heights without a model time get zeros. The rounding of time differences to microseconds is not modelled."
  },
  {
   "property": "C178",
   "status": "partial",
   "theorems": [
    "C178_values_partial",
    "C178_empty_window",
    "C178_advection_gap_refuted",
    "C178_volume_below_area",
    "C178_masked_pixels_refuted",
    "C178_success",
    "C178_shape"
   ],
   "note": "Refuted parts: without observations in the time step all four fractions are 0 instead of masked, and the advection values are 0 even if the advection window has observations; with masked pixels by volume can be above by area. The values are proved for time steps and levels with observations (C178_values_partial), the zeros elsewhere (C178_empty_window)."
  },
  {
   "property": "C179",
   "status": "partial",
   "theorems": [
    "C179_files",
    "C179_dimension",
    "C179_no_dimension",
    "C179_none_of_the_day",
    "C179_calendar",
    "C179_single_file_refuted",
    "C179_unreadable_first_refuted",
    "C179_returned_refuted",
    "C179_hours_refuted"
   ],
   "note": "Refuted parts: a single file of another day is copied; an unreadable first file raises OSError; the returned list can hold files that were not joined; times are taken as seconds whatever their units."
  },
  {
   "property": "C180",
   "status": "proved",
   "theorems": [
    "C180_value",
    "C180_masked",
    "C180_at_least_each_part",
    "C180_stronger_echo",
    "C180_random_range"
   ],
   "note": "Over the real numbers. Negative widths (NaN) are excluded."
  },
  {
   "property": "C181",
   "status": "partial",
   "theorems": [
    "C181_length",
    "C181_clutter",
    "C181_no_clutter",
    "C181_gate_values",
    "C181_detected_is_above_sensitivity_refuted"
   ],
   "note": "Refuted part: a detected echo can lie far below the reported sensitivity of its gate, as one pixel of clutter decides the gate."
  },
  {
   "property": "C182",
   "status": "partial",
   "theorems": [
    "C182_panels",
    "C182_nothing_to_show",
    "C182_bad_channel",
    "C182_of_the_file",
    "C182_missing_left_out_refuted",
    "C182_every_variable_refuted"
   ],
   "note": "Refuted parts: a name like tb_spectrum that the file does not have makes the whole figure fail instead of being left out; a variable of the file with such a name cannot be shown."
  },
  {
   "property": "C183",
   "status": "partial",
   "theorems": [
    "C183_above_ground",
    "C183_masked_altitude",
    "C183_model",
    "C183_without_height",
    "C183_errors",
    "C183_label_refuted"
   ],
   "note": "Refuted part: a file with ranges only shows them under the label of heights above sea. The altitude of the ground of model files is an input."
  },
  {
   "property": "C184",
   "status": "partial",
   "theorems": [
    "C184_shown",
    "C184_accepted",
    "C184_plotting_error",
    "C184_no_flags_refuted",
    "C184_negative_refuted"
   ],
   "note": "Refuted parts: a file without quality flags raises IndexError; a negative channel shows another channel under the number 0, or raises IndexError."
  },
  {
   "property": "C185",
   "status": "proved",
   "theorems": [
    "C185_values",
    "C185_order",
    "C185_marked",
    "C185_unmarked",
    "C185_all_marked",
    "C185_unchanged"
   ],
   "note": "ASCII texts."
  },
  {
   "property": "C186",
   "status": "partial",
   "theorems": [
    "C186_source",
    "C186_pid",
    "C186_time",
    "C186_rest",
    "C186_error",
    "C186_forgotten_refuted",
    "C186_present_weather_refuted"
   ],
   "note": "Refuted parts: without a radiometer the dictionary still names the one of an earlier run for lwp (the variable is not written then); the present weather of the disdrometer has no source. Attributes other than source, pid and units are one opaque value."
  },
  {
   "property": "C187",
   "status": "partial",
   "theorems": [
    "C187_references",
    "C187_no_product",
    "C187_categorize",
    "C187_voodoo",
    "C187_voodoo_refuted"
   ],
   "note": "Refuted part: a categorize file with Voodoo probabilities does not cite the article on the categorization."
  },
  {
   "property": "C188",
   "status": "partial",
   "theorems": [
    "C188_sorted",
    "C188_any_order",
    "C188_with_variables",
    "C188_unreadable",
    "C188_mrr",
    "C188_mira",
    "C188_mira_none",
    "C188_numbered_refuted"
   ],
   "note": "Refuted part: a MIRA file with a number behind its extension (a.znc.1) is recognised if given directly, but not found in a folder. ASCII names; the choice between files and folders is not modelled."
  },
  {
   "property": "C189",
   "status": "proved",
   "theorems": [
    "C189_masked"
   ],
   "note": ""
  },
  {
   "property": "C190",
   "status": "partial",
   "theorems": [
    "C190_entries",
    "C190_missing",
    "C190_frequency",
    "C190_no_frequency",
    "C190_white_space_refuted"
   ],
   "note": "Refuted part: white space before the colon belongs to the name, so that the entry is not found. Python's float is an input."
  },
  {
   "property": "C191",
   "status": "proved",
   "theorems": [
    "C191_model",
    "C191_category"
   ],
   "note": "ASCII texts."
  },
  {
   "property": "C192",
   "status": "partial",
   "theorems": [
    "C192_two_axes",
    "C192_one_axis",
    "C192_no_height",
    "C192_missing_height",
    "C192_other_times",
    "C192_single_time",
    "C192_no_profiles",
    "C192_own_height_refuted"
   ],
   "note": "Refuted part: with a masked height somewhere the heights of one profile are used for all profiles. Times without masked values, heights with two dimensions; exact rationals."
  },
  {
   "property": "C193",
   "status": "proved",
   "theorems": [
    "C193_unit",
    "C193_time",
    "C193_standard",
    "C193_standard_error"
   ],
   "note": "Attributes are texts; attribute names reserved by netCDF4 are not modelled."
  },
  {
   "property": "C194",
   "status": "partial",
   "theorems": [
    "C194_keys",
    "C194_repeated_key_refuted",
    "C194_days",
    "C194_timestamp",
    "C194_format_refuted"
   ],
   "note": "Refuted parts: a key given twice is KeyError, and time stamps may be followed by any text. Days are numbers; ASCII texts."
  },
  {
   "property": "C195",
   "status": "partial",
   "theorems": [
    "C195_observed",
    "C195_simulated",
    "C195_group",
    "C195_statistic",
    "C195_same_titles",
    "C195_volume_refuted",
    "C195_name",
    "C195_names",
    "C195_names_refuted"
   ],
   "note": "Refuted parts: panels of statistics of cloud volumes are titled as areas, and lists of fields with underscores may have the same file name. ASCII texts; dates are texts."
  },
  {
   "property": "C196",
   "status": "proved",
   "theorems": [
    "C196_track",
    "C196_times",
    "C196_labels",
    "C196_label"
   ],
   "note": "Exact rationals; spacings are whole hours, not 0."
  },
  {
   "property": "C197",
   "status": "proved",
   "theorems": [
    "C197_source",
    "C197_hatched",
    "C197_meta"
   ],
   "note": "Heights without masked values; ASCII texts."
  },
  {
   "property": "C198",
   "status": "proved",
   "theorems": [
    "C198_once",
    "C198_lengths",
    "C198_errors"
   ],
   "note": "Arrays have at least one dimension."
  },
  {
   "property": "C199",
   "status": "partial",
   "theorems": [
    "C199_curve",
    "C199_means",
    "C199_no_jump",
    "C199_calm_refuted"
   ],
   "note": "Refuted part: calm air is drawn as wind from the north. Cosine, sine and the angle of a vector are inputs; exact rationals. The moving average is that of C141."
  }
 ]
}