{
 "claims": [
  {
   "property": "C01",
   "status": "partial",
   "theorems": [
    "C01_from_time_exact",
    "C01_from_time_float_partial",
    "C01_edges"
   ],
   "note": "Proved for exact arithmetic whenever to_timedelta does not truncate the period; for every correctly rounded arithmetic (binary64) proved off by at most one sample; the exact statement is false in binary64 (see C03_roundtrip_b64_refuted)."
  },
  {
   "property": "C02",
   "status": "partial",
   "theorems": [
    "C02_to_time_exact",
    "C02_to_time_float_partial",
    "C02_edges"
   ],
   "note": "As C01, for to_time_to_sample."
  },
  {
   "property": "C03",
   "status": "partial",
   "theorems": [
    "C03_roundtrip_exact",
    "C03_roundtrip_b64_pow2_partial",
    "C03_roundtrip_b64_refuted",
    "C03_roundtrip_truncation_refuted",
    "C03_round_method_robust"
   ],
   "note": "False in binary64 (refuted at fs=256 Hz sample 275 and fs=50 Hz sample 29) and for periods truncated by the 0.0001 ns rule; proved in exact arithmetic, in binary64 for fs = 2^p, p <= 7, and for the method \"round\" in every correctly rounded arithmetic."
  },
  {
   "property": "C04",
   "status": "proved",
   "theorems": [
    "C04_to_timedelta_exact",
    "C04_to_seconds_exact",
    "C04_to_timedelta_rounded",
    "C04_to_seconds_rounded"
   ],
   "note": "Exact arithmetic; for every correctly rounded arithmetic to_timedelta is within 1.01e-13 s of its argument and to_seconds within 2e-11 s of any time delta, also negative."
  },
  {
   "property": "C05",
   "status": "proved",
   "theorems": [
    "C05_to_n_samples",
    "C05_methods_ordered",
    "C05_within_one_of_exact"
   ],
   "note": "Exact arithmetic; ordering of methods for every rounding; for every correctly rounded arithmetic (fs <= 1 MHz, up to 2^49 samples) at most one away from the exact answer."
  },
  {
   "property": "C06",
   "status": "proved",
   "theorems": [
    "C06_round_trip",
    "C06_distinct",
    "C06_same_string_same_moment",
    "C06_calendar_order",
    "C06_metadata_field",
    "C06_accepted_is_date",
    "C06_format",
    "C06_other_strings",
    "C06_timestamp",
    "C06_finer_is_cut",
    "C06_third_of_a_second_refuted",
    "C06_year_below_1000_refuted"
   ],
   "note": "Years 1000 to 9999. Also: a datetime finer than a yoctosecond (e.g. the second sample of a 3 Hz recording) is cut, C06_finer_is_cut and C06_third_of_a_second_refuted; below year 1000 the string is not read back on glibc."
  },
  {
   "property": "C07",
   "status": "proved",
   "theorems": [
    "C07_datetime_array",
    "C07_datetime_array_samples",
    "C07_times",
    "C07_increasing",
    "C07_increasing_rounded"
   ],
   "note": "For every rounding; strict increase in exact arithmetic for fs <= 10^13 Hz."
  },
  {
   "property": "C08",
   "status": "proved",
   "theorems": [
    "C08_read_range_valid",
    "C08_samples_outside_rejected",
    "C08_samples_inside_accepted"
   ],
   "note": "For every correctly rounded arithmetic (binary64 included) and recordings below 2^49 samples."
  },
  {
   "property": "C09",
   "status": "proved",
   "theorems": [
    "C09_partial_read_is_slice",
    "C09_slice_entries"
   ],
   "note": "TimeReaderNumpy; for every rounding."
  },
  {
   "property": "C10",
   "status": "partial",
   "theorems": [
    "C10_subsection_closed_interval",
    "C10_subsection_rounded",
    "C10_end_lost_refuted"
   ],
   "note": "As stated in exact arithmetic (period not truncated by to_timedelta). Every correctly rounded arithmetic: exact up to samples whose nominal time is within 2^-50 of the elapsed time of an end of the interval, and the first sample is never lost; refuted at the ends (C10_end_lost_refuted: 30 samples at 50 Hz, the whole range has 29)."
  },
  {
   "property": "C11",
   "status": "partial",
   "theorems": [
    "C11_subsections_compose",
    "C11_subsection_is_partial_read",
    "C11_compose_b64_refuted"
   ],
   "note": "Composition in exact arithmetic, refuted in binary64 (C11_compose_b64_refuted); equality with a partial read for every rounding."
  },
  {
   "property": "C12",
   "status": "partial",
   "theorems": [
    "C12_processors_partial",
    "C12_copy",
    "C12_failure_changes_nothing",
    "C12_adjusting_effect",
    "C12_adjusting_refuted",
    "C12_branches_refuted",
    "C12_chain",
    "C12_writer_effect",
    "C12_writer_refuted",
    "C12_writer_others",
    "C12_level_writer_refuted",
    "C12_decimator_effect",
    "C12_level0_shared_refuted"
   ],
   "note": "Heap model with all session histories. Proved for processors that keep the time axis, copy() and failing runs; refuted for Subsection/Resample/Decimate/ShiftTimestamps, all writers and Decimator, whose exact effect on every object is proved (shared History grows, channel data_files overwritten)."
  },
  {
   "property": "C13",
   "status": "proved",
   "theorems": [
    "C13_run",
    "C13_calibrated",
    "C13_history_append_only"
   ],
   "note": "For every rounding and oracle.; C13_run, C13_calibrated: the history of a whole run"
  },
  {
   "property": "C14",
   "status": "proved",
   "theorems": [
    "C14_downsample_factors",
    "C14_prime_factorisation"
   ],
   "note": "isqrt is an oracle with its defining inequality."
  },
  {
   "property": "C15",
   "status": "proved",
   "theorems": [
    "C15_decimate_metadata",
    "C15_decimate_last_time",
    "C15_decimate_last_time_rounded",
    "C15_resample_metadata"
   ],
   "note": "Shape contracts of scipy decimate/resample_poly are hypotheses (good_oracles). last_time <= original in exact arithmetic, and up to 2.04*10^-13 s + 5*2^-53 periods per sample in every correctly rounded one (C15_decimate_last_time_rounded). The sampling frequency written by Resample is the requested one although the data has the limit_denominator ratio: both are in the statement."
  },
  {
   "property": "C16",
   "status": "proved",
   "theorems": [
    "C16_remove_mean",
    "C16_remove_mean_rounded",
    "C16_remove_mean_idempotent"
   ],
   "note": "In exact arithmetic, and with an error bound in p bit arithmetic (float32, float64) for summation from left to right (C16_remove_mean_rounded; numpy's pairwise order is not modelled)."
  },
  {
   "property": "C17",
   "status": "proved",
   "theorems": [
    "C17_nans_filled",
    "C17_fills_lie_between",
    "C17_fails_iff_all_nan",
    "C17_idempotent"
   ],
   "note": "np.interp evaluated exactly."
  },
  {
   "property": "C18",
   "status": "partial",
   "theorems": [
    "C18_add_per_channel",
    "C18_multiply_per_channel",
    "C18_unnamed_channels_identical",
    "C18_add_negative_restores_exact",
    "C18_add_negative_restores_refuted"
   ],
   "note": "Per channel effect for every rounding; restoring by adding the negative proved exactly and refuted in binary64."
  },
  {
   "property": "C19",
   "status": "partial",
   "theorems": [
    "C19_named_channels_partial",
    "C19_accepted",
    "C19_unnamed_channels_refuted"
   ],
   "note": "Named channels proved; the claim for the other channels is false of the code (np.empty), proved as a refutation for every input."
  },
  {
   "property": "C20",
   "status": "partial",
   "theorems": [
    "C20_shift_is_linear_exact",
    "C20_large_shift_rejected",
    "C20_accepted",
    "C20_shift_rounded",
    "C20_precisions",
    "C20_shift_float32_refuted"
   ],
   "note": "Exact in exact arithmetic; in rounded arithmetic of any precision p within (k+15) 2^(1-p) of the values when the shift is at least n 2^(1-p) samples (C20_shift_rounded; float64 p=53, float32 p=24); refuted below that: with float32 data (the readers' default dtype) the shift is lost from sample 2^23."
  },
  {
   "property": "C21",
   "status": "proved",
   "theorems": [
    "C21_set_then_get",
    "C21_set_accepts_iff",
    "C21_get_returns_row"
   ],
   "note": "Values, not object identity."
  },
  {
   "property": "C22",
   "status": "partial",
   "theorems": [
    "C22_numpy_round_trip",
    "C22_no_overwrite",
    "C22_one_sample_refuted",
    "C22_ascii_refuted"
   ],
   "note": "Numpy round trip proved for consistent recordings of >= 2 samples (file formats as parameters with a round-trip contract); refuted for one sample (reader refuses) and for the ASCII writer/reader pair (file suffixes differ, universal refutation)."
  },
  {
   "property": "C23",
   "status": "proved",
   "theorems": [
    "C23_pipelines_keep_consistency"
   ],
   "note": "For every correctly rounded arithmetic; recordings below 2^49 samples; shape contracts for the scipy routines."
  },
  {
   "property": "C24",
   "status": "partial",
   "theorems": [
    "C24_low_high_band_pass_valid",
    "C24_invalid_rejected",
    "C24_cutoff_values",
    "C24_filters",
    "C24_notch_partial",
    "C24_notch_refuted"
   ],
   "note": "Low/high/band pass proved for every correctly rounded arithmetic; notch proved for every correctly rounded arithmetic away from the ends with Nyquist >= 1 Hz, and refuted otherwise."
  },
  {
   "property": "C25",
   "status": "proved",
   "theorems": [
    "C25_eval_freqs_by_number",
    "C25_eval_freqs_by_minimum",
    "C25_eval_freqs_reject"
   ],
   "note": "For every correctly rounded arithmetic; np.power(2, i/2) is a parameter with a 2^-50 accuracy contract; the value 2^(-i/2) is stated on squares."
  },
  {
   "property": "C26",
   "status": "partial",
   "theorems": [
    "C26_factor_optimal_exact",
    "C26_factor_optimal_two",
    "C26_factor_near_optimal",
    "C26_terminates_refuted"
   ],
   "note": "Optimal in exact arithmetic for every divisor >= 2 and in binary64 for divisor 2 (the default); otherwise optimal up to rounding. Termination is false for div_factor = 1 and for levels without a positive frequency (refuted)."
  },
  {
   "property": "C27",
   "status": "partial",
   "theorems": [
    "C27_increments_multiply",
    "C27_default_frequencies_descend",
    "C27_decimated_fs",
    "C27_increments_refuted"
   ],
   "note": "Proved for the default frequencies and for user frequencies whose level maxima descend; false otherwise (refuted: increment 0)."
  },
  {
   "property": "C28",
   "status": "partial",
   "theorems": [
    "C28_decimator_levels",
    "C28_level_fs_exact",
    "C28_level_fs_rounded",
    "C28_level_fs_two",
    "C28_resample_ratio",
    "C28_short_recording_refuted"
   ],
   "note": "Proved for both modes under the scipy / Fraction contracts; a recording with fewer than min_samples samples raises KeyError instead of giving zero levels (refuted part)."
  },
  {
   "property": "C29",
   "status": "proved",
   "theorems": [
    "C29_frequency_lookup",
    "C29_levels_partition",
    "C29_bad_level_rejected",
    "C29_setup_size"
   ],
   "note": "-"
  },
  {
   "property": "C30",
   "status": "partial",
   "theorems": [
    "C30_windows_inside_data",
    "C30_windows_inside_data_rounded",
    "C30_windows_inside_data_refuted"
   ],
   "note": "Exact arithmetic and binary64 with 2^p <= 128 Hz aligned recordings: all of it. Every correctly rounded arithmetic (fs <= 1 MHz, windows up to 10^6, up to 2^47 samples after the reference): all of it except 0 <= from_sample, which is -1 <= from_sample, and 0 <= from_sample when the first window starts a quarter sample after the first sample or later; refuted in binary64 (a 1 ns shift gives from_sample = -1)."
  },
  {
   "property": "C31",
   "status": "proved",
   "theorems": [
    "C31_global_index_time",
    "C31_global_index_time_rounded",
    "C31_same_window_two_recordings",
    "C31_table_times"
   ],
   "note": "Exact arithmetic and binary64 with 2^p <= 128 Hz aligned recordings: as stated. Every correctly rounded arithmetic (fs <= 1 MHz, windows up to 10^6, up to 2^47 samples after the reference): within 5/4 of a sample before and 1/4 after, and two recordings less than 3/2 samples apart. Table times in nanoseconds for every rounding with period 1/fs."
  },
  {
   "property": "C32",
   "status": "partial",
   "theorems": [
    "C32_exactly_the_complete_windows",
    "C32_table_complete",
    "C32_complete_windows_rounded",
    "C32_last_window_complete",
    "C32_first_window_within_one",
    "C32_no_window_missed_refuted"
   ],
   "note": "As stated in exact arithmetic and binary64 with 2^p <= 128 Hz aligned recordings. Every correctly rounded arithmetic: exact at the end of the recording; at the start with a tolerance of a quarter sample. Exactness at the start is refuted in binary64 (50 Hz, 128/32: window 9 missed)."
  },
  {
   "property": "C33",
   "status": "partial",
   "theorems": [
    "C33_search_succeeds_half_overlap",
    "C33_search_succeeds_rounded",
    "C33_search_fails_refuted"
   ],
   "note": "Proved for 2*olap <= win_size + 1 (every correctly rounded arithmetic: 2*olap <= win_size); false for larger overlaps (refuted for every such configuration in a family)."
  },
  {
   "property": "C34",
   "status": "partial",
   "theorems": [
    "C34_get_local",
    "C34_get_global_from_reference",
    "C34_get_global_refuted"
   ],
   "note": "get_local proved; get_global is false of the code (adds the offset instead of subtracting it): refuted for every data set with a non-zero offset."
  },
  {
   "property": "C35",
   "status": "partial",
   "theorems": [
    "C35_setup_sizes",
    "C35_setup_usable",
    "C35_default_window_sizes",
    "C35_default_overlaps",
    "C35_default_overlaps_rounded",
    "C35_accepted",
    "C35_short_lists_rejected",
    "C35_usable_refuted"
   ],
   "note": "Sizes, counts and rejection proved; 0 < overlap < window only under the stated conditions on parameters, refuted otherwise."
  },
  {
   "property": "C36",
   "status": "partial",
   "theorems": [
    "C36_window_contents",
    "C36_window_contents_target",
    "C36_window_contents_rounded",
    "C36_target_no_windows_refuted",
    "C36_one_channel_refuted",
    "C36_one_window_refuted"
   ],
   "note": "Proved for >= 2 channels and >= 2 windows, for Windower in every correctly rounded arithmetic; false for one channel or one window (np.squeeze drops the axis), refuted; WindowerTarget may have no windows where its metadata says seven (refuted in binary64)."
  },
  {
   "property": "C37",
   "status": "partial",
   "theorems": [
    "C37_window_times_from_metadata",
    "C37_target_times_refuted",
    "C37_target_reference"
   ],
   "note": "Proved for Windower; false for WindowerTarget (refuted)."
  },
  {
   "property": "C38",
   "status": "partial",
   "theorems": [
    "C38_levels_agree",
    "C38_fs_list_refuted"
   ],
   "note": "All lists agree except fs, which is not truncated (refuted)."
  },
  {
   "property": "C39",
   "status": "partial",
   "theorems": [
    "C39_index_time_inverse_exact",
    "C39_index_time_inverse_pow2",
    "C39_index_time_inverse_round",
    "C39_before_reference_raises",
    "C39_floor_ceil_refuted"
   ],
   "note": "Exact arithmetic, power of two increments in binary64 and method round in every rounding; floor and ceil refuted in binary64."
  },
  {
   "property": "C40",
   "status": "proved",
   "theorems": [
    "C40_interpolation",
    "C40_total",
    "C40_grid",
    "C40_grid_covers",
    "C40_grid_rounded",
    "C40_grid_covers_rounded",
    "C40_below_nyquist"
   ],
   "note": "Exact arithmetic for the interpolation, exact and every correctly rounded arithmetic for the frequency grid (C40_grid_rounded, C40_grid_covers_rounded); the Nyquist bound for every correctly rounded arithmetic."
  },
  {
   "property": "C41",
   "status": "proved",
   "theorems": [
    "C41_smooth_length_odd",
    "C41_smooth_length_value",
    "C41_uniform_smoother"
   ],
   "note": "For every rounding; scipy's filter is a parameter."
  },
  {
   "property": "C42",
   "status": "partial",
   "theorems": [
    "C42_gaussian_width",
    "C42_gaussian_uses_sigma_refuted"
   ],
   "note": "False of the code (the literal 1 is passed instead of sigma): proved that the width is always 1, and refuted."
  },
  {
   "property": "C43",
   "status": "proved",
   "theorems": [
    "C43_first_reader",
    "C43_no_reader",
    "C43_isolation"
   ],
   "note": "Well-formed calibration tables, distinct channel names; readers are arbitrary functions."
  },
  {
   "property": "C44",
   "status": "partial",
   "theorems": [
    "C44_run",
    "C44_single_frequency_refuted",
    "C44_duplicate_channel_refuted"
   ],
   "note": "Proved for every shape except one frequency with several windows, where it is refuted (ValueError); refuted when the configuration names a channel twice."
  },
  {
   "property": "C45",
   "status": "partial",
   "theorems": [
    "C45_rows",
    "C45_header",
    "C45_sensor_case_refuted",
    "C45_title_line_refuted"
   ],
   "note": "Rows and header values proved for every readable file (float parsing and pandas sorting are parameters); refuted: sensor and serial are lower-cased, a title line mentioning the sensor raises IndexError."
  },
  {
   "property": "C46",
   "status": "proved",
   "theorems": [
    "C46_site_windows",
    "C46_site_windows_total"
   ],
   "note": "Order of measurements as given by the site."
  },
  {
   "property": "C47",
   "status": "proved",
   "theorems": [
    "C47_selection",
    "C47_site_names",
    "C47_eval_wins"
   ],
   "note": "Reading an evals directory is a total function per measurement (data or error)."
  },
  {
   "property": "C48",
   "status": "proved",
   "theorems": [
    "C48_aligned_rows",
    "C48_no_shared_windows"
   ],
   "note": "For every content of np.empty; hypothesis: evaluation data as written by resistics, distinct measurement names, at least one shared window (without one: AttributeError, also proved)."
  },
  {
   "property": "C49",
   "status": "partial",
   "theorems": [
    "C49_quick_agrees",
    "C49_fewer_frequencies_refuted"
   ],
   "note": "Proved when every level has per_level frequencies and at least one window; with fewer frequencies the project gathering raises IndexError where the quick one succeeds (refuted)."
  },
  {
   "property": "C50",
   "status": "proved",
   "theorems": [
    "C50_equivalent_systems",
    "C50_generated_data",
    "C50_end_to_end"
   ],
   "note": "Exact rational arithmetic; the layout theorems hold for an arbitrary complex product and for every content of np.empty; the fit is an oracle with the least-squares contract in the end-to-end theorem."
  },
  {
   "property": "C51",
   "status": "partial",
   "theorems": [
    "C51_preparers_agree",
    "C51_short_level_refuted"
   ],
   "note": "Proved when every level but the last has per_level frequencies and every level has a window; refuted: with a shorter level in the middle the gathered data cannot be prepared (KeyError)."
  },
  {
   "property": "C52",
   "status": "partial",
   "theorems": [
    "C52_lookup",
    "C52_equal_lengths",
    "C52_collision_refuted"
   ],
   "note": "Proved when the concatenated component keys are distinct (shown for output names of equal length); refuted: \"a\"+\"bc\" = \"ab\"+\"c\" overwrites a component."
  },
  {
   "property": "C53",
   "status": "partial",
   "theorems": [
    "C53_bisquare_partial",
    "C53_huber",
    "C53_trimmed_mean",
    "C53_bisquare_refuted",
    "C53_by_size_partial",
    "C53_signed_refuted",
    "C53_negative_full_weight"
   ],
   "note": "proved for non-negative residuals and every rounding (C53_by_size_partial); for residuals of either sign refuted for all three functions (C53_signed_refuted): the code omits the absolute value, so Huber and trimmed mean keep the full weight of a negative residual however large (C53_negative_full_weight) and bisquare exceeds 1. In the signed order Huber and trimmed mean are proved for all residuals (C53_huber, C53_trimmed_mean)."
  },
  {
   "property": "C54",
   "status": "partial",
   "theorems": [
    "C54_new_then_load",
    "C54_refuses_existing",
    "C54_crash_partial",
    "C54_crash_refuted",
    "C54_load_refuses_partial",
    "C54_subdirs_refuted",
    "C54_plain_file_refuted"
   ],
   "note": "Proved for every file system and crash point up to the opening of the project file; refuted: a crash while resistics.json is written leaves a directory that neither new() nor load() accepts; load() accepts a directory with only time/ (the check returns after the first sub-directory); a plain file named like a sub-directory."
  },
  {
   "property": "C55",
   "status": "partial",
   "theorems": [
    "C55_fresh_directory",
    "C55_overwrite_partial",
    "C55_overwrite_refuted",
    "C55_time_partial",
    "C55_time_refuted"
   ],
   "note": "Fresh directory proved; when overwriting, a crash between data and metadata file leaves old metadata with new data (proved to be the only mixture, and refuted universally). Time data likewise."
  },
  {
   "property": "C56",
   "status": "proved",
   "theorems": [
    "C56_concurrent",
    "C56_symmetric",
    "C56_loaded"
   ],
   "note": "For projects as made by load() (shown to be so)."
  },
  {
   "property": "C57",
   "status": "proved",
   "theorems": [
    "C57_site_fs",
    "C57_measurements",
    "C57_partition",
    "C57_project_fs",
    "C57_get_sites"
   ],
   "note": "-"
  },
  {
   "property": "C58",
   "status": "partial",
   "theorems": [
    "C58_names_of_one_tf",
    "C58_names_partial",
    "C58_collision_refuted",
    "C58_history",
    "C58_returns",
    "C58_new_project"
   ],
   "note": "Round trip over every history of runs proved (JSON parser contract); names proved distinct for one transfer function and for plain names, refuted for case, space/underscore, variation/postfix and frequencies closer than 1e-6 Hz."
  },
  {
   "property": "C59",
   "status": "partial",
   "theorems": [
    "C59_round_trip",
    "C59_tf_round_trip",
    "C59_validated",
    "C59_constructed",
    "C59_configuration",
    "C59_dictionary_untouched_refuted",
    "C59_tf_dictionary_untouched_refuted",
    "C59_custom_name_refuted",
    "C59_custom_name_other_class",
    "C59_custom_tf_name_refuted",
    "C59_declared_class_refuted"
   ],
   "note": "Round trip proved for all objects that validation/constructors make of data (field coercions are parameters that must be idempotent); refuted: validate pops 'name' from the caller's dictionary, a custom name breaks the round trip, a field declared for one class accepts every registered class."
  },
  {
   "property": "C60",
   "status": "proved",
   "theorems": [
    "C60_quick_read",
    "C60_quick_read_fails",
    "C60_measurement",
    "C60_no_measurement"
   ],
   "note": "Readers are arbitrary functions of the file system that may raise anything."
  },
  {
   "property": "C61",
   "status": "proved",
   "theorems": [
    "C61_paths"
   ],
   "note": "-"
  },
  {
   "property": "C62",
   "status": "partial",
   "theorems": [
    "C62_listing_partial",
    "C62_hidden_refuted"
   ],
   "note": "Complete and duplicate-free listings proved; exclusion of hidden files refuted (a hidden directory even becomes a site)."
  },
  {
   "property": "C63",
   "status": "proved",
   "theorems": [
    "C63_fourier_bookkeeping",
    "C63_evals_timestamps"
   ],
   "note": "next_fast_len and the FFT are parameters; rfft's output length n//2+1 is a hypothesis."
  },
  {
   "property": "C64",
   "status": "proved",
   "theorems": [
    "C64_load"
   ],
   "note": "datetime.now() is a parameter; a site without measurement gets the time of loading."
  },
  {
   "property": "C65",
   "status": "proved",
   "theorems": [
    "C65_level_data_round_trip",
    "C65_no_overwrite"
   ],
   "note": "Serialisers are parameters with a round-trip contract."
  },
  {
   "property": "C66",
   "status": "partial",
   "theorems": [
    "C66_snapshot_partial",
    "C66_write_back_refuted"
   ],
   "note": "The reader returns a memory map: correct as long as the file is unchanged; writing back to the same directory refuted."
  },
  {
   "property": "C67",
   "status": "partial",
   "theorems": [
    "C67_project_equals_quick",
    "C67_processable",
    "C67_keeps_fs"
   ],
   "note": "Proved for sites with one measurement, Windower (not WindowerTarget), at least two channels, and no level exactly as long as its window (C36 refutes that case); C67_processable derives the hypotheses from the configuration. The general site is C49."
  },
  {
   "property": "C68",
   "status": "proved",
   "theorems": [
    "C68_session_order_irrelevant",
    "C68_each_as_if_alone"
   ],
   "note": "A failing measurement changes nothing, and every measurement ends as if processed alone (C68_each_as_if_alone)."
  },
  {
   "property": "C69",
   "status": "partial",
   "theorems": [
    "C69_solution_labels",
    "C69_labels_are_evaluated_partial",
    "C69_resampled_refuted"
   ],
   "note": "Labels are proved to be the evaluation frequencies of the requested fs, and those of the data when the time processors keep fs; refuted for Resample/Decimate time processors (labels wrong by the factor; asking for the new fs raises ValueError)."
  },
  {
   "property": "C70",
   "status": "partial",
   "theorems": [
    "C70_same_windows_partial",
    "C70_target_windows_refuted"
   ],
   "note": "Proved for the default Windower; refuted for WindowerTarget, whose window sizes depend on the recording length."
  },
  {
   "property": "C71",
   "status": "proved",
   "theorems": [
    "C71_windowed_get_chan",
    "C71_spectra_get_chan",
    "C71_spectra_get_chans",
    "C71_spectra_get_freq"
   ],
   "note": "get_freq additionally drops axes of length one (np.squeeze), which the theorem states."
  },
  {
   "property": "C72",
   "status": "partial",
   "theorems": [
    "C72_target_sizes",
    "C72_target_sizes_rounded",
    "C72_target_missed_refuted"
   ],
   "note": "Window sizes proved to be the largest whose increments fit target times into the level (exactly in exact arithmetic, up to 2^-50 relatively in every correctly rounded one), and never below min_size; the target number itself is refuted (100 samples, target 5: four windows)."
  },
  {
   "property": "C73",
   "status": "partial",
   "theorems": [
    "C73_points_are_samples",
    "C73_no_limit",
    "C73_points_rounded",
    "C73_long_recordings_refuted"
   ],
   "note": "Proved up to 2^24 samples and for values float32 can hold; refuted for longer recordings (indices pass through float32: every recording of 2^24+2 samples shows its last value at the index before)."
  },
  {
   "property": "C74",
   "status": "partial",
   "theorems": [
    "C74_wrapped_phase",
    "C74_unwrapped_phase",
    "C74_documented_range_refuted",
    "C74_context_refuted",
    "C74_resistivity"
   ],
   "note": "Congruence modulo whole turns, range [-180,180) and independence proved for ExHx/ExHy, continuity and congruence for the others; the documented range [0,90] and independence for EyHx/EyHy are refuted."
  },
  {
   "property": "C75",
   "status": "proved",
   "theorems": [
    "C75_parallel_writers",
    "C75_can_finish",
    "C75_readers",
    "C75_measurements_apart"
   ],
   "note": "Every schedule and every stopping point; writing a file is a sequence of content changes by path; inputs are read before."
  },
  {
   "property": "C76",
   "status": "partial",
   "theorems": [
    "C76_existing_directory_partial",
    "C76_different_sites",
    "C76_new_directory_refuted",
    "C76_same_measurement_refuted"
   ],
   "note": "Proved for results directories that exist and for different sites; refuted for every new results directory (exists and mkdir without exist_ok race: FileExistsError, solution lost), and for two runs on the same measurement (data and metadata of different runs)."
  },
  {
   "property": "C77",
   "status": "proved",
   "theorems": [
    "C77_exact_data",
    "C77_end_to_end",
    "C77_majority",
    "C77_no_iteration"
   ],
   "note": "exact arithmetic; scikit-learn's fit is a parameter with a contract met by elimination"
  },
  {
   "property": "C78",
   "status": "partial",
   "theorems": [
    "C78_units_partial",
    "C78_units_refuted"
   ],
   "note": "proved when the quartiles of the residuals differ in every pass but the last; refuted otherwise (C78_units_refuted): RobustScaler then uses scale 1"
  },
  {
   "property": "C79",
   "status": "partial",
   "theorems": [
    "C79_no_intercept_partial",
    "C79_huber_refuted"
   ],
   "note": "proved for every solver but Huber; SolverScikitHuber ignores fit_intercept (C79_huber_refuted)"
  },
  {
   "property": "C80",
   "status": "proved",
   "theorems": [
    "C80_remote_reference"
   ],
   "note": "exact arithmetic; least squares contract met by Gaussian elimination (C50_ex_fit); concrete three-site project in C80_ex"
  },
  {
   "property": "C81",
   "status": "partial",
   "theorems": [
    "C81_file_name_partial",
    "C81_no_extension",
    "C81_dollar_refuted",
    "C81_file",
    "C81_missing",
    "C81_other_files",
    "C81_sensor_types",
    "C81_coils_refuted",
    "C81_serials_partial",
    "C81_underscore_refuted"
   ],
   "note": "the substitution is the intended one for values without a dollar sign (C81_dollar_refuted otherwise); the default pattern gives coils of one type the same file (C81_coils_refuted), with the serial number in the pattern names are distinct if no sensor type contains an underscore (C81_underscore_refuted)"
  },
  {
   "property": "C82",
   "status": "partial",
   "theorems": [
    "C82_text_partial",
    "C82_channels",
    "C82_one_channel_refuted",
    "C82_short_file_refuted",
    "C82_malformed",
    "C82_comments",
    "C82_blank_line_refuted"
   ],
   "note": "proved for two or more channels and files as long as their metadata say; refuted: one channel gives a one dimensional array (get_chan returns one number), a short file is read without error with metadata that disagree, empty lines shift sample numbers. float() and the metadata parser are parameters"
  },
  {
   "property": "C83",
   "status": "partial",
   "theorems": [
    "C83_process_time",
    "C83_failure",
    "C83_onto_itself_refuted"
   ],
   "note": "proved for an output different from the source or at least one processor; refuted (C83_onto_itself_refuted) for output = source without processors: the writer empties the mapped file. File formats are parameters with round trip contracts"
  },
  {
   "property": "C84",
   "status": "partial",
   "theorems": [
    "C84_polar_partial",
    "C84_imaginary",
    "C84_axes",
    "C84_direction_refuted",
    "C84_missing",
    "C84_one_value"
   ],
   "note": "proved for vectors with non-negative first component; for a negative one the angle is that of the opposite vector (C84_direction_refuted: opposite vectors have the same angle). Over real numbers; uses the standard library's axioms of Reals"
  },
  {
   "property": "C85",
   "status": "partial",
   "theorems": [
    "C85_types",
    "C85_accepted",
    "C85_names",
    "C85_counts",
    "C85_counts_refuted"
   ],
   "note": "grouping, acceptance and names proved for all inputs; n_chans proved when it is left out and refuted when it is given (C85_counts_refuted: never compared with the channels)"
  },
  {
   "property": "C86",
   "status": "partial",
   "theorems": [
    "C86_recording",
    "C86_recording_rounded",
    "C86_levels",
    "C86_levels_rounded",
    "C86_estimate_partial",
    "C86_estimate_rounded",
    "C86_drift_refuted",
    "C86_drift_4096_refuted",
    "C86_nothing_asked",
    "C86_negative_level_refuted"
   ],
   "note": "attosecond timestamps and levels proved; estimated timestamps (the default) only within k+1 ns and they drift without bound unless the period is a whole number of nanoseconds (C86_drift_refuted, C86_drift_4096_refuted); a negative level is accepted (C86_negative_level_refuted)"
  },
  {
   "property": "C87",
   "status": "proved",
   "theorems": [
    "C87_quick_run_recovers",
    "C87_after_time_processors",
    "C87_processors_keep",
    "C87_spectra_recover",
    "C87_project_recovers"
   ],
   "note": "exact arithmetic; the numerical routines are assumed linear (contract met by the example library linL) and the solver to be least squares; hypotheses met by a concrete two-output recording in C87_ex; C87_ex_multiply_one_channel shows a processor outside linear_proc breaking the relation"
  },
  {
   "property": "C88",
   "status": "partial",
   "theorems": [
    "C88_counts",
    "C88_accepts",
    "C88_round_trip",
    "C88_regression",
    "C88_recovers",
    "C88_wrong_counts_fail",
    "C88_single_input_refuted",
    "C88_missing_channels_refuted",
    "C88_text",
    "C88_text_stale_count_refuted"
   ],
   "note": "counts given by the user are never compared with the lists: with one input channel and n_in = n the result is silently divided by n (C88_single_input_refuted), with n_out too large to_string is an IndexError; a generic transfer function without input channels is a KeyError, not a ValidationError; hypotheses met in C88_ex_*"
  },
  {
   "property": "C89",
   "status": "partial",
   "theorems": [
    "C89_levels",
    "C89_many_levels_refuted",
    "C89_level_by_groups",
    "C89_level_default",
    "C89_section_partial",
    "C89_sparse_windows_refuted",
    "C89_one_channel_refuted"
   ],
   "note": "eleven levels or eleven groups exhaust the ten colours: StopIteration (C89_many_levels_refuted, C89_level_by_groups); a section of a single channel divides by zero; a section with a grouping containing no window, as for windows an hour apart with the default grouping of 30 minutes, is a ValueError; for the rest of the inputs the full statement; hypotheses met in C89_*_ex and _hyp"
  },
  {
   "property": "C90",
   "status": "partial",
   "theorems": [
    "C90_recording",
    "C90_added",
    "C90_decimated",
    "C90_many_levels_refuted",
    "C90_some_channels_refuted",
    "C90_order_refuted"
   ],
   "note": "proved for the default channels and for drawing into a figure with the figure's channels; choosing some of the channels is a KeyError and choosing another order draws a channel in the panel titled with another one (C90_some_channels_refuted, C90_order_refuted); eleven decimation levels are a StopIteration; hypotheses met in ex_recording, C90_*_ex"
  },
  {
   "property": "C91",
   "status": "partial",
   "theorems": [
    "C91_decimated_levels",
    "C91_windowed_levels",
    "C91_spectra_levels",
    "C91_window_parameters",
    "C91_level_timestamps",
    "C91_negative_level_refuted",
    "C91_zero_fs",
    "C91_windows_and_indices",
    "C91_channels",
    "C91_channel_types",
    "C91_samples",
    "C91_sites",
    "C91_paths",
    "C91_selection",
    "C91_components",
    "C91_transfer_function",
    "C91_validation"
   ],
   "note": "proved for levels at or above n_levels, indices, windows, samples, channels, sites, measurements, paths, components, dictionaries; a negative level is a KeyError of get_level, but get_timestamps(-1) of spectra (and of decimated data, C86) answers with the last level's times (C91_negative_level_refuted); hypotheses met in C91_levels_ex, C91_spectra_holds, C91_negative_ex, C91_paths_ex, C91_selection_ex"
  },
  {
   "property": "C92",
   "status": "proved",
   "theorems": [
    "C92_spectra",
    "C92_first_level",
    "C92_transfer_function",
    "C92_view",
    "C92_view_decimated",
    "C92_unreadable"
   ],
   "note": "hypotheses met in C92_ex, C92_tf_ex, C92_view_ex, C92_unreadable_ex; win_size >= level size and WindowerTarget are C36 and C39"
  },
  {
   "property": "C93",
   "status": "partial",
   "theorems": [
    "C93_project_table",
    "C93_timeline",
    "C93_plots",
    "C93_nothing_to_plot",
    "C93_late_reference_refuted",
    "C93_decimation_table",
    "C93_n_evals"
   ],
   "note": "proved; a reference time later than the last measurement by more than the recorded span is drawn outside the range (C93_late_reference_refuted); hypotheses met in C93_ex, C93_late_ex, C93_decimation_ex, C93_n_evals_ex"
  },
  {
   "property": "C94",
   "status": "partial",
   "theorems": [
    "C94_levels",
    "C94_time",
    "C94_solution",
    "C94_no_overwrite_refuted"
   ],
   "note": "proved for overwrite=True; with overwrite=False an attempt stopped after the directory was made can never be repeated (C94_no_overwrite_refuted); hypotheses met in C94_ex, C94_ex_time, C94_ex_solution, startedWritable"
  },
  {
   "property": "C95",
   "status": "partial",
   "theorems": [
    "C95_new_directory",
    "C95_overwrite_partial",
    "C95_overwrite_refuted",
    "C95_solutions_of_sites",
    "C95_solutions_of_one_site"
   ],
   "note": "proved for directories that could not be read before and for solutions; overwriting gives old metadata with new data in some order (C95_overwrite_refuted), and nothing worse (C95_overwrite_partial); one file is assumed to be read in one action; hypotheses met in C95_ex, C95_ex_solution, C75_ex"
  },
  {
   "property": "C96",
   "status": "proved",
   "theorems": [
    "C96_load",
    "C96_paths",
    "C96_time_refuted"
   ],
   "note": "for directories of the project other than time/ and the project file, which C96_paths shows for the paths the commands write to; the condition is needed (C96_time_refuted); hypotheses met in C96_ex"
  },
  {
   "property": "C97",
   "status": "proved",
   "theorems": [
    "C97_evals",
    "C97_quick",
    "C97_project",
    "C97_timestamps",
    "C97_reference_refuted"
   ],
   "note": "C97_reference_refuted shows that the reference time has to move too; hypotheses met in C97_ex, C97_timestamps_ex"
  },
  {
   "property": "C98",
   "status": "proved",
   "theorems": [
    "C98_processor",
    "C98_spectra",
    "C98_levels",
    "C98_quick",
    "C98_project",
    "C98_spectra_calibrated",
    "C98_calibrated",
    "C98_calibrated_project",
    "C98_one_channel_refuted"
   ],
   "note": "without calibration data (C98_quick, C98_project) and with it (C98_calibrated, C98_calibrated_project; the channels to calibrate, when listed, are distinct); C98_one_channel_refuted shows that the recording needs a second channel; hypotheses met in C98_ex, C98_ex_project and C98_ex_calibrated"
  },
  {
   "property": "C99",
   "status": "partial",
   "theorems": [
    "C99_table",
    "C99_table_rounded",
    "C99_cut_at_start_refuted",
    "C99_windows",
    "C99_windows_rounded",
    "C99_spectra",
    "C99_spectra_rounded"
   ],
   "note": "proved for exact arithmetic and for sample aligned recordings at 2^p Hz in binary64; samples appended at the end: every correctly rounded arithmetic. C99_cut_at_start_refuted: at 3 Hz in binary64 cutting three samples moves a window by one sample. The spectra are those of the level that is not decimated (decimation filters the whole recording); time processors are covered by what they produce"
  },
  {
   "property": "C100",
   "status": "partial",
   "theorems": [
    "C100_spectra",
    "C100_least_squares",
    "C100_unit_free",
    "C100_calibrated",
    "C100_project",
    "C100_cross_units_refuted"
   ],
   "note": "proved in exact arithmetic for linear numerical routines (C100_spectra, C100_least_squares, C100_unit_free; with sensor calibration C100_calibrated) when the cross channels share one factor; without it false: C100_cross_units_refuted. Add and ApplyFunction processors are excluded (not linear); rounding of the samples is not covered"
  },
  {
   "property": "C101",
   "status": "partial",
   "theorems": [
    "C101_spectra",
    "C101_least_squares",
    "C101_project"
   ],
   "note": "proved in exact arithmetic for linear numerical routines and least squares fits (C101_spectra, C101_least_squares); robust fits (Huber, RANSAC, Theil-Sen, MM) are not linear in the observations and are not claimed; rounding of the samples is not covered"
  },
  {
   "property": "C102",
   "status": "proved",
   "theorems": [
    "C102_quick",
    "C102_project"
   ],
   "note": "proved for every library routine, in the arithmetic of the library (C102_quick, C102_project for a site with one measurement); the names of the components have to be distinct (keys_distinct: see C52), and the solver to be a function of the equations (a random solver with another state gives another result)"
  },
  {
   "property": "C103",
   "status": "proved",
   "theorems": [
    "C103_renamed",
    "C103_overlap_refuted"
   ],
   "note": "proved for every library routine, in the arithmetic of the library; with two measurements over the same windows the order does matter (C103_overlap_refuted)"
  },
  {
   "property": "C104",
   "status": "partial",
   "theorems": [
    "C104_gain",
    "C104_same_units",
    "C104_gain_project",
    "C104_same_units_project"
   ],
   "note": "proved in exact arithmetic (C104_gain, C104_same_units; for commands on a project with one measurement: C104_gain_project, C104_same_units_project); the hypotheses on the complex division are met by the exact quotient (quotient_gain); rounding is not covered; hypotheses met in C104_ex_gain, C104_ex_same_units"
  },
  {
   "property": "C105",
   "status": "proved",
   "theorems": [
    "C105_magnitudes_phases",
    "C105_recovers_curve",
    "C105_polar_form",
    "C105_total"
   ],
   "note": "phases are rational and unwrapping is exact; np.absolute and np.angle are parameters; 'raises for any other level' means KeyError, where get_level raises ValueError; hypotheses met in C105_ex"
  }
 ]
}