# property | status | note
C01 | partial | Proved for exact arithmetic whenever to_timedelta does not truncate the period; for every correctly rounded arithmetic (binary64) proved off by at most one sample; the exact statement is false in binary64 (see C03_roundtrip_b64_refuted).
C02 | partial | As C01, for to_time_to_sample.
C03 | partial | False in binary64 (refuted at fs=256 Hz sample 275 and fs=50 Hz sample 29) and for periods truncated by the 0.0001 ns rule; proved in exact arithmetic, in binary64 for fs = 2^p, p <= 7, and for the method "round" in every correctly rounded arithmetic.
C04 | proved | Exact arithmetic; for every correctly rounded arithmetic to_timedelta is within 1.01e-13 s of its argument and to_seconds within 2e-11 s of any time delta, also negative.
C05 | proved | Exact arithmetic; ordering of methods for every rounding; for every correctly rounded arithmetic (fs <= 1 MHz, up to 2^49 samples) at most one away from the exact answer.
C06 | proved | Years 1000 to 9999. Also: a datetime finer than a yoctosecond (e.g. the second sample of a 3 Hz recording) is cut, C06_finer_is_cut and C06_third_of_a_second_refuted; below year 1000 the string is not read back on glibc.
C07 | proved | For every rounding; strict increase in exact arithmetic for fs <= 10^13 Hz.
C08 | proved | For every correctly rounded arithmetic (binary64 included) and recordings below 2^49 samples.
C09 | proved | TimeReaderNumpy; for every rounding.
C10 | partial | As stated in exact arithmetic (period not truncated by to_timedelta). Every correctly rounded arithmetic: exact up to samples whose nominal time is within 2^-50 of the elapsed time of an end of the interval, and the first sample is never lost; refuted at the ends (C10_end_lost_refuted: 30 samples at 50 Hz, the whole range has 29).
C11 | partial | Composition in exact arithmetic, refuted in binary64 (C11_compose_b64_refuted); equality with a partial read for every rounding.
C13 | proved | For every rounding and oracle.; C13_run, C13_calibrated: the history of a whole run
C14 | proved | isqrt is an oracle with its defining inequality.
C15 | proved | Shape contracts of scipy decimate/resample_poly are hypotheses (good_oracles). last_time <= original in exact arithmetic, and up to 2.04*10^-13 s + 5*2^-53 periods per sample in every correctly rounded one (C15_decimate_last_time_rounded). The sampling frequency written by Resample is the requested one although the data has the limit_denominator ratio: both are in the statement.
C16 | proved | In exact arithmetic, and with an error bound in p bit arithmetic (float32, float64) for summation from left to right (C16_remove_mean_rounded; numpy's pairwise order is not modelled).
C17 | proved | np.interp evaluated exactly.
C18 | partial | Per channel effect for every rounding; restoring by adding the negative proved exactly and refuted in binary64.
C19 | partial | Named channels proved; the claim for the other channels is false of the code (np.empty), proved as a refutation for every input.
C20 | partial | Exact in exact arithmetic; in rounded arithmetic of any precision p within (k+15) 2^(1-p) of the values when the shift is at least n 2^(1-p) samples (C20_shift_rounded; float64 p=53, float32 p=24); refuted below that: with float32 data (the readers' default dtype) the shift is lost from sample 2^23.
C21 | proved | Values, not object identity.
C23 | proved | For every correctly rounded arithmetic; recordings below 2^49 samples; shape contracts for the scipy routines.
C24 | partial | Low/high/band pass proved for every correctly rounded arithmetic; notch proved for every correctly rounded arithmetic away from the ends with Nyquist >= 1 Hz, and refuted otherwise.
C25 | proved | For every correctly rounded arithmetic; np.power(2, i/2) is a parameter with a 2^-50 accuracy contract; the value 2^(-i/2) is stated on squares.
C26 | partial | Optimal in exact arithmetic for every divisor >= 2 and in binary64 for divisor 2 (the default); otherwise optimal up to rounding. Termination is false for div_factor = 1 and for levels without a positive frequency (refuted).
C27 | partial | Proved for the default frequencies and for user frequencies whose level maxima descend; false otherwise (refuted: increment 0).
C28 | partial | Proved for both modes under the scipy / Fraction contracts; a recording with fewer than min_samples samples raises KeyError instead of giving zero levels (refuted part).
C29 | proved | -
C30 | partial | Exact arithmetic and binary64 with 2^p <= 128 Hz aligned recordings: all of it. Every correctly rounded arithmetic (fs <= 1 MHz, windows up to 10^6, up to 2^47 samples after the reference): all of it except 0 <= from_sample, which is -1 <= from_sample, and 0 <= from_sample when the first window starts a quarter sample after the first sample or later; refuted in binary64 (a 1 ns shift gives from_sample = -1).
C31 | proved | Exact arithmetic and binary64 with 2^p <= 128 Hz aligned recordings: as stated. Every correctly rounded arithmetic (fs <= 1 MHz, windows up to 10^6, up to 2^47 samples after the reference): within 5/4 of a sample before and 1/4 after, and two recordings less than 3/2 samples apart. Table times in nanoseconds for every rounding with period 1/fs.
C32 | partial | As stated in exact arithmetic and binary64 with 2^p <= 128 Hz aligned recordings. Every correctly rounded arithmetic: exact at the end of the recording; at the start with a tolerance of a quarter sample. Exactness at the start is refuted in binary64 (50 Hz, 128/32: window 9 missed).
C33 | partial | Proved for 2*olap <= win_size + 1 (every correctly rounded arithmetic: 2*olap <= win_size); false for larger overlaps (refuted for every such configuration in a family).
C34 | partial | get_local proved; get_global is false of the code (adds the offset instead of subtracting it): refuted for every data set with a non-zero offset.
C35 | partial | Sizes, counts and rejection proved; 0 < overlap < window only under the stated conditions on parameters, refuted otherwise.
C36 | partial | Proved for >= 2 channels and >= 2 windows, for Windower in every correctly rounded arithmetic; false for one channel or one window (np.squeeze drops the axis), refuted; WindowerTarget may have no windows where its metadata says seven (refuted in binary64).
C37 | partial | Proved for Windower; false for WindowerTarget (refuted).
C38 | partial | All lists agree except fs, which is not truncated (refuted).
C39 | partial | Exact arithmetic, power of two increments in binary64 and method round in every rounding; floor and ceil refuted in binary64.
C40 | proved | Exact arithmetic for the interpolation, exact and every correctly rounded arithmetic for the frequency grid (C40_grid_rounded, C40_grid_covers_rounded); the Nyquist bound for every correctly rounded arithmetic.
C41 | proved | For every rounding; scipy's filter is a parameter.
C42 | partial | False of the code (the literal 1 is passed instead of sigma): proved that the width is always 1, and refuted.
C63 | proved | next_fast_len and the FFT are parameters; rfft's output length n//2+1 is a hypothesis.
C43 | proved | Well-formed calibration tables, distinct channel names; readers are arbitrary functions.
C44 | partial | Proved for every shape except one frequency with several windows, where it is refuted (ValueError); refuted when the configuration names a channel twice.
C45 | partial | Rows and header values proved for every readable file (float parsing and pandas sorting are parameters); refuted: sensor and serial are lower-cased, a title line mentioning the sensor raises IndexError.
C46 | proved | Order of measurements as given by the site.
C47 | proved | Reading an evals directory is a total function per measurement (data or error).
C48 | proved | For every content of np.empty; hypothesis: evaluation data as written by resistics, distinct measurement names, at least one shared window (without one: AttributeError, also proved).
C49 | partial | Proved when every level has per_level frequencies and at least one window; with fewer frequencies the project gathering raises IndexError where the quick one succeeds (refuted).
C50 | proved | Exact rational arithmetic; the layout theorems hold for an arbitrary complex product and for every content of np.empty; the fit is an oracle with the least-squares contract in the end-to-end theorem.
C51 | partial | Proved when every level but the last has per_level frequencies and every level has a window; refuted: with a shorter level in the middle the gathered data cannot be prepared (KeyError).
C52 | partial | Proved when the concatenated component keys are distinct (shown for output names of equal length); refuted: "a"+"bc" = "ab"+"c" overwrites a component.
C53 | partial | proved for non-negative residuals and every rounding (C53_by_size_partial); for residuals of either sign refuted for all three functions (C53_signed_refuted): the code omits the absolute value, so Huber and trimmed mean keep the full weight of a negative residual however large (C53_negative_full_weight) and bisquare exceeds 1. In the signed order Huber and trimmed mean are proved for all residuals (C53_huber, C53_trimmed_mean).
C54 | partial | Proved for every file system and crash point up to the opening of the project file; refuted: a crash while resistics.json is written leaves a directory that neither new() nor load() accepts; load() accepts a directory with only time/ (the check returns after the first sub-directory); a plain file named like a sub-directory.
C56 | proved | For projects as made by load() (shown to be so).
C57 | proved | -
C58 | partial | Round trip over every history of runs proved (JSON parser contract); names proved distinct for one transfer function and for plain names, refuted for case, space/underscore, variation/postfix and frequencies closer than 1e-6 Hz.
C60 | proved | Readers are arbitrary functions of the file system that may raise anything.
C61 | proved | -
C62 | partial | Complete and duplicate-free listings proved; exclusion of hidden files refuted (a hidden directory even becomes a site).
C64 | proved | datetime.now() is a parameter; a site without measurement gets the time of loading.
C22 | partial | Numpy round trip proved for consistent recordings of >= 2 samples (file formats as parameters with a round-trip contract); refuted for one sample (reader refuses) and for the ASCII writer/reader pair (file suffixes differ, universal refutation).
C55 | partial | Fresh directory proved; when overwriting, a crash between data and metadata file leaves old metadata with new data (proved to be the only mixture, and refuted universally). Time data likewise.
C65 | proved | Serialisers are parameters with a round-trip contract.
C66 | partial | The reader returns a memory map: correct as long as the file is unchanged; writing back to the same directory refuted.
C59 | partial | Round trip proved for all objects that validation/constructors make of data (field coercions are parameters that must be idempotent); refuted: validate pops 'name' from the caller's dictionary, a custom name breaks the round trip, a field declared for one class accepts every registered class.
C12 | partial | Heap model with all session histories. Proved for processors that keep the time axis, copy() and failing runs; refuted for Subsection/Resample/Decimate/ShiftTimestamps, all writers and Decimator, whose exact effect on every object is proved (shared History grows, channel data_files overwritten).
C67 | partial | Proved for sites with one measurement, Windower (not WindowerTarget), at least two channels, and no level exactly as long as its window (C36 refutes that case); C67_processable derives the hypotheses from the configuration. The general site is C49.
C68 | proved | A failing measurement changes nothing, and every measurement ends as if processed alone (C68_each_as_if_alone).
C69 | partial | Labels are proved to be the evaluation frequencies of the requested fs, and those of the data when the time processors keep fs; refuted for Resample/Decimate time processors (labels wrong by the factor; asking for the new fs raises ValueError).
C70 | partial | Proved for the default Windower; refuted for WindowerTarget, whose window sizes depend on the recording length.
C71 | proved | get_freq additionally drops axes of length one (np.squeeze), which the theorem states.
C72 | partial | Window sizes proved to be the largest whose increments fit target times into the level (exactly in exact arithmetic, up to 2^-50 relatively in every correctly rounded one), and never below min_size; the target number itself is refuted (100 samples, target 5: four windows).
C73 | partial | Proved up to 2^24 samples and for values float32 can hold; refuted for longer recordings (indices pass through float32: every recording of 2^24+2 samples shows its last value at the index before).
C74 | partial | Congruence modulo whole turns, range [-180,180) and independence proved for ExHx/ExHy, continuity and congruence for the others; the documented range [0,90] and independence for EyHx/EyHy are refuted.
C75 | proved | Every schedule and every stopping point; writing a file is a sequence of content changes by path; inputs are read before.
C76 | partial | Proved for results directories that exist and for different sites; refuted for every new results directory (exists and mkdir without exist_ok race: FileExistsError, solution lost), and for two runs on the same measurement (data and metadata of different runs).
C77 | proved | exact arithmetic; scikit-learn's fit is a parameter with a contract met by elimination
C78 | partial | proved when the quartiles of the residuals differ in every pass but the last; refuted otherwise (C78_units_refuted): RobustScaler then uses scale 1
C79 | partial | proved for every solver but Huber; SolverScikitHuber ignores fit_intercept (C79_huber_refuted)
C80 | proved | exact arithmetic; least squares contract met by Gaussian elimination (C50_ex_fit); concrete three-site project in C80_ex
C81 | partial | the substitution is the intended one for values without a dollar sign (C81_dollar_refuted otherwise); the default pattern gives coils of one type the same file (C81_coils_refuted), with the serial number in the pattern names are distinct if no sensor type contains an underscore (C81_underscore_refuted)
C82 | partial | proved for two or more channels and files as long as their metadata say; refuted: one channel gives a one dimensional array (get_chan returns one number), a short file is read without error with metadata that disagree, empty lines shift sample numbers. float() and the metadata parser are parameters
C83 | partial | proved for an output different from the source or at least one processor; refuted (C83_onto_itself_refuted) for output = source without processors: the writer empties the mapped file. File formats are parameters with round trip contracts
C84 | partial | proved for vectors with non-negative first component; for a negative one the angle is that of the opposite vector (C84_direction_refuted: opposite vectors have the same angle). Over real numbers; uses the standard library's axioms of Reals
C85 | partial | grouping, acceptance and names proved for all inputs; n_chans proved when it is left out and refuted when it is given (C85_counts_refuted: never compared with the channels)
C86 | partial | attosecond timestamps and levels proved; estimated timestamps (the default) only within k+1 ns and they drift without bound unless the period is a whole number of nanoseconds (C86_drift_refuted, C86_drift_4096_refuted); a negative level is accepted (C86_negative_level_refuted)
C87 | proved | exact arithmetic; the numerical routines are assumed linear (contract met by the example library linL) and the solver to be least squares; hypotheses met by a concrete two-output recording in C87_ex; C87_ex_multiply_one_channel shows a processor outside linear_proc breaking the relation
C88 | partial | counts given by the user are never compared with the lists: with one input channel and n_in = n the result is silently divided by n (C88_single_input_refuted), with n_out too large to_string is an IndexError; a generic transfer function without input channels is a KeyError, not a ValidationError; hypotheses met in C88_ex_*
C89 | partial | eleven levels or eleven groups exhaust the ten colours: StopIteration (C89_many_levels_refuted, C89_level_by_groups); a section of a single channel divides by zero; a section with a grouping containing no window, as for windows an hour apart with the default grouping of 30 minutes, is a ValueError; for the rest of the inputs the full statement; hypotheses met in C89_*_ex and _hyp
C90 | partial | proved for the default channels and for drawing into a figure with the figure's channels; choosing some of the channels is a KeyError and choosing another order draws a channel in the panel titled with another one (C90_some_channels_refuted, C90_order_refuted); eleven decimation levels are a StopIteration; hypotheses met in ex_recording, C90_*_ex
C91 | partial | proved for levels at or above n_levels, indices, windows, samples, channels, sites, measurements, paths, components, dictionaries; a negative level is a KeyError of get_level, but get_timestamps(-1) of spectra (and of decimated data, C86) answers with the last level's times (C91_negative_level_refuted); hypotheses met in C91_levels_ex, C91_spectra_holds, C91_negative_ex, C91_paths_ex, C91_selection_ex
C92 | proved | hypotheses met in C92_ex, C92_tf_ex, C92_view_ex, C92_unreadable_ex; win_size >= level size and WindowerTarget are C36 and C39
C93 | partial | proved; a reference time later than the last measurement by more than the recorded span is drawn outside the range (C93_late_reference_refuted); hypotheses met in C93_ex, C93_late_ex, C93_decimation_ex, C93_n_evals_ex
C94 | partial | proved for overwrite=True; with overwrite=False an attempt stopped after the directory was made can never be repeated (C94_no_overwrite_refuted); hypotheses met in C94_ex, C94_ex_time, C94_ex_solution, startedWritable
C95 | partial | proved for directories that could not be read before and for solutions; overwriting gives old metadata with new data in some order (C95_overwrite_refuted), and nothing worse (C95_overwrite_partial); one file is assumed to be read in one action; hypotheses met in C95_ex, C95_ex_solution, C75_ex
C96 | proved | for directories of the project other than time/ and the project file, which C96_paths shows for the paths the commands write to; the condition is needed (C96_time_refuted); hypotheses met in C96_ex
C97 | proved | C97_reference_refuted shows that the reference time has to move too; hypotheses met in C97_ex, C97_timestamps_ex
C98 | proved | without calibration data (C98_quick, C98_project) and with it (C98_calibrated, C98_calibrated_project; the channels to calibrate, when listed, are distinct); C98_one_channel_refuted shows that the recording needs a second channel; hypotheses met in C98_ex, C98_ex_project and C98_ex_calibrated
C99 | partial | proved for exact arithmetic and for sample aligned recordings at 2^p Hz in binary64; samples appended at the end: every correctly rounded arithmetic. C99_cut_at_start_refuted: at 3 Hz in binary64 cutting three samples moves a window by one sample. The spectra are those of the level that is not decimated (decimation filters the whole recording); time processors are covered by what they produce
C100 | partial | proved in exact arithmetic for linear numerical routines (C100_spectra, C100_least_squares, C100_unit_free; with sensor calibration C100_calibrated) when the cross channels share one factor; without it false: C100_cross_units_refuted. Add and ApplyFunction processors are excluded (not linear); rounding of the samples is not covered
C101 | partial | proved in exact arithmetic for linear numerical routines and least squares fits (C101_spectra, C101_least_squares); robust fits (Huber, RANSAC, Theil-Sen, MM) are not linear in the observations and are not claimed; rounding of the samples is not covered
C102 | proved | proved for every library routine, in the arithmetic of the library (C102_quick, C102_project for a site with one measurement); the names of the components have to be distinct (keys_distinct: see C52), and the solver to be a function of the equations (a random solver with another state gives another result)
C103 | proved | proved for every library routine, in the arithmetic of the library; with two measurements over the same windows the order does matter (C103_overlap_refuted)
C104 | partial | proved in exact arithmetic (C104_gain, C104_same_units; for commands on a project with one measurement: C104_gain_project, C104_same_units_project); the hypotheses on the complex division are met by the exact quotient (quotient_gain); rounding is not covered; hypotheses met in C104_ex_gain, C104_ex_same_units
C105 | proved | phases are rational and unwrapping is exact; np.absolute and np.angle are parameters; 'raises for any other level' means KeyError, where get_level raises ValueError; hypotheses met in C105_ex
