# A Rocq model of resistics

Everything is under `rocq/theories`.

* `Base/` library facts: results, rounding, float32, lists, `np.interp`, nd-arrays, complex numbers,
  Python string functions, decimal printing/parsing, a file system as a tree.
* `Model/` the functional model of the code.  Every definition cites the file and lines of /repo it models
  and says what it leaves out.
* `Spec/` small independent specifications (what a user would say).  They do not import the model unless
  they must name its data types.
* `Proofs/` all lemmas.
* `Props/` only the property theorems (`Theorem Cnn_...`, each closed by a short proof that applies a
  lemma), the non-vacuity examples beside them, and `Print Assumptions`.

Suffixes: `_refuted` the English property is *false* of the code, the theorem exhibits (or
universally describes) the failure; `_partial` only part of the English property is proved by that theorem.

`tools/manifest.py` writes MANIFEST.json from the theorem names and `tools/status.txt`;
`tools/design.py` writes the per property section below.

## Trusted base

* Coq 8.16.1's kernel (with `vm_compute` for closed computations) and `coqc`'s elaboration of the statements.
* `Print Assumptions` says **Closed under the global context** for every theorem in `Props/` except those of
  `Props/Tipper.v` (C84), which are about real numbers and use the four axioms of the standard library's Reals:
  `ClassicalDedekindReals.sig_not_dec`, `ClassicalDedekindReals.sig_forall_dec`,
  `FunctionalExtensionality.functional_extensionality_dep` and `Classical_Prop.classic`.  No other axiom is used.  (`vcheck` lists seven constants `Coq.ssr.ssrunder.Under_rel.*`: they
  come from the standard library's `ssrunder.v` module type, which is loaded by plugins; no theorem uses them.)
* The reading of Python, numpy, pydantic, attotime, pathlib and pandas semantics that the model encodes: it was
  written from the text of /repo and knowledge of those libraries, never by running them.
* The contracts of the oracles (next section): hypotheses of the theorems, visible in their statements.

## Modelling decisions

* **Exceptions are values**: `res A := Ok a | Err e`, with one constructor per Python exception class that the
  code can raise.
* **Numbers.** Python floats are rationals `Q` with an explicit rounding function `rnd : Q -> Q` applied after
  *every* floating point operation of the code.  `rnd` is a parameter: `exact` (identity, the "paper"
  algorithm) and `b64` (binary64 round-to-nearest-even on 53 bit significands, without exponent range) are the
  two instances.  Positive theorems are either for `exact` (then the note says so) or for every `rnd`
  satisfying `good_rnd` (fixes 53 bit numbers, relative error at most 2^-53), which covers both; refutations
  are for `b64`, the arithmetic the program really uses.  `Base/B32.v` adds float32.
* **Times.** `attodatetime` / `attotimedelta` are exact rationals (seconds); `Model/DateTime.v` has the calendar
  fields with 24 digits and a rest.  attotime keeps nanoseconds as `Decimal`; its 28 digit context is not
  modelled.
* **Arrays** are lists (of lists) or shaped nd-arrays (`Base/NdArray.v`); `np.empty` cells are `None`, or an
  arbitrary function in the theorems that say the content does not matter.
* **Object identity** matters only for metadata sharing (pydantic `copy()` is shallow): `Model/Alias.v` is a heap
  of shared cells and all session histories over it.
* **While loops** take fuel; running out is the separate result `Err OutOfFuel`, and termination is proved (or
  refuted for every fuel).
* **External numerics** (`sosfiltfilt`, `resample_poly`, `decimate`, `rfft`, `next_fast_len`, sklearn's fit,
  float parsing, JSON text, pickle) are oracles: function arguments of the theorems with the stated contract.
* **File system**: a finite tree; a program is a function `node -> list node * (node * res A)`, the list being
  every intermediate state, so a crash is any state of the trace.
* **Processes and configuration** (`Model/Process.v`): pydantic values, field types and the class registry.

## What is not modelled

* drawing (`plot.py` except downsampling; of the `plot` methods the curves and sections of TimeData, DecimatedData and SpectraData are modelled, the layout is not), command line output, logging text, `to_dataframe`;
* the floating point exponent range (overflow, subnormals), NaN except where the code treats it (C17);
* numerical quality of scipy / sklearn results, summation order in numpy reductions;
* multi-processing inside scipy / numpy;
* `resistics.testing` (data generators for the test-suite) and `errors.py` message texts.

## Findings

Statements users would rely on that are false of the code at this commit, each proved as `_refuted`:

1. C03, C30, C32, C39: sample/time and window/time conversions are off by one in binary64 (for example 256 Hz,
   sample 275; 50 Hz, window 128/32, window 9 missed; window table with `from_sample = -1`).
2. C06: datetimes finer than a yoctosecond (second sample at 3 Hz) are cut by the string form.
3. C12: Subsection, Resample, Decimate, ShiftTimestamps, all writers and Decimator change their *input's*
   History (shallow copy); writers overwrite the input's channel file names; level 0 of DecimatedData is the
   input's own array.
4. C18: adding the negative does not restore the data in binary64.  C19: ApplyFunction leaves channels it was not
   given uninitialised.  C20: ShiftTimestamps with float32 data loses precision from sample 2^23.
5. C22: a one sample recording can be written but never read; the ASCII writer's files (.ascii) are not found by
   the ASCII reader (.txt).
6. C24: Notch gives invalid band edges near the ends of the spectrum.
7. C26-C28: a decimation factor of 1 or a level without a positive frequency loops for ever; unsorted
   user frequencies give increment 0; a recording below `min_samples` raises KeyError.
8. C33: overlaps above half a window can make the window search fail.  C34: `get_global` adds the offset instead of
   subtracting it.  C35: window setups with overlap >= window.  C36: one channel or one window loses an axis
   (`np.squeeze`).  C37: WindowerTarget's stored windows give wrong times.  C38: fs list not truncated.
9. C42: the Gaussian smoother ignores `sigma`.
10. C44: one frequency and several windows raise ValueError in calibration; a channel listed twice is divided twice.
    C45: sensor and serial are lower-cased; a title line mentioning the sensor raises IndexError.
11. C48, C49, C51: gathering with no shared windows raises AttributeError; levels with fewer frequencies break
    project gathering (IndexError) or preparation (KeyError).
12. C52: component keys are concatenated without separator and can collide.  C53: bisquare weights of large
    negative residuals exceed 12, and Huber and trimmed mean give them the full weight 1 (missing absolute value).
13. C54: a crash while `resistics.json` is written leaves a directory neither `new` nor `load` accepts; `load`
    only checks the first sub-directory.  C55: overwriting data crash-inconsistently mixes old and new.
14. C58: solution names collide.  C59: `validate` pops `name` from the caller's dictionary; custom names
    break the round trip; a field declared for one class accepts any registered class.
15. C62: hidden files are listed and a hidden directory becomes a site.
16. C66: the numpy reader returns a memory map; writing back to the same directory destroys the data.
17. C69: with Resample or Decimate among the time processors `process_evals_to_tf` labels the solution with
    frequencies of the recording's fs, not those the data were evaluated at; the new fs raises ValueError.
18. C70: WindowerTarget gives recordings of different length different windows; intersite and remote
    reference processing then combine windows of different times.
19. C72: WindowerTarget generates fewer windows than its target although the minimum size is not reached (the last
    window has no room: about overlap/(1-overlap) windows are missing).
20. C73: plots of recordings longer than 2^24 samples show values at wrong indices and times (indices are converted
    to float32).  C74: the documented range [0, 90] of ExHx/ExHy phases does not hold; EyHx/EyHy phases depend on the
    values at other frequencies.
21. C76: two transfer function runs for one site at the same time: `exists()` then `mkdir(parents=True)` without
    `exist_ok` (letsgo.py 802-803) fails with FileExistsError in one of them when the results directory is new.
22. C78: SolverScikitWLS depends on the units of the observations when at least half of the absolute residuals are
    equal around the quartiles (RobustScaler then divides by 1, and the threshold 2 is absolute).  C79:
    SolverScikitHuber drops `fit_intercept` (regression.py 921), HuberRegressor's default is an intercept.
23. C81: with the default `file_str` two coils of one sensor type are calibrated with the same file (the serial
    number is not in the name); with `$sensor_$serial$extension` the names of (MFS, 06_1) and (MFS_06, 1) coincide;
    a sensor name containing `$serial` is substituted a second time.
24. C82: TimeReaderAscii returns a one dimensional array for a recording of one channel (`np.loadtxt` squeezes), so
    `get_chan` returns a single number; a file shorter than its metadata is read without an error, with metadata
    claiming the full length; an empty line between samples shifts the numbers of all later samples when reading a range.
25. C83: `process_time` without processors onto its own measurement destroys the data: the reader returns a memory map of
    `data.npy` and the writer truncates that file before it copies the map.
26. C84: the tipper angles use `arctan(y / x)` and lose the quadrant: a vector and its opposite have the same angle, so for
    Re(HzHx) < 0 the reported direction is off by 180 degrees; the range is [-90, 90] only.
27. C85: an explicitly given `n_chans` (likewise `n_in`, `n_out`, `n_cross` of transfer functions) is never compared with the list
    it counts.
28. C86: `get_timestamps(estimate=True)`, the default, rounds the period to whole nanoseconds and multiplies: at 4096 Hz the
    timestamps are half a sample late after 80 s and 543 samples late after a day. `DecimatedData.get_timestamps(-1)` answers for the last level where `get_level(-1)` raises.
29. C88: a transfer function with one input channel and a stale n_in = n (kept by a copy or an edited dictionary) gives, without an error, the transfer function divided by n: the assignment of the predictors broadcasts the channel n times (regression.py 604-607)
30. C36: WindowerTarget does not compare the number of windows with the table: when rounding puts the first window one sample before
    the data (C30) it stores no windows under metadata that claim seven; Windower raises ProcessRunError there.
31. C10, C11: Subsection from the first to the last time of a recording can lose the last sample (30 samples at 50 Hz give 29): `to_n_samples`
    floors a product that rounding put below the sample number; repeating it loses further samples.
32. C89: SpectraData.plot of eleven or more decimation levels, and plot_level_stack with eleven or more groups (hourly groups over half a day), raise StopIteration: the ten Plotly colours are an iterator (spectra.py 197, 253).
33. C89: plot_level_section is a ZeroDivisionError for data of one channel (line 338) and a ValueError when a grouping interval contains
    no window, as for windows more than an hour apart with the default of 30 minutes (not-a-number reaches np.arange in line 350).
34. C90: TimeData.plot(chans=...) without a figure titles the panels with all recorded channels but numbers the curves by position in chans (time.py 682, 698): fewer channels are a KeyError, another order shows channels under wrong titles. DecimatedData.plot of more than ten levels is a StopIteration (decimate.py 691).
35. C91: SpectraData.get_timestamps(-1) answers with the window times of the last level (spectra.py 165-175 only checks the upper end) although get_level(-1) raises KeyError.
36. C93: plot_timeline (plot.py 110-128) extends the x range to an earlier reference time but not to a later one: a project whose reference time lies after its measurements is drawn without its reference line.
37. C94: a writer with overwrite=False makes the directory first and the files afterwards (common.py 916-933): an attempt interrupted in between leaves a directory that cannot be read and every repetition is refused with a WriteError until the directory is removed by hand.
38. C95: while spectra are being overwritten a reader may combine the old metadata with the new data without an error (the writers replace two files one after another, spectra.py 785-793): the same mixture as after a crash (C55).
39. A recording of one channel alone cannot give a transfer function of that channel: the windowed array loses its channel axis and quick_tf raises ValueError; recorded beside any second channel it works (C98_one_channel_refuted, see C36).
40. In binary64 the samples of a window depend on where the recording starts: at 3 Hz, window 1 starts at sample 12 of a recording, but at sample 11 of it once its first three samples are cut off (C99_cut_at_start_refuted).
41. The equations of a transfer function are weighted by the cross channels: with Hx and Hy (the default cross channels) in different units, or with a gain on one of them, quick_tf gives another transfer function, not the same one in other units (C100_cross_units_refuted).

## Tests of the theorems against wrong programs

`seeded/LOG.jsonl`: one line per edited model, with the theorems that stopped proving.  The edits are made in a
scratch copy and every file is rebuilt with `make -k`, so all failing theorems are listed (a theorem counts as failed
also when a lemma it rests on fails).

## Per property: model, proof, result

<!-- table -->

### C01 From time maps to the first sample at or after it (partial)

* Model: Sampling.v: from_time_to_sample, to_n_samples, to_timedelta
* Proof: ceil of an exact quotient; relative error propagation for good_rnd
* Theorems: `C01_from_time_exact`, `C01_from_time_float_partial`, `C01_edges`
* Result: Proved for exact arithmetic whenever to_timedelta does not truncate the period; for every correctly rounded arithmetic (binary64) proved off by at most one sample; the exact statement is false in binary64 (see C03_roundtrip_b64_refuted).

### C02 To time maps to the last sample at or before it (partial)

* Model: Sampling.v: to_time_to_sample
* Proof: floor of an exact quotient; relative error propagation
* Theorems: `C02_to_time_exact`, `C02_to_time_float_partial`, `C02_edges`
* Result: As C01, for to_time_to_sample.

### C03 Sample to datetime to sample is the identity (partial)

* Model: Sampling.v: sample_to_datetime + C01/C02
* Proof: composition; vm_compute counter-examples in binary64; dyadic argument for 2^p
* Theorems: `C03_roundtrip_exact`, `C03_roundtrip_b64_pow2_partial`, `C03_roundtrip_b64_refuted`, `C03_roundtrip_truncation_refuted`, `C03_round_method_robust`
* Result: False in binary64 (refuted at fs=256 Hz sample 275 and fs=50 Hz sample 29) and for periods truncated by the 0.0001 ns rule; proved in exact arithmetic, in binary64 for fs = 2^p, p <= 7, and for the method "round" in every correctly rounded arithmetic.

### C04 Timedelta conversion loses less than 0.0001 ns and only downwards (proved)

* Model: Sampling.v: to_timedelta, to_seconds
* Proof: integer truncation bounds
* Theorems: `C04_to_timedelta_exact`, `C04_to_seconds_exact`, `C04_to_timedelta_rounded`, `C04_to_seconds_rounded`
* Result: Exact arithmetic; for every correctly rounded arithmetic to_timedelta is within 1.01e-13 s of its argument and to_seconds within 2e-11 s of any time delta, also negative.

### C05 to_n_samples rounding methods (proved)

* Model: Sampling.v: to_n_samples
* Proof: floor / ceil / half-even characterisations
* Theorems: `C05_to_n_samples`, `C05_methods_ordered`, `C05_within_one_of_exact`
* Result: Exact arithmetic; ordering of methods for every rounding; for every correctly rounded arithmetic (fs <= 1 MHz, up to 2^49 samples) at most one away from the exact answer.

### C06 Datetime strings round trip (proved)

* Model: DateTime.v: datetime_to_string, string_to_datetime, HighResDateTime.validate
* Proof: decimal printer/parser inversion (Base/Dec.v), calendar of the proleptic Gregorian year
* Theorems: `C06_round_trip`, `C06_distinct`, `C06_same_string_same_moment`, `C06_calendar_order`, `C06_metadata_field`, `C06_accepted_is_date`, `C06_format`, `C06_other_strings`, `C06_timestamp`, `C06_finer_is_cut`, `C06_third_of_a_second_refuted`, `C06_year_below_1000_refuted`
* Result: Years 1000 to 9999. Also: a datetime finer than a yoctosecond (e.g. the second sample of a 3 Hz recording) is cut, C06_finer_is_cut and C06_third_of_a_second_refuted; below year 1000 the string is not read back on glibc.

### C07 Timestamp arrays agree with per-sample conversion (proved)

* Model: Sampling.v: datetime_array (+estimate)
* Proof: induction on the array, pointwise equality with sample_to_datetime
* Theorems: `C07_datetime_array`, `C07_datetime_array_samples`, `C07_times`, `C07_increasing`, `C07_increasing_rounded`
* Result: For every rounding; strict increase in exact arithmetic for fs <= 10^13 Hz.

### C08 Requested read ranges are valid or rejected (proved)

* Model: Sampling.v, Time.v: check_sample, _get_read_samples
* Proof: range analysis with 2^49 bound on float error
* Theorems: `C08_read_range_valid`, `C08_samples_outside_rejected`, `C08_samples_inside_accepted`
* Result: For every correctly rounded arithmetic (binary64 included) and recordings below 2^49 samples.

### C09 A partial read is a slice with matching metadata (proved)

* Model: Time.v: TimeReader.run / numpy data slice
* Proof: list slicing lemmas
* Theorems: `C09_partial_read_is_slice`, `C09_slice_entries`
* Result: TimeReaderNumpy; for every rounding.

### C10 Subsection selects exactly the samples in the closed time interval (partial)

* Model: Time.v: Subsection.run
* Proof: C01 + C02 + slice
* Theorems: `C10_subsection_closed_interval`, `C10_subsection_rounded`, `C10_end_lost_refuted`
* Result: As stated in exact arithmetic (period not truncated by to_timedelta). Every correctly rounded arithmetic: exact up to samples whose nominal time is within 2^-50 of the elapsed time of an end of the interval, and the first sample is never lost; refuted at the ends (C10_end_lost_refuted: 30 samples at 50 Hz, the whole range has 29).

### C11 Subsections compose (partial)

* Model: Time.v: Subsection.run twice
* Proof: arithmetic on offsets; same code path as a partial read
* Theorems: `C11_subsections_compose`, `C11_subsection_is_partial_read`, `C11_compose_b64_refuted`
* Result: Composition in exact arithmetic, refuted in binary64 (C11_compose_b64_refuted); equality with a partial read for every rounding.

### C12 Processors do not modify their input (partial)

* Model: Alias.v: heap of History / ChanMetadata / array cells, every copy() is shallow
* Proof: induction over session histories, frame lemmas
* Theorems: `C12_processors_partial`, `C12_copy`, `C12_failure_changes_nothing`, `C12_adjusting_effect`, `C12_adjusting_refuted`, `C12_branches_refuted`, `C12_chain`, `C12_writer_effect`, `C12_writer_refuted`, `C12_writer_others`, `C12_level_writer_refuted`, `C12_decimator_effect`, `C12_level0_shared_refuted`
* Result: Heap model with all session histories. Proved for processors that keep the time axis, copy() and failing runs; refuted for Subsection/Resample/Decimate/ShiftTimestamps, all writers and Decimator, whose exact effect on every object is proved (shared History grows, channel data_files overwritten).

### C13 History is append only and records every process once (proved)

* Model: Time.v: all processors
* Proof: every run appends exactly one record; induction over a pipeline
* Theorems: `C13_run`, `C13_calibrated`, `C13_history_append_only`
* Result: For every rounding and oracle.; C13_run, C13_calibrated: the history of a whole run

### C14 Decimation factor decomposition (proved)

* Model: Time.v: prime_factorisation, get_downsample_factors
* Proof: loop invariant, product and primality
* Theorems: `C14_downsample_factors`, `C14_prime_factorisation`
* Result: isqrt is an oracle with its defining inequality.

### C15 Decimating or resampling keeps metadata and data in step (proved)

* Model: Time.v: Decimate, Resample
* Proof: length contracts of the scipy oracles
* Theorems: `C15_decimate_metadata`, `C15_decimate_last_time`, `C15_decimate_last_time_rounded`, `C15_resample_metadata`
* Result: Shape contracts of scipy decimate/resample_poly are hypotheses (good_oracles). last_time <= original in exact arithmetic, and up to 2.04*10^-13 s + 5*2^-53 periods per sample in every correctly rounded one (C15_decimate_last_time_rounded). The sampling frequency written by Resample is the requested one although the data has the limit_denominator ratio: both are in the statement.

### C16 Removing the mean (proved)

* Model: Time.v: RemoveMean
* Proof: sums over Q
* Theorems: `C16_remove_mean`, `C16_remove_mean_rounded`, `C16_remove_mean_idempotent`
* Result: In exact arithmetic, and with an error bound in p bit arithmetic (float32, float64) for summation from left to right (C16_remove_mean_rounded; numpy's pairwise order is not modelled).

### C17 NaN interpolation is complete and conservative (proved)

* Model: Time.v: InterpolateNans, Base/Interp.v (np.interp)
* Proof: induction over the knots
* Theorems: `C17_nans_filled`, `C17_fills_lie_between`, `C17_fails_iff_all_nan`, `C17_idempotent`
* Result: np.interp evaluated exactly.

### C18 Add and Multiply act per channel (partial)

* Model: Time.v: Add, Multiply
* Proof: pointwise; binary64 counter-example
* Theorems: `C18_add_per_channel`, `C18_multiply_per_channel`, `C18_unnamed_channels_identical`, `C18_add_negative_restores_exact`, `C18_add_negative_restores_refuted`
* Result: Per channel effect for every rounding; restoring by adding the negative proved exactly and refuted in binary64.

### C19 ApplyFunction only touches the channels given (partial)

* Model: Time.v: ApplyFunction with np.empty cells
* Proof: None cells remain
* Theorems: `C19_named_channels_partial`, `C19_accepted`, `C19_unnamed_channels_refuted`
* Result: Named channels proved; the claim for the other channels is false of the code (np.empty), proved as a refutation for every input.

### C20 Shifting timestamps interpolates linearly (partial)

* Model: Time.v: ShiftTimestamps; Base/B32.v for float32
* Proof: uniform grid interpolation; vm_compute in float32
* Theorems: `C20_shift_is_linear_exact`, `C20_large_shift_rejected`, `C20_accepted`, `C20_shift_rounded`, `C20_precisions`, `C20_shift_float32_refuted`
* Result: Exact in exact arithmetic; in rounded arithmetic of any precision p within (k+15) 2^(1-p) of the values when the shift is at least n 2^(1-p) samples (C20_shift_rounded; float64 p=53, float32 p=24); refuted below that: with float32 data (the readers' default dtype) the shift is lost from sample 2^23.

### C21 Channel get and set laws (proved)

* Model: Time.v: TimeData get/set
* Proof: list update lemmas
* Theorems: `C21_set_then_get`, `C21_set_accepts_iff`, `C21_get_returns_row`
* Result: Values, not object identity.

### C22 Time data written can be read back (partial)

* Model: Persist.v: Time writers and readers on the file tree
* Proof: trace semantics of writes then read
* Theorems: `C22_numpy_round_trip`, `C22_no_overwrite`, `C22_one_sample_refuted`, `C22_ascii_refuted`
* Result: Numpy round trip proved for consistent recordings of >= 2 samples (file formats as parameters with a round-trip contract); refuted for one sample (reader refuses) and for the ASCII writer/reader pair (file suffixes differ, universal refutation).

### C23 Metadata stays self-consistent through any pipeline (proved)

* Model: Time.v: any list of processors
* Proof: invariant by induction over the pipeline
* Theorems: `C23_pipelines_keep_consistency`
* Result: For every correctly rounded arithmetic; recordings below 2^49 samples; shape contracts for the scipy routines.

### C24 Filter cutoffs handed to the filter designer are valid (partial)

* Model: Time.v: LowPass/HighPass/BandPass/Notch argument computation
* Proof: bounds under good_rnd; counter-examples
* Theorems: `C24_low_high_band_pass_valid`, `C24_invalid_rejected`, `C24_cutoff_values`, `C24_filters`, `C24_notch_partial`, `C24_notch_refuted`
* Result: Low/high/band pass proved for every correctly rounded arithmetic; notch proved for every correctly rounded arithmetic away from the ends with Nyquist >= 1 Hz, and refuted otherwise.

### C25 Evaluation frequencies (proved)

* Model: Decimate.v: get_eval_freqs_*
* Proof: induction over the number of frequencies
* Theorems: `C25_eval_freqs_by_number`, `C25_eval_freqs_by_minimum`, `C25_eval_freqs_reject`
* Result: For every correctly rounded arithmetic; np.power(2, i/2) is a parameter with a 2^-50 accuracy contract; the value 2^(-i/2) is stated on squares.

### C26 Decimation factor search terminates and is optimal (partial)

* Model: Decimate.v: while loop with fuel
* Proof: loop invariant, optimality; non-termination for every fuel
* Theorems: `C26_factor_optimal_exact`, `C26_factor_optimal_two`, `C26_factor_near_optimal`, `C26_terminates_refuted`
* Result: Optimal in exact arithmetic for every divisor >= 2 and in binary64 for divisor 2 (the default); otherwise optimal up to rounding. Termination is false for div_factor = 1 and for levels without a positive frequency (refuted).

### C27 Incremental factors multiply to total factors (partial)

* Model: Decimate.v: DecimationSetup.run increments
* Proof: products of ratios
* Theorems: `C27_increments_multiply`, `C27_default_frequencies_descend`, `C27_decimated_fs`, `C27_increments_refuted`
* Result: Proved for the default frequencies and for user frequencies whose level maxima descend; false otherwise (refuted: increment 0).

### C28 Decimator levels (partial)

* Model: Decimate.v: Decimator.run loop
* Proof: loop invariant over levels
* Theorems: `C28_decimator_levels`, `C28_level_fs_exact`, `C28_level_fs_rounded`, `C28_level_fs_two`, `C28_resample_ratio`, `C28_short_recording_refuted`
* Result: Proved for both modes under the scipy / Fraction contracts; a recording with fewer than min_samples samples raises KeyError instead of giving zero levels (refuted part).

### C29 Evaluation frequency lookup (proved)

* Model: Decimate.v: DecimationParameters
* Proof: list indexing
* Theorems: `C29_frequency_lookup`, `C29_levels_partition`, `C29_bad_level_rejected`, `C29_setup_size`
* Result: as stated

### C30 Windows lie inside the data (partial)

* Model: Window.v: get_win_table
* Proof: bounds for every row, counter-example in binary64
* Theorems: `C30_windows_inside_data`, `C30_windows_inside_data_rounded`, `C30_windows_inside_data_refuted`
* Result: Exact arithmetic and binary64 with 2^p <= 128 Hz aligned recordings: all of it. Every correctly rounded arithmetic (fs <= 1 MHz, windows up to 10^6, up to 2^47 samples after the reference): all of it except 0 <= from_sample, which is -1 <= from_sample, and 0 <= from_sample when the first window starts a quarter sample after the first sample or later; refuted in binary64 (a 1 ns shift gives from_sample = -1).

### C31 Global window index denotes the same absolute time everywhere (proved)

* Model: Window.v: global offset + index
* Proof: time of row = reference + index * increment within tolerance
* Theorems: `C31_global_index_time`, `C31_global_index_time_rounded`, `C31_same_window_two_recordings`, `C31_table_times`
* Result: Exact arithmetic and binary64 with 2^p <= 128 Hz aligned recordings: as stated. Every correctly rounded arithmetic (fs <= 1 MHz, windows up to 10^6, up to 2^47 samples after the reference): within 5/4 of a sample before and 1/4 after, and two recordings less than 3/2 samples apart. Table times in nanoseconds for every rounding with period 1/fs.

### C32 No complete window is missed (partial)

* Model: Window.v: get_first_and_last_win
* Proof: search loop characterised as first complete window
* Theorems: `C32_exactly_the_complete_windows`, `C32_table_complete`, `C32_complete_windows_rounded`, `C32_last_window_complete`, `C32_first_window_within_one`, `C32_no_window_missed_refuted`
* Result: As stated in exact arithmetic and binary64 with 2^p <= 128 Hz aligned recordings. Every correctly rounded arithmetic: exact at the end of the recording; at the start with a tolerance of a quarter sample. Exactness at the start is refuted in binary64 (50 Hz, 128/32: window 9 missed).

### C33 Window search never fails for valid overlaps (partial)

* Model: Window.v: get_first_and_last_win
* Proof: termination of the backward search, family of failures
* Theorems: `C33_search_succeeds_half_overlap`, `C33_search_succeeds_rounded`, `C33_search_fails_refuted`
* Result: Proved for 2*olap <= win_size + 1 (every correctly rounded arithmetic: 2*olap <= win_size); false for larger overlaps (refuted for every such configuration in a family).

### C34 Access by global window index (partial)

* Model: Window.v: WindowedData.get_local / get_global
* Proof: direct, universal refutation
* Theorems: `C34_get_local`, `C34_get_global_from_reference`, `C34_get_global_refuted`
* Result: get_local proved; get_global is false of the code (adds the offset instead of subtracting it): refuted for every data set with a non-zero offset.

### C35 Window setup yields usable sizes (partial)

* Model: Window.v: WindowSetup, WindowerTarget sizes
* Proof: bounds
* Theorems: `C35_setup_sizes`, `C35_setup_usable`, `C35_default_window_sizes`, `C35_default_overlaps`, `C35_default_overlaps_rounded`, `C35_accepted`, `C35_short_lists_rejected`, `C35_usable_refuted`
* Result: Sizes, counts and rejection proved; 0 < overlap < window only under the stated conditions on parameters, refuted otherwise.

### C36 Window contents (partial)

* Model: Window.v + Base/NdArray.v: sliding_window_view, squeeze
* Proof: array shape algebra
* Theorems: `C36_window_contents`, `C36_window_contents_target`, `C36_window_contents_rounded`, `C36_target_no_windows_refuted`, `C36_one_channel_refuted`, `C36_one_window_refuted`
* Result: Proved for >= 2 channels and >= 2 windows, for Windower in every correctly rounded arithmetic; false for one channel or one window (np.squeeze drops the axis), refuted; WindowerTarget may have no windows where its metadata says seven (refuted in binary64).

### C37 Window timestamps from stored metadata (partial)

* Model: Window.v: _get_level_metadata, window_to_datetime
* Proof: equality of two formulas
* Theorems: `C37_window_times_from_metadata`, `C37_target_times_refuted`, `C37_target_reference`
* Result: Proved for Windower; false for WindowerTarget (refuted).

### C38 Windowed metadata lists agree (partial)

* Model: Window.v: WindowedMetadata
* Proof: loop invariant over levels
* Theorems: `C38_levels_agree`, `C38_fs_list_refuted`
* Result: All lists agree except fs, which is not truncated (refuted).

### C39 Window index and datetime are inverse (partial)

* Model: Window.v: datetime_to_window, window_to_datetime
* Proof: as C01-C03
* Theorems: `C39_index_time_inverse_exact`, `C39_index_time_inverse_pow2`, `C39_index_time_inverse_round`, `C39_before_reference_raises`, `C39_floor_ceil_refuted`
* Result: Exact arithmetic, power of two increments in binary64 and method round in every rounding; floor and ceil refuted in binary64.

### C40 Evaluation frequency interpolation (proved)

* Model: Spectra.v: EvaluationFreqs + np.interp
* Proof: interpolation lemmas, grid bounds
* Theorems: `C40_interpolation`, `C40_total`, `C40_grid`, `C40_grid_covers`, `C40_grid_rounded`, `C40_grid_covers_rounded`, `C40_below_nyquist`
* Result: Exact arithmetic for the interpolation, exact and every correctly rounded arithmetic for the frequency grid (C40_grid_rounded, C40_grid_covers_rounded); the Nyquist bound for every correctly rounded arithmetic.

### C41 Smoothing length (proved)

* Model: Spectra.v: smooth length
* Proof: parity
* Theorems: `C41_smooth_length_odd`, `C41_smooth_length_value`, `C41_uniform_smoother`
* Result: For every rounding; scipy's filter is a parameter.

### C42 Gaussian smoothing uses sigma (partial)

* Model: Spectra.v: SpectraSmootherGaussian
* Proof: shows the passed width
* Theorems: `C42_gaussian_width`, `C42_gaussian_uses_sigma_refuted`
* Result: False of the code (the literal 1 is passed instead of sigma): proved that the width is always 1, and refuted.

### C43 Calibration reader precedence and isolation (proved)

* Model: Calibrate.v: SensorCalibrator._get_calibrator
* Proof: search order; error isolation per channel
* Theorems: `C43_first_reader`, `C43_no_reader`, `C43_isolation`
* Result: Well-formed calibration tables, distinct channel names; readers are arbitrary functions.

### C44 Calibration divides each coefficient by the interpolated response (partial)

* Model: Calibrate.v: calibrate arrays
* Proof: pointwise division, broadcasting rules of numpy for 2/3 dims
* Theorems: `C44_run`, `C44_single_frequency_refuted`, `C44_duplicate_channel_refuted`
* Result: Proved for every shape except one frequency with several windows, where it is refuted (ValueError); refuted when the configuration names a channel twice.

### C45 Calibration text files (partial)

* Model: Calibrate.v: SensorCalibrationTXT
* Proof: string functions on lines
* Theorems: `C45_rows`, `C45_header`, `C45_sensor_case_refuted`, `C45_title_line_refuted`
* Result: Rows and header values proved for every readable file (float parsing and pandas sorting are parameters); refuted: sensor and serial are lower-cased, a title line mentioning the sensor raises IndexError.

### C46 Site windows are assigned to the first measurement containing them (proved)

* Model: Gather.v: SiteCombinedMetadata / table of windows
* Proof: fold over measurements
* Theorems: `C46_site_windows`, `C46_site_windows_total`
* Result: Order of measurements as given by the site.

### C47 Selected windows are those shared by all sites (proved)

* Model: Gather.v: Selector.run
* Proof: set intersection by merging sorted lists
* Theorems: `C47_selection`, `C47_site_names`, `C47_eval_wins`
* Result: Reading an evals directory is a total function per measurement (data or error).

### C48 Gathered rows are aligned and complete (proved)

* Model: Gather.v: ProjectGather.run with np.empty cells
* Proof: loop invariant over measurements; independent of np.empty contents
* Theorems: `C48_aligned_rows`, `C48_no_shared_windows`
* Result: For every content of np.empty; hypothesis: evaluation data as written by resistics, distinct measurement names, at least one shared window (without one: AttributeError, also proved).

### C49 Quick and project processing agree (partial)

* Model: Gather.v: QuickGather vs ProjectGather
* Proof: equality of two runs
* Theorems: `C49_quick_agrees`, `C49_fewer_frequencies_refuted`
* Result: Proved when every level has per_level frequencies and at least one window; with fewer frequencies the project gathering raises IndexError where the quick one succeeds (refuted).

### C50 Regression equations encode the complex transfer function (proved)

* Model: Regression.v: preparers; Base/Cplx.v
* Proof: real/imag row equations equivalent to the complex system
* Theorems: `C50_equivalent_systems`, `C50_generated_data`, `C50_end_to_end`
* Result: Exact rational arithmetic; the layout theorems hold for an arbitrary complex product and for every content of np.empty; the fit is an oracle with the least-squares contract in the end-to-end theorem.

### C51 Both regression preparers agree (partial)

* Model: Regression.v: both preparers
* Proof: equality of two runs
* Theorems: `C51_preparers_agree`, `C51_short_level_refuted`
* Result: Proved when every level but the last has per_level frequencies and every level has a window; refuted: with a shorter level in the middle the gathered data cannot be prepared (KeyError).

### C52 Solution lookup (partial)

* Model: Regression.v: Solution.get_*
* Proof: association list with concatenated keys
* Theorems: `C52_lookup`, `C52_equal_lengths`, `C52_collision_refuted`
* Result: Proved when the concatenated component keys are distinct (shown for output names of equal length); refuted: "a"+"bc" = "ab"+"c" overwrites a component.

### C53 Robust weights (partial)

* Model: Regression.v: weight functions
* Proof: bounds and monotonicity over Q
* Theorems: `C53_bisquare_partial`, `C53_huber`, `C53_trimmed_mean`, `C53_bisquare_refuted`, `C53_by_size_partial`, `C53_signed_refuted`, `C53_negative_full_weight`
* Result: proved for non-negative residuals and every rounding (C53_by_size_partial); for residuals of either sign refuted for all three functions (C53_signed_refuted): the code omits the absolute value, so Huber and trimmed mean keep the full weight of a negative residual however large (C53_negative_full_weight) and bisquare exceeds 1. In the signed order Huber and trimmed mean are proved for all residuals (C53_huber, C53_trimmed_mean).

### C54 Creating and loading projects (partial)

* Model: Letsgo.v: new, load; Base/FileSys.v
* Proof: trace of atomic steps, every crash prefix
* Theorems: `C54_new_then_load`, `C54_refuses_existing`, `C54_crash_partial`, `C54_crash_refuted`, `C54_load_refuses_partial`, `C54_subdirs_refuted`, `C54_plain_file_refuted`
* Result: Proved for every file system and crash point up to the opening of the project file; refuted: a crash while resistics.json is written leaves a directory that neither new() nor load() accepts; load() accepts a directory with only time/ (the check returns after the first sub-directory); a plain file named like a sub-directory.

### C55 Data directories are crash consistent (partial)

* Model: Persist.v: writers
* Proof: every prefix of the write trace
* Theorems: `C55_fresh_directory`, `C55_overwrite_partial`, `C55_overwrite_refuted`, `C55_time_partial`, `C55_time_refuted`
* Result: Fresh directory proved; when overwriting, a crash between data and metadata file leaves old metadata with new data (proved to be the only mixture, and refuted universally). Time data likewise.

### C56 Concurrent sites (proved)

* Model: Project.v: get_concurrent
* Proof: interval overlap
* Theorems: `C56_concurrent`, `C56_symmetric`, `C56_loaded`
* Result: For projects as made by load() (shown to be so).

### C57 Sampling frequency grouping (proved)

* Model: Project.v: fs grouping
* Proof: sets of frequencies
* Theorems: `C57_site_fs`, `C57_measurements`, `C57_partition`, `C57_project_fs`, `C57_get_sites`
* Result: as stated

### C58 Solutions are stored under distinct names and found again (partial)

* Model: Letsgo.v, Project.v: solution file names, run histories
* Proof: injectivity of the name function, induction over histories
* Theorems: `C58_names_of_one_tf`, `C58_names_partial`, `C58_collision_refuted`, `C58_history`, `C58_returns`, `C58_new_project`
* Result: Round trip over every history of runs proved (JSON parser contract); names proved distinct for one transfer function and for plain names, refuted for case, space/underscore, variation/postfix and frequencies closer than 1e-6 Hz.

### C59 Processes round trip through dictionaries (partial)

* Model: Process.v: registry, validators, dictionaries
* Proof: mutual induction over nested values
* Theorems: `C59_round_trip`, `C59_tf_round_trip`, `C59_validated`, `C59_constructed`, `C59_configuration`, `C59_dictionary_untouched_refuted`, `C59_tf_dictionary_untouched_refuted`, `C59_custom_name_refuted`, `C59_custom_name_other_class`, `C59_custom_tf_name_refuted`, `C59_declared_class_refuted`
* Result: Round trip proved for all objects that validation/constructors make of data (field coercions are parameters that must be idempotent); refuted: validate pops 'name' from the caller's dictionary, a custom name breaks the round trip, a field declared for one class accepts every registered class.

### C60 Reader fallback (proved)

* Model: Letsgo.v, Time.v: reader search
* Proof: first match over reader list
* Theorems: `C60_quick_read`, `C60_quick_read_fails`, `C60_measurement`, `C60_no_measurement`
* Result: Readers are arbitrary functions of the file system that may raise anything.

### C61 Project data paths never collide (proved)

* Model: Project.v: path functions
* Proof: injectivity
* Theorems: `C61_paths`
* Result: as stated

### C62 Directory listings exclude hidden files (partial)

* Model: Project.v: get_dir_contents etc.
* Proof: filter lemmas, counter-example
* Theorems: `C62_listing_partial`, `C62_hidden_refuted`
* Result: Complete and duplicate-free listings proved; exclusion of hidden files refuted (a hidden directory even becomes a site).

### C63 Spectra keep the window bookkeeping (proved)

* Model: Spectra.v: FourierTransform.run
* Proof: metadata equality per level
* Theorems: `C63_fourier_bookkeeping`, `C63_evals_timestamps`
* Result: next_fast_len and the FFT are parameters; rfft's output length n//2+1 is a hypothesis.

### C64 A loaded project mirrors its time directory (proved)

* Model: Letsgo.v: load_project
* Proof: fold over the directory tree
* Theorems: `C64_load`
* Result: datetime.now() is a parameter; a site without measurement gets the time of loading.

### C65 Level data written can be read back (proved)

* Model: Persist.v: level data writers / readers
* Proof: round trip on traces
* Theorems: `C65_level_data_round_trip`, `C65_no_overwrite`
* Result: Serialisers are parameters with a round-trip contract.

### C66 Data read from disk is a snapshot (partial)

* Model: Persist.v: memory-mapped reads
* Proof: view as a pointer into the file
* Theorems: `C66_snapshot_partial`, `C66_write_back_refuted`
* Result: The reader returns a memory map: correct as long as the file is unchanged; writing back to the same directory refuted.

### C67 A project run gives what a quick run gives (partial)

* Model: Pipeline.v: quick_tf, process_time_to_evals, process_evals_to_tf on a store of evaluation data
* Proof: relate the single measurement gather to quick_gather through the shapes of all stages
* Theorems: `C67_project_equals_quick`, `C67_processable`, `C67_keeps_fs`
* Result: Proved for sites with one measurement, Windower (not WindowerTarget), at least two channels, and no level exactly as long as its window (C36 refutes that case); C67_processable derives the hypotheses from the configuration. The general site is C49.

### C68 Order and repetition of processing commands are irrelevant (proved)

* Model: Pipeline.v: run_session over command lists
* Proof: store lookup after a session depends only on the set of commands
* Theorems: `C68_session_order_irrelevant`, `C68_each_as_if_alone`
* Result: A failing measurement changes nothing, and every measurement ends as if processed alone (C68_each_as_if_alone).

### C69 Solutions are labelled with the frequencies their data were evaluated at (partial)

* Model: Pipeline.v: dec_params_of for the requested fs against those of the evaluation data
* Proof: follow the evaluation frequencies through the stages; counterexample by vm_compute
* Theorems: `C69_solution_labels`, `C69_labels_are_evaluated_partial`, `C69_resampled_refuted`
* Result: Labels are proved to be the evaluation frequencies of the requested fs, and those of the data when the time processors keep fs; refuted for Resample/Decimate time processors (labels wrong by the factor; asking for the new fs raises ValueError).

### C70 Windows matched across measurements cover the same time (partial)

* Model: Pipeline.v: to_evals for two recordings
* Proof: parameters depend only on fs and the configuration; counterexample by vm_compute for WindowerTarget
* Theorems: `C70_same_windows_partial`, `C70_target_windows_refuted`
* Result: Proved for the default Windower; refuted for WindowerTarget, whose window sizes depend on the recording length.

### C71 Channel and frequency accessors address the right slice (proved)

* Model: Window.v, Spectra.v: wd_get_chan, sd_get_chan, sd_get_chans, sd_get_freq on nd-arrays
* Proof: structural induction on the arrays
* Theorems: `C71_windowed_get_chan`, `C71_spectra_get_chan`, `C71_spectra_get_chans`, `C71_spectra_get_freq`
* Result: get_freq additionally drops axes of length one (np.squeeze), which the theorem states.

### C72 WindowerTarget meets its target number of windows (partial)

* Model: Window.v: target_win_size, windower_target_run
* Proof: floor of the exact quotient; counterexample by vm_compute
* Theorems: `C72_target_sizes`, `C72_target_sizes_rounded`, `C72_target_missed_refuted`
* Result: Window sizes proved to be the largest whose increments fit target times into the level (exactly in exact arithmetic, up to 2^-50 relatively in every correctly rounded one), and never below min_size; the target number itself is refuted (100 samples, target 5: four windows).

### C73 Downsampled plots show recorded samples at their own times (partial)

* Model: Display.v: lttb_downsample, apply_lttb with float32 conversion, downsampler as oracle
* Proof: b32 is exact below 2^24; concrete rounding of 2^24+1 for the refutation
* Theorems: `C73_points_are_samples`, `C73_no_limit`, `C73_points_rounded`, `C73_long_recordings_refuted`
* Result: Proved up to 2^24 samples and for values float32 can hold; refuted for longer recordings (indices pass through float32: every recording of 2^24+2 samples shows its last value at the index before).

### C74 Apparent resistivity and phase of an impedance component (partial)

* Model: Display.v: get_phase with np.unwrap, get_resistivity
* Proof: induction over the unwrapping with an invariant on whole turns
* Theorems: `C74_wrapped_phase`, `C74_unwrapped_phase`, `C74_documented_range_refuted`, `C74_context_refuted`, `C74_resistivity`
* Result: Congruence modulo whole turns, range [-180,180) and independence proved for ExHx/ExHy, continuity and congruence for the others; the documented range [0,90] and independence for EyHx/EyHy are refuted.

### C75 Measurements may be processed at the same time (proved)

* Model: Parallel.v: writers as sequences of atomic file system actions, schedules as lists of process numbers, pathlib mkdir as its sequence of system calls
* Proof: rely/guarantee predicate per process, directories apart; induction over the schedule; equality with the sequential model of Persist.v
* Theorems: `C75_parallel_writers`, `C75_can_finish`, `C75_readers`, `C75_measurements_apart`
* Result: Every schedule and every stopping point; writing a file is a sequence of content changes by path; inputs are read before.

### C76 Transfer functions may be calculated at the same time (partial)

* Model: Parallel.v: par_save_solution (exists, mkdir, write)
* Proof: rely/guarantee in an existing directory; explicit schedule for every new directory
* Theorems: `C76_existing_directory_partial`, `C76_different_sites`, `C76_new_directory_refuted`, `C76_same_measurement_refuted`
* Result: Proved for results directories that exist and for different sites; refuted for every new results directory (exists and mkdir without exist_ok race: FileExistsError, solution lost), and for two runs on the same measurement (data and metadata of different runs).

### C77 The weighted least squares solver recovers exact data and always uses most of the equations (proved)

* Model: `wls_pass`, `wls_loop`, `robust_scale`, `quantile` (regression.py 1042-1074, numpy/scikit-learn quantiles written out)
* Proof: on exact data the residuals are 0 so weights stay 1 in every pass (induction over passes); quantiles are monotone and everything up to the third quartile gets weight 1; elimination (Base/Elim.v) meets the contracts
* Theorems: `C77_exact_data`, `C77_end_to_end`, `C77_majority`, `C77_no_iteration`
* Result: exact arithmetic; scikit-learn's fit is a parameter with a contract met by elimination

### C78 The weighted solution does not depend on the units of the observations (partial)

* Model: the same, observations times a constant
* Proof: equivariance of sorting, quantiles and residuals by induction; refuted for coinciding quartiles, where the scale falls back to 1, for every minimising fit
* Theorems: `C78_units_partial`, `C78_units_refuted`
* Result: proved when the quartiles of the residuals differ in every pass but the last; refuted otherwise (C78_units_refuted): RobustScaler then uses scale 1

### C79 Solvers fit no intercept unless asked to (partial)

* Model: `intercept_used`, `run_solver_with` (regression.py 897-922, 978-1009)
* Proof: corollary of C50 for solvers passing the flag; refutation for Huber, which drops it, for every estimator returning the smallest affine fit
* Theorems: `C79_no_intercept_partial`, `C79_huber_refuted`
* Result: proved for every solver but Huber; SolverScikitHuber ignores fit_intercept (C79_huber_refuted)

### C80 The transfer function between sites is recovered (proved)

* Model: `process_evals_to_tf` on Selector, ProjectGather, preparer and solver
* Proof: composition of C47 (tables are the shared windows), C48 (gathered rows are the sites' rows), C29 and C50; rows of a site are unique per window
* Theorems: `C80_remote_reference`
* Result: exact arithmetic; least squares contract met by Gaussian elimination (C50_ex_fit); concrete three-site project in C80_ex

### C81 Each sensor is calibrated with its own file (partial)

* Model: `py_replace`, `file_name`, `get_path`, `sreader_run` (calibrate.py 187-251)
* Proof: induction over pattern pieces, one replacement after the other; first underscore splits uniquely; refutations by concrete names
* Theorems: `C81_file_name_partial`, `C81_no_extension`, `C81_dollar_refuted`, `C81_file`, `C81_missing`, `C81_other_files`, `C81_sensor_types`, `C81_coils_refuted`, `C81_serials_partial`, `C81_underscore_refuted`
* Result: the substitution is the intended one for values without a dollar sign (C81_dollar_refuted otherwise); the default pattern gives coils of one type the same file (C81_coils_refuted), with the serial number in the pattern names are distinct if no sensor type contains an underscore (C81_underscore_refuted)

### C82 Text recordings are read sample for sample (partial)

* Model: text files as strings, numpy.loadtxt modelled line by line (skiprows, max_rows, comments, squeeze), array of any rank
* Proof: induction over the lines; equality with reading the transposed table by the numpy reader
* Theorems: `C82_text_partial`, `C82_channels`, `C82_one_channel_refuted`, `C82_short_file_refuted`, `C82_malformed`, `C82_comments`, `C82_blank_line_refuted`
* Result: proved for two or more channels and files as long as their metadata say; refuted: one channel gives a one dimensional array (get_chan returns one number), a short file is read without error with metadata that disagree, empty lines shift sample numbers. float() and the metadata parser are parameters

### C83 Processed time data becomes a measurement of the project (partial)

* Model: process_time as a program over the file tree: read through a memory map, processors of Model/Time.v, numpy writer
* Proof: composition of the reader, processor and writer theorems; a memory map of another file is equal to its elements
* Theorems: `C83_process_time`, `C83_failure`, `C83_onto_itself_refuted`
* Result: proved for an output different from the source or at least one processor; refuted (C83_onto_itself_refuted) for output = source without processors: the writer empties the mapped file. File formats are parameters with round trip contracts

### C84 Length and angle of the tipper are the polar coordinates of its vector (partial)

* Model: the three functions over Coq's real numbers (sqrt, atan, PI), numpy broadcasting, division by zero as infinity or nan
* Proof: trigonometric identities of the standard library
* Theorems: `C84_polar_partial`, `C84_imaginary`, `C84_axes`, `C84_direction_refuted`, `C84_missing`, `C84_one_value`
* Result: proved for vectors with non-negative first component; for a negative one the angle is that of the opposite vector (C84_direction_refuted: opposite vectors have the same angle). Over real numbers; uses the standard library's axioms of Reals

### C85 Channels are grouped by type (partial)

* Model: channel dictionaries, validators and selections as functions on lists and association lists
* Proof: induction over the channels; invariant of the dictionary comprehension
* Theorems: `C85_types`, `C85_accepted`, `C85_names`, `C85_counts`, `C85_counts_refuted`
* Result: grouping, acceptance and names proved for all inputs; n_chans proved when it is left out and refuted when it is given (C85_counts_refuted: never compared with the channels)

### C86 Timestamps give each sample its time (partial)

* Model: timestamps as lists of exact times or of whole nanoseconds, pandas' conversions as functions with a half-nanosecond contract
* Proof: pointwise on the sample number, using the decimator's level invariant (C28)
* Theorems: `C86_recording`, `C86_recording_rounded`, `C86_levels`, `C86_levels_rounded`, `C86_estimate_partial`, `C86_estimate_rounded`, `C86_drift_refuted`, `C86_drift_4096_refuted`, `C86_nothing_asked`, `C86_negative_level_refuted`
* Result: attosecond timestamps and levels proved; estimated timestamps (the default) only within k+1 ns and they drift without bound unless the period is a whole number of nanoseconds (C86_drift_refuted, C86_drift_4096_refuted); a negative level is accepted (C86_negative_level_refuted)

### C87 A linear relation between channels is recovered by the whole run (proved)

* Model: the whole pipeline model (time processors, decimation, windows, spectra, evaluation frequencies, gathering, normal equations, solver), with scipy's routines as functions assumed linear
* Proof: a relation between the rows of the output and input channels is carried through each stage by induction on the list of processors, levels and windows; then C50's exact recovery
* Theorems: `C87_quick_run_recovers`, `C87_after_time_processors`, `C87_processors_keep`, `C87_spectra_recover`, `C87_project_recovers`
* Result: exact arithmetic; the numerical routines are assumed linear (contract met by the example library linL) and the solver to be least squares; hypotheses met by a concrete two-output recording in C87_ex; C87_ex_multiply_one_channel shows a processor outside linear_proc breaking the relation

### C88 A transfer function's channel counts, lists and text agree, and the regression follows them (partial)

* Model: construction with the validators, regression with the counts next to the lists (numpy broadcasting an axis of length one), the text line by line
* Proof: case analysis of the constructor; equality with the regression of Model/Regression.v when the counts agree; position of every substring in a line
* Theorems: `C88_counts`, `C88_accepts`, `C88_round_trip`, `C88_regression`, `C88_recovers`, `C88_wrong_counts_fail`, `C88_single_input_refuted`, `C88_missing_channels_refuted`, `C88_text`, `C88_text_stale_count_refuted`
* Result: counts given by the user are never compared with the lists: with one input channel and n_in = n the result is silently divided by n (C88_single_input_refuted), with n_out too large to_string is an IndexError; a generic transfer function without input channels is a KeyError, not a ValidationError; hypotheses met in C88_ex_*

### C89 Spectra figures show mean moduli over exactly the windows they name (partial)

* Model: the traces and heatmaps as values (pandas' Grouper for fixed frequencies, numpy's means, the iterator of ten colours)
* Proof: sums over windows by induction; division with remainder for the intervals; minimum and maximum of the logarithms for the ticks
* Theorems: `C89_levels`, `C89_many_levels_refuted`, `C89_level_by_groups`, `C89_level_default`, `C89_section_partial`, `C89_sparse_windows_refuted`, `C89_one_channel_refuted`
* Result: eleven levels or eleven groups exhaust the ten colours: StopIteration (C89_many_levels_refuted, C89_level_by_groups); a section of a single channel divides by zero; a section with a grouping containing no window, as for windows an hour apart with the default grouping of 30 minutes, is a ValueError; for the rest of the inputs the full statement; hypotheses met in C89_*_ex and _hyp

### C90 Time figures show each channel in its own panel, at the times of its samples (partial)

* Model: figures as panel titles and curves; the loop over channels with its skips; downsampling and estimated timestamps as in C73 and C86
* Proof: induction over the channels and the levels; each curve's row is the position of its channel
* Theorems: `C90_recording`, `C90_added`, `C90_decimated`, `C90_many_levels_refuted`, `C90_some_channels_refuted`, `C90_order_refuted`
* Result: proved for the default channels and for drawing into a figure with the figure's channels; choosing some of the channels is a KeyError and choosing another order draws a channel in the panel titled with another one (C90_some_channels_refuted, C90_order_refuted); eleven decimation levels are a StopIteration; hypotheses met in ex_recording, C90_*_ex

### C91 Requests for what an object does not hold are refused with the documented error (partial)

* Model: the accessors of all modelled objects
* Proof: the keys of the data dictionaries by induction over the level loops; each accessor's refusals characterised as an iff or on the complement of its range
* Theorems: `C91_decimated_levels`, `C91_windowed_levels`, `C91_spectra_levels`, `C91_window_parameters`, `C91_level_timestamps`, `C91_negative_level_refuted`, `C91_zero_fs`, `C91_windows_and_indices`, `C91_channels`, `C91_channel_types`, `C91_samples`, `C91_sites`, `C91_paths`, `C91_selection`, `C91_components`, `C91_transfer_function`, `C91_validation`
* Result: proved for levels at or above n_levels, indices, windows, samples, channels, sites, measurements, paths, components, dictionaries; a negative level is a KeyError of get_level, but get_timestamps(-1) of spectra (and of decimated data, C86) answers with the last level's times (C91_negative_level_refuted); hypotheses met in C91_levels_ex, C91_spectra_holds, C91_negative_ex, C91_paths_ex, C91_selection_ex

### C92 quick_spectra, quick_tf and quick_view show the recording of the directory (proved)

* Model: Model/Quick.v on top of the pipeline
* Proof: the window table of a recording that starts at the reference time begins at sample 0 in every rounding; the sliding view gives the samples of each window; composed with the decimator and transform lemmas
* Theorems: `C92_spectra`, `C92_first_level`, `C92_transfer_function`, `C92_view`, `C92_view_decimated`, `C92_unreadable`
* Result: hypotheses met in C92_ex, C92_tf_ex, C92_view_ex, C92_unreadable_ex; win_size >= level size and WindowerTarget are C36 and C39

### C93 Tables and timelines list exactly what a project and its parameters hold (partial)

* Model: Model/Tables.v over the project and decimation models
* Proof: rows of a loaded project by the loader's specification (C64), the sort by insertion, the range by minimum, maximum and a non-negative pad; refutation for late reference times
* Theorems: `C93_project_table`, `C93_timeline`, `C93_plots`, `C93_nothing_to_plot`, `C93_late_reference_refuted`, `C93_decimation_table`, `C93_n_evals`
* Result: proved; a reference time later than the last measurement by more than the recorded span is drawn outside the range (C93_late_reference_refuted); hypotheses met in C93_ex, C93_late_ex, C93_decimation_ex, C93_n_evals_ex

### C94 Interrupted commands can be repeated (partial)

* Model: the file system programs of C22, C58, C65; crash = any state of the trace
* Proof: an invariant kept by every step of every attempt: nothing but the named files, the directory and its parents changes, and no file sits where a directory is needed; so the last run starts in a writable state and C22, C58, C65 apply to it
* Theorems: `C94_levels`, `C94_time`, `C94_solution`, `C94_no_overwrite_refuted`
* Result: proved for overwrite=True; with overwrite=False an attempt stopped after the directory was made can never be repeated (C94_no_overwrite_refuted); hypotheses met in C94_ex, C94_ex_time, C94_ex_solution, startedWritable

### C95 Reading while another process writes (partial)

* Model: the writers of C75, C76 as sequences of atomic actions, the reader as three looks at the disk (exists, metadata, data) at any times
* Proof: an invariant along every schedule with a mark set once the data file is complete: before it the metadata are the old ones, after it the data are the new ones
* Theorems: `C95_new_directory`, `C95_overwrite_partial`, `C95_overwrite_refuted`, `C95_solutions_of_sites`, `C95_solutions_of_one_site`
* Result: proved for directories that could not be read before and for solutions; overwriting gives old metadata with new data in some order (C95_overwrite_refuted), and nothing worse (C95_overwrite_partial); one file is assumed to be read in one action; hypotheses met in C95_ex, C95_ex_solution, C75_ex

### C96 Processing does not change the project (proved)

* Model: load of Model/Letsgo on the disk left by any schedule of the writers of C75 and savers of C76
* Proof: every action of a writer keeps the time directory and the project file, an invariant of every schedule; load depends on those only
* Theorems: `C96_load`, `C96_paths`, `C96_time_refuted`
* Result: for directories of the project other than time/ and the project file, which C96_paths shows for the paths the commands write to; the condition is needed (C96_time_refuted); hypotheses met in C96_ex

### C97 Only elapsed times matter (proved)

* Model: a relation between two recordings, decimated, windowed and spectra data that differ only in their times; the whole of Model/Pipeline.v
* Proof: the relation is kept by every stage; comparisons and differences of times are invariant, every rounding is a function of the value
* Theorems: `C97_evals`, `C97_quick`, `C97_project`, `C97_timestamps`, `C97_reference_refuted`
* Result: C97_reference_refuted shows that the reference time has to move too; hypotheses met in C97_ex, C97_timestamps_ex

### C98 A transfer function depends on its own channels only (proved)

* Model: a relation between two recordings (and decimated, windowed and spectra data) that have the same vectors at the places of the common channels; the whole of quick_tf in Model/Pipeline.v
* Proof: the relation is kept by every process and stage: each works on one channel at a time, and the sizes and metadata do not depend on the channels
* Theorems: `C98_processor`, `C98_spectra`, `C98_levels`, `C98_quick`, `C98_project`, `C98_spectra_calibrated`, `C98_calibrated`, `C98_calibrated_project`, `C98_one_channel_refuted`
* Result: without calibration data (C98_quick, C98_project) and with it (C98_calibrated, C98_calibrated_project; the channels to calibrate, when listed, are distinct); C98_one_channel_refuted shows that the recording needs a second channel; hypotheses met in C98_ex, C98_ex_project and C98_ex_calibrated

### C99 A window holds the same samples whether the recording is processed whole or in part (partial)

* Model: two windowings of Model/Window.v, of a level and of a level whose rows are slices of it; the first level of to_evals in Model/Pipeline.v
* Proof: a complete window of the part is a complete window of the whole (C32) and its first sample is the last one at or before its start (C31), hence the same one; transform, smoothing and interpolation work on one window and channel at a time
* Theorems: `C99_table`, `C99_table_rounded`, `C99_cut_at_start_refuted`, `C99_windows`, `C99_windows_rounded`, `C99_spectra`, `C99_spectra_rounded`
* Result: proved for exact arithmetic and for sample aligned recordings at 2^p Hz in binary64; samples appended at the end: every correctly rounded arithmetic. C99_cut_at_start_refuted: at 3 Hz in binary64 cutting three samples moves a window by one sample. The spectra are those of the level that is not decimated (decimation filters the whole recording); time processors are covered by what they produce

### C100 The transfer function changes with the units of the channels as a ratio of units (partial)

* Model: quick_tf of Model/Pipeline.v on two recordings; the fit as a minimiser of the sum of squares of the residuals
* Proof: every stage maps two recordings related by the factors to data related by the factors; the columns of the prepared equations are scaled by k(i)k(x) and the observations by k(o)k(x), x the cross channels; a minimiser of determined equations is unique (parallelogram identity), so it scales by the quotient
* Theorems: `C100_spectra`, `C100_least_squares`, `C100_unit_free`, `C100_calibrated`, `C100_project`, `C100_cross_units_refuted`
* Result: proved in exact arithmetic for linear numerical routines (C100_spectra, C100_least_squares, C100_unit_free; with sensor calibration C100_calibrated) when the cross channels share one factor; without it false: C100_cross_units_refuted. Add and ApplyFunction processors are excluded (not linear); rounding of the samples is not covered

### C101 The transfer function is linear in the output channels (partial)

* Model: quick_tf of Model/Pipeline.v; the fit as a minimiser of the sum of squares of the residuals
* Proof: the stages map combinations of channels to combinations (as for C87); a minimiser satisfies the normal equations, these are linear in the observations, and determined equations have one minimiser
* Theorems: `C101_spectra`, `C101_least_squares`, `C101_project`
* Result: proved in exact arithmetic for linear numerical routines and least squares fits (C101_spectra, C101_least_squares); robust fits (Huber, RANSAC, Theil-Sen, MM) are not linear in the observations and are not claimed; rounding of the samples is not covered

### C102 An output channel has the same transfer function whatever other outputs are asked for (proved)

* Model: quick_tf and process_evals_to_tf of Model/Pipeline.v under two configurations that differ in tf_out only
* Proof: the gathered rows are those of the evaluation data; the equations of an output are those of its own column; the solution holds the tensors that were fitted (C52)
* Theorems: `C102_quick`, `C102_project`
* Result: proved for every library routine, in the arithmetic of the library (C102_quick, C102_project for a site with one measurement); the names of the components have to be distinct (keys_distinct: see C52), and the solver to be a function of the equations (a random solver with another state gives another result)

### C103 The names and the order of the measurements of a site have no influence on the transfer function (proved)

* Model: process_evals_to_tf of Model/Pipeline.v on two projects with the same data (Spec/Renamed.v: same_data, separate)
* Proof: selected windows are determined by the data (C46, C47), the rows by the windows (C48, a window has one measurement), the solution by the rows
* Theorems: `C103_renamed`, `C103_overlap_refuted`
* Result: proved for every library routine, in the arithmetic of the library; with two measurements over the same windows the order does matter (C103_overlap_refuted)

### C104 A gain in the calibration data changes the transfer function as a ratio of gains, and undoes a change of units (partial)

* Model: quick_tf of Model/Pipeline.v with two lists of calibration readers related by gains (Spec/Gain.v)
* Proof: np.interp is linear in the magnitudes, so the calibrated coefficients of channel c are divided by g(c) in one recording and, with other units, stay the same; then as C100
* Theorems: `C104_gain`, `C104_same_units`, `C104_gain_project`, `C104_same_units_project`
* Result: proved in exact arithmetic (C104_gain, C104_same_units; for commands on a project with one measurement: C104_gain_project, C104_same_units_project); the hypotheses on the complex division are met by the exact quotient (quotient_gain); rounding is not covered; hypotheses met in C104_ex_gain, C104_ex_same_units

### C105 Magnitudes and phases of spectra (proved)

* Model: get_mag_phs of Model/MagPhs.v with numpy's unwrap written out (exact rationals, a turn is a parameter)
* Proof: the correction of a step is a whole number of turns and leaves at most half a turn; induction along the frequencies, two curves with small steps that agree up to turns are equal
* Theorems: `C105_magnitudes_phases`, `C105_recovers_curve`, `C105_polar_form`, `C105_total`
* Result: phases are rational and unwrapping is exact; np.absolute and np.angle are parameters; 'raises for any other level' means KeyError, where get_level raises ValueError; hypotheses met in C105_ex

<!-- end table -->
