{"id": "C01", "title": "From time maps to the first sample at or after it", "statement": "For a recording whose samples are at first_time + k/fs (0 <= k < n_samples), from_time_to_sample returns the smallest sample index whose timestamp is not before from_time (0 when from_time is before the recording), and raises exactly when from_time is after last_time.", "quantifier": "every sampling frequency, first time, length and from time", "why_tests_cant": "the grid of (fs, time) pairs is infinite and off-by-one errors only appear for times that do or do not fall on a timestamp", "anchors": ["resistics/sampling.py::from_time_to_sample", "resistics/sampling.py::check_from_time", "resistics/sampling.py::to_n_samples"]}
{"id": "C02", "title": "To time maps to the last sample at or before it", "statement": "to_time_to_sample returns the largest sample index whose timestamp is not after to_time (the last sample when to_time is beyond the recording), and raises exactly when to_time is before first_time.", "quantifier": "every sampling frequency, first time, length and to time", "why_tests_cant": "same as C01", "anchors": ["resistics/sampling.py::to_time_to_sample", "resistics/sampling.py::check_to_time", "resistics/sampling.py::to_n_samples"]}
{"id": "C03", "title": "Sample to datetime to sample is the identity", "statement": "Converting any valid sample index to its timestamp with sample_to_datetime and back with from_time_to_sample or to_time_to_sample gives the same index, in the arithmetic the program really uses (binary64).", "quantifier": "every sampling frequency, first time and sample index", "why_tests_cant": "needs all fs and all indices; rounding failures are sparse", "anchors": ["resistics/sampling.py::sample_to_datetime", "resistics/sampling.py::from_time_to_sample", "resistics/sampling.py::to_time_to_sample", "resistics/sampling.py::to_timedelta"]}
{"id": "C04", "title": "Timedelta conversion loses less than 0.0001 ns and only downwards", "statement": "to_timedelta(x) represents x seconds up to a non-negative error strictly less than 0.0001 nanoseconds, is exact whenever the sub-microsecond part is zero or at least 0.0001 ns, and to_seconds(to_timedelta(x)) adds back up to the represented value.", "quantifier": "every number of seconds (positive or negative)", "why_tests_cant": "continuum of inputs", "anchors": ["resistics/sampling.py::to_timedelta", "resistics/sampling.py::to_seconds"]}
{"id": "C05", "title": "to_n_samples rounding methods", "statement": "to_n_samples counts samples inclusively: for an exact multiple of the period it returns k+1 for every method; otherwise floor <= round <= ceil, ceil = floor + 1, and each is within one sample of the exact value.", "quantifier": "every timedelta, sampling frequency, method string", "why_tests_cant": "continuum of inputs", "anchors": ["resistics/sampling.py::to_n_samples"]}
{"id": "C06", "title": "Datetime strings round trip", "statement": "datetime_from_string(datetime_to_string(t)) returns t for every datetime with yoctosecond resolution, and distinct datetimes of that resolution have distinct strings; the strings accepted are exactly those of the format (one- or two-digit fields, one to six decimals) that name a date of the calendar, each read as the moment it names.", "quantifier": "every datetime with a four digit year (1000 to 9999; pandas itself covers 1677 to 2262) and every sub-second value", "why_tests_cant": "the value space has 24 sub-second digits", "anchors": ["resistics/sampling.py::datetime_to_string", "resistics/sampling.py::datetime_from_string", "resistics/sampling.py::to_datetime", "resistics/common.py::ResisticsModel"]}
{"id": "C07", "title": "Timestamp arrays agree with per-sample conversion", "statement": "datetime_array returns, for position i, exactly the time sample_to_datetime gives for that sample; the array has n_samples strictly increasing entries from first_time to first_time + (n-1)*period.", "quantifier": "every fs, first time, number of samples or list of sample indices", "why_tests_cant": "all lengths and indices", "anchors": ["resistics/sampling.py::datetime_array", "resistics/sampling.py::sample_to_datetime", "resistics/time.py::TimeData.get_timestamps"]}
{"id": "C08", "title": "Requested read ranges are valid or rejected", "statement": "For self-consistent metadata, TimeReader.run either raises or reads samples read_from..read_to with 0 <= read_from < read_to <= n_samples-1, for any combination of from/to times and samples; explicit samples outside the recording are always rejected.", "quantifier": "every metadata and every combination of the four optional arguments", "why_tests_cant": "combinatorial argument space times infinite times", "anchors": ["resistics/time.py::TimeReader._get_read_samples", "resistics/time.py::TimeReader.run", "resistics/sampling.py::check_sample"]}
{"id": "C09", "title": "A partial read is a slice with matching metadata", "statement": "Reading samples a..b gives data equal to columns a..b of the stored data, n_samples = b-a+1, first_time = time of sample a and last_time = time of sample b, everything else in the metadata unchanged.", "quantifier": "every stored array, metadata and range", "why_tests_cant": "all arrays and ranges", "anchors": ["resistics/time.py::TimeReaderNumpy.read_data", "resistics/time.py::TimeReaderAscii.read_data", "resistics/time.py::TimeReader._get_return_metadata", "resistics/time.py::adjust_time_metadata"]}
{"id": "C10", "title": "Subsection selects exactly the samples in the closed time interval", "statement": "Subsection(from,to).run keeps precisely the samples with from <= timestamp <= to, in order, for every channel, and raises when fewer than two samples are in the interval; returned first/last times are those of the kept samples.", "quantifier": "every time data, every pair of times", "why_tests_cant": "continuum of time pairs", "anchors": ["resistics/time.py::Subsection.run", "resistics/time.py::TimeData.subsection", "resistics/sampling.py::datetimes_to_samples", "resistics/sampling.py::samples_to_datetimes"]}
{"id": "C11", "title": "Subsections compose", "statement": "Taking a subsection of a subsection gives the same data and times as taking the subsection of the intersection of the intervals directly, and equals reading that interval with TimeReader.", "quantifier": "every time data and two nested or overlapping intervals", "why_tests_cant": "pairs of intervals", "anchors": ["resistics/time.py::Subsection.run", "resistics/time.py::TimeReader.run"]}
{"id": "C12", "title": "Processors do not modify their input", "statement": "Running any time processor or data writer leaves the TimeData passed in (data, metadata, channel metadata and processing history) observably unchanged.", "quantifier": "every processor, every input object, every aliasing between objects", "why_tests_cant": "aliasing effects appear only after later operations on shared objects", "anchors": ["resistics/time.py::Subsection.run", "resistics/time.py::Resample.run", "resistics/time.py::Decimate.run", "resistics/time.py::ShiftTimestamps.run", "resistics/time.py::new_time_data", "resistics/time.py::TimeWriterNumpy.run", "resistics/time.py::TimeWriterAscii.run", "resistics/decimate.py::DecimatedDataWriter.run"]}
{"id": "C13", "title": "History is append only and records every process once", "statement": "For any sequence of processors the history of the result is the history of the input followed by exactly one record per processor, in order. The data at the end of a run (time processors, decimation, windowing, transform, spectra processors, evaluation frequencies, calibration) carries the history of the recording followed by one record per step, in order.", "quantifier": "every pipeline of processors and every starting history", "why_tests_cant": "unbounded pipelines", "anchors": ["resistics/common.py::History.add_record", "resistics/common.py::get_history", "resistics/time.py::new_time_data", "resistics/letsgo.py::run_time_processors"]}
{"id": "C14", "title": "Decimation factor decomposition", "statement": "For every factor >= 1 and max_single_factor >= 2 the list of single decimation steps multiplies to the factor, and every step is either at most max_single_factor or a prime.", "quantifier": "every factor and max_single_factor", "why_tests_cant": "all integers", "anchors": ["resistics/time.py::Decimate._get_downsample_factors", "resistics/time.py::Decimate._prime_factorisation"]}
{"id": "C15", "title": "Decimating or resampling keeps metadata and data in step", "statement": "Decimate by f gives ceil(n/f) samples whatever the intermediate steps, fs/f, unchanged first_time and last_time not after the original; Resample gives ceil(n*p/q) samples with metadata describing exactly them.", "quantifier": "every length, factor, max_single_factor and sampling frequency", "why_tests_cant": "all integers; nested ceilings", "anchors": ["resistics/time.py::Decimate.run", "resistics/time.py::Resample.run", "resistics/time.py::adjust_time_metadata"]}
{"id": "C16", "title": "Removing the mean", "statement": "After RemoveMean every channel sums to zero, sample-to-sample differences are unchanged and a second RemoveMean changes nothing.", "quantifier": "every data array without NaN (exact arithmetic)", "why_tests_cant": "all arrays", "anchors": ["resistics/time.py::RemoveMean.run"]}
{"id": "C17", "title": "NaN interpolation is complete and conservative", "statement": "InterpolateNans leaves every non-NaN sample untouched, leaves no NaN in a channel with at least one number, each filled value lies between the nearest numbers on either side (equal to the nearest number at the ends), is idempotent and raises for an all-NaN channel.", "quantifier": "every array and every NaN pattern", "why_tests_cant": "2^n patterns", "anchors": ["resistics/time.py::InterpolateNans.run", "resistics/time.py::InterpolateNans._interpolate_nans"]}
{"id": "C18", "title": "Add and Multiply act per channel", "statement": "With a scalar every channel is changed by it; with a dictionary exactly the named channels are changed, others are bit-identical, names not in the data are ignored; adding then adding the negative restores the data.", "quantifier": "every data, scalar or dictionary", "why_tests_cant": "all dictionaries/channels", "anchors": ["resistics/time.py::Add.run", "resistics/time.py::Multiply.run"]}
{"id": "C19", "title": "ApplyFunction only touches the channels given", "statement": "ApplyFunction(fncs) applies fncs[c] to each named channel c and leaves all other channels unchanged; functions that keep the number of samples are always accepted.", "quantifier": "every data and dictionary of functions", "why_tests_cant": "depends on uninitialised memory for the other channels, which a test may see as any value", "anchors": ["resistics/time.py::ApplyFunction.run"]}
{"id": "C20", "title": "Shifting timestamps interpolates linearly", "statement": "ShiftTimestamps(s) with 0 < s < dt accepts every recording of two or more samples and yields n-1 samples with timestamps first+s+k*dt (the last one being that of sample n-2) whose values lie on the straight line between samples k and k+1, up to the rounding of the data's type; s >= dt is rejected.", "quantifier": "every data, shift and sampling frequency, every precision of the data", "why_tests_cant": "continuum of shifts", "anchors": ["resistics/time.py::ShiftTimestamps.run"]}
{"id": "C21", "title": "Channel get and set laws", "statement": "set_chan then get_chan returns the data set, other channels are unchanged, wrong size or dtype or unknown channel is rejected without effect.", "quantifier": "every data with distinct channel names, every operation sequence", "why_tests_cant": "arbitrary operation sequences", "anchors": ["resistics/time.py::TimeData.get_chan", "resistics/time.py::TimeData.set_chan", "resistics/time.py::TimeData.__init__", "resistics/common.py::check_chan"]}
{"id": "C22", "title": "Time data written can be read back", "statement": "Writing TimeData and reading it back with the matching reader gives the same data for all channels, same times and same channel metadata apart from file names.", "quantifier": "every TimeData and writer/reader pair", "why_tests_cant": "all data", "anchors": ["resistics/time.py::TimeWriterNumpy.run", "resistics/time.py::TimeReaderNumpy.read_data", "resistics/time.py::TimeWriterAscii.run", "resistics/time.py::TimeReaderAscii.read_data"]}
{"id": "C23", "title": "Metadata stays self-consistent through any pipeline", "statement": "If first_time, last_time, fs, n_samples and the data shape agree for the input (last = first + (n-1)/fs, columns = n_samples, rows = channels) they agree for the output of every sequence of time processors.", "quantifier": "every pipeline of time processors and every input", "why_tests_cant": "unbounded pipelines", "anchors": ["resistics/time.py::adjust_time_metadata", "resistics/time.py::TimeProcess.run", "resistics/letsgo.py::run_time_processors"]}
{"id": "C24", "title": "Filter cutoffs handed to the filter designer are valid", "statement": "For every accepted parameterisation the normalised cutoffs passed to the Butterworth designer are the configured frequencies divided by the Nyquist frequency, lie in [0,1] in increasing order and go with the filter kind of the process; invalid ones raise ProcessRunError.", "quantifier": "every fs, cutoff, notch and band", "why_tests_cant": "continuum", "anchors": ["resistics/time.py::LowPass.run", "resistics/time.py::HighPass.run", "resistics/time.py::BandPass.run", "resistics/time.py::Notch.run"]}
{"id": "C25", "title": "Evaluation frequencies", "statement": "get_eval_freqs(n_freqs=n) returns n frequencies fs/4 * 2^(-(i)/2), strictly decreasing; get_eval_freqs(f_min) returns exactly those of that sequence that are >= f_min, terminates, and rejects f_min <= 0 or > fs/4.", "quantifier": "every fs > 0, n, f_min", "why_tests_cant": "continuum; termination", "anchors": ["resistics/decimate.py::get_eval_freqs", "resistics/decimate.py::get_eval_freqs_min", "resistics/decimate.py::get_eval_freqs_size"]}
{"id": "C26", "title": "Decimation factor search terminates and is optimal", "statement": "DecimationSetup computes for each level the largest power of div_factor such that the decimated sampling frequency is still at least four times the highest evaluation frequency of the level (1 if none), and always terminates.", "quantifier": "every fs, f_max, div_factor", "why_tests_cant": "termination on all inputs cannot be tested", "anchors": ["resistics/decimate.py::DecimationSetup._get_decimation_factor", "resistics/decimate.py::DecimationSetup._get_factors"]}
{"id": "C27", "title": "Incremental factors multiply to total factors", "statement": "For every DecimationSetup result the product of dec_increments up to a level is dec_factors of that level, each increment is a positive power of div_factor and dec_fs = fs / factor.", "quantifier": "every setup, including user evaluation frequencies", "why_tests_cant": "all frequency lists", "anchors": ["resistics/decimate.py::DecimationParameters.set_dec_increments", "resistics/decimate.py::DecimationParameters.set_dec_fs", "resistics/decimate.py::DecimationSetup.run"]}
{"id": "C28", "title": "Decimator levels", "statement": "Decimator.run returns levels 0..m-1 without gaps, m maximal such that all have >= min_samples samples; level i has fs/factor_i, the same first time and metadata consistent with its data; n_levels equals the number of data levels.", "quantifier": "every time data and decimation parameters", "why_tests_cant": "all sizes", "anchors": ["resistics/decimate.py::Decimator.run", "resistics/decimate.py::Decimator._decimate", "resistics/decimate.py::Decimator._resample", "resistics/decimate.py::Decimator._get_metadata"]}
{"id": "C29", "title": "Evaluation frequency lookup", "statement": "get_eval_freq(level, idx) is the idx-th entry of get_eval_freqs(level); the levels partition the eval_freqs list in order; out-of-range levels and indices raise.", "quantifier": "every parameter object, level and index (including negative)", "why_tests_cant": "all indices", "anchors": ["resistics/decimate.py::DecimationParameters.get_eval_freqs", "resistics/decimate.py::DecimationParameters.get_eval_freq", "resistics/decimate.py::DecimationParameters.check_level"]}
{"id": "C30", "title": "Windows lie inside the data", "statement": "Every row of the window table has 0 <= from_sample, to_sample = from_sample + win_size - 1 <= n_samples - 1; consecutive windows start win_size - olap_size samples apart, local indices count from 0 and global minus local is constant.", "quantifier": "every reference time, level metadata, window and overlap size", "why_tests_cant": "continuum of times, all sizes", "anchors": ["resistics/window.py::get_win_table", "resistics/window.py::get_first_and_last_win"]}
{"id": "C31", "title": "Global window index denotes the same absolute time everywhere", "statement": "In two recordings windowed with the same reference time, fs, window and overlap size, windows with the same global index start at samples whose timestamps both lie within one sample period before ref_time + index*increment (and coincide with it when the recording is sample aligned with the reference time).", "quantifier": "every pair of recordings", "why_tests_cant": "pairs of recordings with arbitrary offsets", "anchors": ["resistics/window.py::get_win_table", "resistics/window.py::win_to_datetime", "resistics/window.py::inc_duration"]}
{"id": "C32", "title": "No complete window is missed", "statement": "The first global window is the earliest starting not before the recording and the last is the latest that fits completely: index first-1 starts before first_time, index last+1 ends after last_time.", "quantifier": "every reference time, recording, sizes", "why_tests_cant": "continuum of times", "anchors": ["resistics/window.py::get_first_and_last_win", "resistics/window.py::datetime_to_win"]}
{"id": "C33", "title": "Window search never fails for valid overlaps", "statement": "get_first_and_last_win succeeds for every recording starting at or after the reference time and every 0 <= olap_size < win_size.", "quantifier": "every recording and overlap", "why_tests_cant": "the failing region depends on three parameters", "anchors": ["resistics/window.py::get_first_and_last_win"]}
{"id": "C34", "title": "Access by global window index", "statement": "WindowedData.get_global(level, g) returns the window whose global index is g, i.e. local window g - index_offset, and raises when the recording does not contain g.", "quantifier": "every windowed data, level and index", "why_tests_cant": "index_offset is 0 in simple tests", "anchors": ["resistics/window.py::WindowedData.get_global", "resistics/window.py::WindowedData.get_local"]}
{"id": "C35", "title": "Window setup yields usable sizes", "statement": "WindowSetup.run returns n_levels sizes, each at least min_size and each with 0 < overlap < window; user lists are truncated or rejected.", "quantifier": "every setup parameters and sampling frequencies", "why_tests_cant": "parameter space", "anchors": ["resistics/window.py::WindowSetup.run", "resistics/window.py::WindowSetup._get_win_sizes", "resistics/window.py::WindowSetup._get_olap_sizes"]}
{"id": "C36", "title": "Window contents", "statement": "Entry [w, c, s] of the windowed level is data[c, from_sample(w)+s] for all windows, channels and samples, whatever the number of channels and windows.", "quantifier": "every array shape including single channel / single window", "why_tests_cant": "shape corner cases", "anchors": ["resistics/window.py::Windower._get_level_data", "resistics/window.py::Windower.run"]}
{"id": "C37", "title": "Window timestamps from stored metadata", "statement": "The window start times reported later from the stored metadata (ref_time, index_offset, increment) are the times the windows were actually cut at, for every windower.", "quantifier": "every windower, reference time and recording", "why_tests_cant": "only visible when ref_time != first_time", "anchors": ["resistics/window.py::WindowerTarget.run", "resistics/window.py::Windower.run", "resistics/window.py::get_win_starts", "resistics/spectra.py::SpectraData.get_timestamps"]}
{"id": "C38", "title": "Windowed metadata lists agree", "statement": "n_levels equals the number of levels in the data, in levels_metadata and in fs after windowing; windowing stops at the first level with too few windows.", "quantifier": "every decimated data and parameters", "why_tests_cant": "early termination cases", "anchors": ["resistics/window.py::Windower.run", "resistics/window.py::Windower._get_metadata"]}
{"id": "C39", "title": "Window index and datetime are inverse", "statement": "datetime_to_win(ref, win_to_datetime(ref, k, inc), inc) = k for all methods; times before the reference raise.", "quantifier": "every reference time, increment and k >= 0", "why_tests_cant": "continuum; binary64 rounding", "anchors": ["resistics/window.py::datetime_to_win", "resistics/window.py::win_to_datetime"]}
{"id": "C40", "title": "Evaluation frequency interpolation", "statement": "EvaluationFreqs returns, for every window and channel, the piecewise linear interpolant of the spectrum at the evaluation frequencies: exact on grid frequencies, a convex combination of the two neighbours in between, clamped outside; every configured evaluation frequency is at most the Nyquist frequency of its level.", "quantifier": "every spectrum, grid and evaluation frequency", "why_tests_cant": "continuum", "anchors": ["resistics/spectra.py::EvaluationFreqs._get_level_data", "resistics/spectra.py::EvaluationFreqs.run"]}
{"id": "C41", "title": "Smoothing length", "statement": "The uniform smoother always uses an odd length >= 1.", "quantifier": "every proportion and number of frequencies", "why_tests_cant": "continuum", "anchors": ["resistics/spectra.py::SpectraSmootherUniform._get_smooth_length"]}
{"id": "C42", "title": "Gaussian smoothing uses sigma", "statement": "The width of the Gaussian smoother is the sigma the user configured.", "quantifier": "every sigma", "why_tests_cant": "any single test uses one sigma", "anchors": ["resistics/spectra.py::SpectraSmootherGaussian.run"]}
{"id": "C43", "title": "Calibration reader precedence and isolation", "statement": "For each selected channel the first reader that succeeds supplies the calibration; failing readers are skipped; channels with no reader or not selected are unchanged.", "quantifier": "every list of readers, outcomes and channels", "why_tests_cant": "all outcome combinations", "anchors": ["resistics/calibrate.py::SensorCalibrator.run", "resistics/calibrate.py::SensorCalibrator._get_cal_data", "resistics/calibrate.py::Calibrator._get_chans"]}
{"id": "C44", "title": "Calibration divides each coefficient by the interpolated response", "statement": "After calibration coefficient [w,c,f] is the original divided by magnitude(f)*exp(i phase(f)), for every shape of the spectra.", "quantifier": "every spectra shape incl. one window or one frequency", "why_tests_cant": "shape corner cases", "anchors": ["resistics/calibrate.py::Calibrator._calibrate", "resistics/calibrate.py::Calibrator._interpolate", "resistics/calibrate.py::SensorCalibrator.run"]}
{"id": "C45", "title": "Calibration text files", "statement": "The TXT reader returns the data rows between the CALIBRATION DATA line and the next blank line, sorted by frequency with phase in radians, and the header values of the header lines.", "quantifier": "every file content", "why_tests_cant": "all texts", "anchors": ["resistics/calibrate.py::SensorCalibrationTXT"]}
{"id": "C46", "title": "Site windows are assigned to the first measurement containing them", "statement": "For a level, the windows of a site are exactly the union of the measurements' global windows, sorted, each once, assigned to the first measurement containing it.", "quantifier": "every set of measurements, offsets and overlaps", "why_tests_cant": "all overlaps", "anchors": ["resistics/gather.py::get_site_level_wins", "resistics/gather.py::get_site_wins"]}
{"id": "C47", "title": "Selected windows are those shared by all sites", "statement": "Selector.run's table for a level contains exactly the global windows present in every selected site, each with the supplying measurement per site; levels are those present in all sites; duplicate site names do not matter.", "quantifier": "every project and site list", "why_tests_cant": "all overlaps", "anchors": ["resistics/gather.py::Selector.run", "resistics/gather.py::Selection.get_n_wins", "resistics/gather.py::Selection.get_eval_wins"]}
{"id": "C48", "title": "Gathered rows are aligned and complete", "statement": "Row r of the output, input and cross data of ProjectGather for an evaluation frequency comes from the same global window (the r-th shared one) in each site, holds exactly that measurement's coefficients for the requested channels in order, and no row is left uninitialised.", "quantifier": "every project, selection, site combination and channel list", "why_tests_cant": "uninitialised memory and index arithmetic over arbitrary offsets", "anchors": ["resistics/gather.py::ProjectGather.run", "resistics/gather.py::ProjectGather._get_site_data", "resistics/gather.py::ProjectGather._populate_data", "resistics/gather.py::ProjectGather._get_indices", "resistics/gather.py::ProjectGather._get_empty_data"]}
{"id": "C49", "title": "Quick and project processing agree", "statement": "For a site with a single measurement, ProjectGather and QuickGather deliver the same data for every evaluation frequency.", "quantifier": "every measurement", "why_tests_cant": "all data", "anchors": ["resistics/gather.py::QuickGather.run", "resistics/gather.py::ProjectGather.run"]}
{"id": "C50", "title": "Regression equations encode the complex transfer function", "statement": "For every window and cross channel, the real system preds * coef = obs holds iff sum_j Z_j in_j conj(cross) = out conj(cross) holds over the complex numbers, where coef interleaves real and imaginary parts of Z; in particular data generated by a tensor Z is solved exactly by Z.", "quantifier": "every number of windows, channels and all data", "why_tests_cant": "all dimensions and values", "anchors": ["resistics/regression.py::RegressionPreparerGathered._get_obs", "resistics/regression.py::RegressionPreparerGathered._get_preds", "resistics/regression.py::RegressionPreparerGathered._get_cross_powers", "resistics/regression.py::SolverScikit._get_tensor"]}
{"id": "C51", "title": "Both regression preparers agree", "statement": "RegressionPreparerSpectra on spectra data and RegressionPreparerGathered on the QuickGather of the same data produce the same frequencies, observations and predictors.", "quantifier": "every spectra data and transfer function", "why_tests_cant": "all data", "anchors": ["resistics/regression.py::RegressionPreparerSpectra.run", "resistics/regression.py::RegressionPreparerGathered.run", "resistics/gather.py::QuickGather.run"]}
{"id": "C52", "title": "Solution lookup", "statement": "get_tensor(i)[out,in] and get_component(out+in)[i] both return the value solved for that pair and frequency, for every transfer function.", "quantifier": "every transfer function (channel names) and solved tensor", "why_tests_cant": "channel name combinations", "anchors": ["resistics/regression.py::SolverScikit._get_solution", "resistics/regression.py::Solution.get_tensor", "resistics/regression.py::Solution.get_component", "resistics/transfunc.py::get_component_key"]}
{"id": "C53", "title": "Robust weights", "statement": "The bisquare, Huber and trimmed-mean weight functions return weights in [0,1], equal to 1 at zero residual and non-increasing in the residual size.", "quantifier": "every residual vector", "why_tests_cant": "continuum", "anchors": ["resistics/regression.py::SolverScikitWLS.bisquare", "resistics/regression.py::SolverScikitWLS.huber", "resistics/regression.py::SolverScikitWLS.trimmed_mean"]}
{"id": "C54", "title": "Creating and loading projects", "statement": "After new() on a fresh directory the project loads; new() refuses an existing project and changes nothing; load() refuses a directory lacking any of the project sub-directories; a crash at any point of new() leaves a state in which new() can be repeated to completion and a project file never exists without all sub-directories.", "quantifier": "every initial file system and every crash point", "why_tests_cant": "crash points", "anchors": ["resistics/letsgo.py::ProjectCreator.run", "resistics/letsgo.py::ProjectLoader.run", "resistics/letsgo.py::ProjectLoader._check_subdirs"]}
{"id": "C55", "title": "Data directories are crash consistent", "statement": "If writing decimated, windowed, spectra or time data is interrupted, a reader either fails or returns data and metadata of the same write.", "quantifier": "every prior directory content and crash point", "why_tests_cant": "crash points", "anchors": ["resistics/spectra.py::SpectraDataWriter.run", "resistics/spectra.py::SpectraDataReader.run", "resistics/common.py::ResisticsWriter._check_dir", "resistics/common.py::WriteableMetadata.write"]}
{"id": "C56", "title": "Concurrent sites", "statement": "get_concurrent(s) returns exactly the other sites whose recording interval intersects that of s, and is symmetric.", "quantifier": "every project", "why_tests_cant": "all interval configurations", "anchors": ["resistics/project.py::Project.get_concurrent"]}
{"id": "C57", "title": "Sampling frequency grouping", "statement": "site.fs() lists each distinct sampling frequency once in increasing order, get_measurements(fs) over those values partitions the measurements, project.fs() is the union over sites and get_sites(fs) the sites having it.", "quantifier": "every project", "why_tests_cant": "all configurations", "anchors": ["resistics/project.py::Site.fs", "resistics/project.py::Site.get_measurements", "resistics/project.py::Project.fs", "resistics/project.py::Project.get_sites"]}
{"id": "C58", "title": "Solutions are stored under distinct names and found again", "statement": "The solution written by process_evals_to_tf is the one get_solution reads for the same arguments, and solutions for different (fs, transfer function, variation, postfix) never share a file.", "quantifier": "every name combination", "why_tests_cant": "string collisions", "anchors": ["resistics/project.py::get_solution_name", "resistics/project.py::get_results_path", "resistics/letsgo.py::process_evals_to_tf", "resistics/letsgo.py::get_solution", "resistics/common.py::fs_to_string"]}
{"id": "C59", "title": "Processes round trip through dictionaries", "statement": "validate(p.dict()) reconstructs process p for every registered process; validation does not modify the dictionary passed and a field declared for one kind of process never holds another kind.", "quantifier": "every process class, parameters, registry content", "why_tests_cant": "all classes and dictionaries", "anchors": ["resistics/common.py::ResisticsProcess.validate", "resistics/common.py::ResisticsProcess.__init_subclass__", "resistics/common.py::ResisticsProcess.validate_name", "resistics/config.py::Configuration"]}
{"id": "C60", "title": "Reader fallback", "statement": "quick_read and measurement loading use the first reader that succeeds and fail (or report no measurement) only when all readers fail.", "quantifier": "every list of readers and outcomes", "why_tests_cant": "all outcome combinations", "anchors": ["resistics/letsgo.py::quick_read", "resistics/letsgo.py::ProjectLoader._load_measurement"]}
{"id": "C61", "title": "Project data paths never collide", "statement": "Paths for different (data type, site, configuration, measurement) are different for names that are single path components.", "quantifier": "every tuple of names", "why_tests_cant": "string space", "anchors": ["resistics/project.py::get_meas_time_path", "resistics/project.py::get_meas_spectra_path", "resistics/project.py::get_meas_evals_path", "resistics/project.py::get_meas_features_path"]}
{"id": "C62", "title": "Directory listings exclude hidden files", "statement": "dir_contents, dir_files and dir_subdirs return every visible entry exactly once in the right list and no hidden files.", "quantifier": "every directory content", "why_tests_cant": "all contents", "anchors": ["resistics/common.py::dir_contents", "resistics/common.py::dir_files", "resistics/common.py::dir_subdirs"]}
{"id": "C63", "title": "Spectra keep the window bookkeeping", "statement": "FourierTransform and EvaluationFreqs keep channels, number of levels and, for every level, the window timestamps reported from the metadata; the number of frequencies recorded equals the number of coefficients per window and channel; one history record is added per step.", "quantifier": "all windowed data sets with any number of levels, channels and windows, all window and transform sizes", "why_tests_cant": "Metadata and arrays are produced by separate code and must agree for every level and shape.", "anchors": ["resistics/spectra.py:FourierTransform.run", "resistics/spectra.py:EvaluationFreqs.run", "resistics/spectra.py:SpectraData.get_timestamps"]}
{"id": "C64", "title": "A loaded project mirrors its time directory", "statement": "load() on a valid project directory always succeeds and returns one site per sub-directory of time, in each site one measurement per sub-directory that some configured reader can read (with the first such reader's metadata), and begin and end times that are the extremes over measurements and sites; no reader failure makes loading fail.", "quantifier": "every directory tree and every list of readers, whatever they raise", "why_tests_cant": "all trees and reader outcomes", "anchors": ["resistics/letsgo.py::ProjectLoader.run", "resistics/letsgo.py::ProjectLoader._load_site", "resistics/letsgo.py::ProjectLoader._load_measurement", "resistics/common.py::dir_subdirs"]}
{"id": "C65", "title": "Level data written can be read back", "statement": "Writing DecimatedData, WindowedData or SpectraData to a directory and reading it back returns the same levels with the same arrays and the same metadata, with one history record each for writer and reader; with overwrite=False an existing directory is refused and left untouched; nothing outside the directory changes.", "quantifier": "every set of levels, arrays, metadata, prior file system content", "why_tests_cant": "all level sets and directory states", "anchors": ["resistics/decimate.py::DecimatedDataWriter.run", "resistics/decimate.py::DecimatedDataReader.run", "resistics/window.py::WindowedDataWriter.run", "resistics/spectra.py::SpectraDataWriter.run", "resistics/spectra.py::SpectraDataReader.run", "resistics/common.py::ResisticsWriter._check_dir"]}
{"id": "C66", "title": "Data read from disk is a snapshot", "statement": "TimeData returned by TimeReaderNumpy keeps its values whatever happens to the files afterwards; in particular it can be written back to the directory it came from.", "quantifier": "every recording and every later change of the files", "why_tests_cant": "the effect appears only after later writes to the same directory", "anchors": ["resistics/time.py::TimeReaderNumpy.read_data", "resistics/time.py::TimeWriterNumpy.run"]}
{"id": "C67", "title": "A project run gives what a quick run gives", "statement": "For a site with one recorded measurement, process_time_to_evals followed by process_evals_to_tf (no remote or intersite data) returns exactly the solution that quick_tf returns for the same recording, configuration and calibration data, and fails when, and as, quick_tf fails; the state of the project before the run does not matter.", "quantifier": "every recording, configuration, project, prior evaluation data and external library behaviour", "why_tests_cant": "all recordings and configurations", "anchors": ["resistics/letsgo.py::quick_tf", "resistics/letsgo.py::process_time_to_evals", "resistics/letsgo.py::process_evals_to_tf", "resistics/letsgo.py::run_decimation", "resistics/letsgo.py::run_windower", "resistics/letsgo.py::run_regression_preparer"]}
{"id": "C68", "title": "Order and repetition of processing commands are irrelevant", "statement": "Running process_time_to_evals for a set of measurements in any order, and any number of times each, leaves the same evaluation data and hence makes process_evals_to_tf return the same result; a failing measurement does not affect the others.", "quantifier": "every list of processing commands, every permutation with repetitions, every project and earlier evaluation data", "why_tests_cant": "all histories of commands", "anchors": ["resistics/letsgo.py::process_time_to_evals", "resistics/letsgo.py::process_evals_to_tf"]}
{"id": "C69", "title": "Solutions are labelled with the frequencies their data were evaluated at", "statement": "The frequencies of the solution returned by process_evals_to_tf are those at which the spectra of the measurements were evaluated.", "quantifier": "every configuration, project and list of time processors", "why_tests_cant": "all configurations, including those whose time processors change the sampling frequency", "anchors": ["resistics/letsgo.py::process_evals_to_tf", "resistics/letsgo.py::process_time_to_evals", "resistics/project.py::get_meas_evals_path"]}
{"id": "C70", "title": "Windows matched across measurements cover the same time", "statement": "Two measurements with equal sampling frequency processed with the same configuration have at each decimation level the same sampling frequency, window size, overlap and evaluation frequencies, so windows with equal global index cover the same time span.", "quantifier": "every pair of recordings, every configuration and windower", "why_tests_cant": "all pairs of recordings of all lengths", "anchors": ["resistics/window.py::WindowSetup.run", "resistics/window.py::WindowerTarget.run", "resistics/letsgo.py::process_time_to_evals", "resistics/gather.py::Selector.run"]}
{"id": "C71", "title": "Channel and frequency accessors address the right slice", "statement": "WindowedData.get_chan, SpectraData.get_chan, get_chans and get_freq return, for every window, exactly the rows or coefficients of the requested channel(s) or frequency index at the requested level, in the order of the request; unknown channels raise ChannelNotFoundError and frequency indices outside 0 <= idx < n_freqs raise ValueError.", "quantifier": "every array, channel list (with repetitions), level and index", "why_tests_cant": "all shapes, channel orders and indices", "anchors": ["resistics/window.py::WindowedData.get_chan", "resistics/spectra.py::SpectraData.get_chan", "resistics/spectra.py::SpectraData.get_chans", "resistics/spectra.py::SpectraData.get_freq"]}
{"id": "C72", "title": "WindowerTarget meets its target number of windows", "statement": "WindowerTarget chooses per level the window size so that the target number of windows is generated, but never a window smaller than min_size; the overlap is the configured proportion of the window rounded down.", "quantifier": "every level length, target, minimum size and overlap proportion", "why_tests_cant": "all lengths and targets", "anchors": ["resistics/window.py::WindowerTarget.run", "resistics/window.py::WindowerTarget._get_win_size"]}
{"id": "C73", "title": "Downsampled plots show recorded samples at their own times", "statement": "The points that TimeData.plot (and every plot with max_pts) draws are samples of the channel at their own timestamps, in time order, including the first and last sample, at most max_pts of them.", "quantifier": "every recording length, data and max_pts; any downsampler choosing among the points it is given", "why_tests_cant": "depends on recordings longer than any test data", "anchors": ["resistics/plot.py::lttb_downsample", "resistics/plot.py::apply_lttb", "resistics/time.py::TimeData.plot"]}
{"id": "C74", "title": "Apparent resistivity and phase of an impedance component", "statement": "get_resistivity gives 0.2 * period * |Z|^2 for every frequency; get_phase gives, for every frequency and up to whole turns, the phase of Z (EyHx, EyHy) or of -Z (ExHx, ExHy); ExHx and ExHy lie in [0, 90] as documented; the value at a frequency does not depend on other frequencies.", "quantifier": "every component of any length", "why_tests_cant": "unwrapping depends on the whole history of values", "anchors": ["resistics/transfunc.py::ImpedanceTensor.get_resistivity", "resistics/transfunc.py::ImpedanceTensor.get_phase"]}
{"id": "C75", "title": "Measurements may be processed at the same time", "statement": "When several processes write evaluation frequency data of different measurements of one project at the same time, in whatever order their file system accesses are interleaved and wherever some of them stop, every process that ends has succeeded with its own data and metadata in place, nothing outside the directories of these measurements changes (readers of other measurements are not disturbed), and when all have ended the project is as if they had run one after another.", "quantifier": "every number of processes, every schedule including those cut short, every project state", "why_tests_cant": "depends on the interleaving", "anchors": ["resistics/spectra.py::SpectraDataWriter.run", "resistics/common.py::ResisticsWriter._check_dir", "resistics/letsgo.py::process_time_to_evals", "resistics/project.py::get_meas_evals_path"]}
{"id": "C76", "title": "Transfer functions may be calculated at the same time", "statement": "When several process_evals_to_tf runs with different solution names (sampling frequencies, postfixes) or different sites run at the same time, each one that ends has stored its solution and none fails because of the others.", "quantifier": "every number of runs, every schedule, every project state", "why_tests_cant": "depends on the interleaving", "anchors": ["resistics/letsgo.py::process_evals_to_tf", "resistics/project.py::get_results_path"]}
{"id": "C77", "title": "The weighted least squares solver recovers exact data and always uses most of the equations", "statement": "With at least one iteration SolverScikitWLS returns, on data generated by a transfer function that the inputs determine, that transfer function; on any data its result is the fit to a subset of the equations that holds more than three quarters of n - 1 of them and leaves out only equations with larger residuals than all it keeps; without iterations there is no result.", "quantifier": "every regression input, every number of iterations, any fit meeting the least squares contract", "why_tests_cant": "depends on the whole history of reweighting passes for arbitrary data", "anchors": ["resistics/regression.py::SolverScikitWLS._get_coef", "resistics/regression.py::SolverScikitWLS.trimmed_mean"]}
{"id": "C78", "title": "The weighted solution does not depend on the units of the observations", "statement": "Multiplying the observations by a positive constant multiplies the result of SolverScikitWLS by that constant.", "quantifier": "every regression input, constant and number of iterations", "why_tests_cant": "fails only for residual distributions with equal quartiles", "anchors": ["resistics/regression.py::SolverScikitWLS._get_coef"]}
{"id": "C79", "title": "Solvers fit no intercept unless asked to", "statement": "With fit_intercept=False (the default), every solver returns on exact, determining data the tensor that generated them.", "quantifier": "every solver, every regression input", "why_tests_cant": "needs data for which a constant term can replace coefficients", "anchors": ["resistics/regression.py::SolverScikit", "resistics/regression.py::SolverScikitHuber.run", "resistics/regression.py::SolverScikitOLS.run"]}
{"id": "C80", "title": "The transfer function between sites is recovered", "statement": "If, in every window the output, input and reference sites have in common, the output site's channels are the tensor Z applied to the input site's channels, and those windows determine Z through the reference site's cross channels, then process_evals_to_tf succeeds and the solution's tensor at each evaluation frequency of each shared level is Z, under that frequency's label. Which site is output, input and reference matters; windows not shared by all three do not.", "quantifier": "every project, number of measurements and windows per site, choice of sites (with defaults), configuration, level and evaluation frequency", "why_tests_cant": "ranges over all data sets and overlaps of the sites' windows", "anchors": ["resistics/letsgo.py::process_evals_to_tf", "resistics/gather.py::Selector.run", "resistics/gather.py::ProjectGather.run", "resistics/regression.py::RegressionPreparerGathered.run"]}
{"id": "C81", "title": "Each sensor is calibrated with its own file", "statement": "A sensor calibration reader reads, for a channel, exactly the file of the calibration directory whose name is file_str with the channel's sensor, serial number and the reader's extension in the places of $sensor, $serial and $extension; no other file influences the calibrated data; different sensors use different files; a missing file or a channel without metadata is an error.", "quantifier": "every pattern, sensor name, serial number, directory content and list of readers", "why_tests_cant": "ranges over all names (including names containing placeholders or separators) and all directory contents", "anchors": ["resistics/calibrate.py::SensorCalibrationReader.run", "resistics/calibrate.py::SensorCalibrationReader._get_path", "resistics/calibrate.py::SensorCalibrator._get_cal_data"]}
{"id": "C82", "title": "Text recordings are read sample for sample", "statement": "Reading a range of samples from a text recording (TimeReaderAscii) gives, for every channel, the numbers of its column in the lines of that range, rounded to single precision, whatever the header, the delimiter and the range; range errors, times and metadata are those of reading the same array from a numpy file.", "quantifier": "every text file of a header and lines of numbers, every number of channels, every requested range by sample or time, every correctly rounded arithmetic", "why_tests_cant": "ranges over all texts, shapes and ranges, including one channel and files that do not match their metadata", "anchors": ["resistics/time.py::TimeReaderAscii.read_data", "resistics/time.py::TimeReaderJSON.read_metadata", "resistics/time.py::TimeReader.run"]}
{"id": "C83", "title": "Processed time data becomes a measurement of the project", "statement": "process_time reads the requested time range of a measurement, applies the time processors in order and saves the result as the named output measurement: reading that measurement afterwards gives the processed samples, their times and the complete history; nothing else in the project changes, and an error while reading or processing changes nothing at all.", "quantifier": "every stored recording, time range, list of time processors, project, source and output measurement, every correctly rounded arithmetic", "why_tests_cant": "ranges over all recordings, processor lists and output places, including the source itself", "anchors": ["resistics/letsgo.py::process_time", "resistics/time.py::TimeReaderNumpy", "resistics/time.py::TimeWriterNumpy"]}
{"id": "C84", "title": "Length and angle of the tipper are the polar coordinates of its vector", "statement": "For a Tipper solution, get_length and get_real_angle give at every frequency the length and the angle in degrees of the vector (Re HzHx, Re HzHy): length times cosine is the first and length times sine the second component; the length is zero exactly for a zero vector and does not depend on the orientation of the axes; get_imag_angle is the same angle of the imaginary parts.", "quantifier": "every dictionary of components, every number of frequencies, all real values", "why_tests_cant": "ranges over all vectors of the plane, including zero components and all quadrants", "anchors": ["resistics/transfunc.py::Tipper.get_length", "resistics/transfunc.py::Tipper.get_real_angle", "resistics/transfunc.py::Tipper.get_imag_angle"]}
{"id": "C85", "title": "Channels are grouped by type", "statement": "Metadata made by get_time_metadata gives every channel exactly one type: the given one, or electric or magnetic by its name. get_chans_with_type, get_electric_chans and get_magnetic_chans list exactly the channels of that type in recording order, any_electric and any_magnetic say whether there are some, get_chan_types lists all types once in alphabetical order, and n_chans is the number of channels.", "quantifier": "every list of channels, every dictionary of channel descriptions, every type", "why_tests_cant": "ranges over all channel lists, names and types, including repeated and unknown ones", "anchors": ["resistics/common.py::get_chan_type", "resistics/common.py::Metadata.validate_n_chans", "resistics/time.py::ChanMetadata.validate_chan_type", "resistics/time.py::TimeMetadata", "resistics/time.py::get_time_metadata"]}
{"id": "C86", "title": "Timestamps give each sample its time", "statement": "get_timestamps of a recording and of a decimation level gives one time per sample (or per requested sample): the time of sample k of a recording is the first time plus k periods, and sample k of a decimation level carries the time of the original sample k times the total decimation factor. The attosecond timestamps are off by less than 1e-13 s per sample, the estimated (pandas) ones by at most k + 1 nanoseconds.", "quantifier": "every recording, every decimated recording and level, every choice of samples", "why_tests_cant": "ranges over all sampling frequencies, lengths and levels; the drift of estimated times only shows for long recordings", "anchors": ["resistics/sampling.py::datetime_array_estimate", "resistics/time.py::TimeData.get_timestamps", "resistics/decimate.py::DecimatedData.get_timestamps"]}
{"id": "C87", "title": "A linear relation between channels is recovered by the whole run", "statement": "If every output channel of a recording is, sample by sample, a fixed real combination of the input channels, then the transfer function computed from the recording (quick_tf, or process_time_to_evals followed by process_evals_to_tf on a project) has exactly these coefficients at every decimation level and evaluation frequency whose windows determine them. The filters, resampling, decimation, removal of the mean, subsection and multiplication by a scalar keep the relation, and so does everything between time data and regression. A complex relation between the evaluated spectra, different for each frequency, is recovered likewise.", "quantifier": "every recording, number of channels and samples, coefficient matrix, list of linear time processors, decimation, window and frequency setup, spectra smoothers, least squares solver, and numerical routines that are linear", "why_tests_cant": "ranges over all recordings, all configurations and all coefficients; a stage treating one channel or one window differently only shows for some of them", "anchors": ["resistics/letsgo.py::quick_tf", "resistics/letsgo.py::process_time_to_evals", "resistics/letsgo.py::process_evals_to_tf", "resistics/time.py::TimeProcess", "resistics/decimate.py::Decimator", "resistics/window.py::Windower", "resistics/spectra.py::FourierTransform", "resistics/spectra.py::EvaluationFreqs", "resistics/gather.py::QuickGather", "resistics/regression.py::RegressionPreparerGathered", "resistics/regression.py::SolverLinear"]}
{"id": "C88", "title": "A transfer function's channel counts, lists and text agree, and the regression follows them", "statement": "A transfer function built from channel lists (TransferFunction, ImpedanceTensor, Tipper) has n_out, n_in, n_cross equal to the lengths of its lists, cross channels equal to the input channels when left out, and the given lists otherwise; it survives a dictionary round trip. With these counts the regression on gathered data and the solution's tensor are those of the channel lists, so that a transfer function generating the data is recovered. Counts which disagree with the lists end in an error. to_string shows every output channel, input channel and element once, in aligned columns, with one equals sign.", "quantifier": "every class default, list of channels, variation, counts, gathered data and least squares solver; every number and length of channel names", "why_tests_cant": "ranges over all channel lists and counts; a disagreement between count and list only shows with particular shapes, and numpy's broadcasting hides one of them", "anchors": ["resistics/transfunc.py::TransferFunction", "resistics/transfunc.py::ImpedanceTensor", "resistics/transfunc.py::Tipper", "resistics/transfunc.py::TransferFunction.to_string", "resistics/regression.py::RegressionPreparerGathered", "resistics/regression.py::Solution.get_tensor", "resistics/regression.py::SolverScikit"]}
{"id": "C89", "title": "Spectra figures show mean moduli over exactly the windows they name", "statement": "SpectraData.plot draws one curve per level and channel: the mean over all windows of the level of the modulus of the coefficient, against the level's frequencies (all of them, or at most max_pts including first and last). plot_level_stack does so for one level by groups: consecutive intervals of the grouping's length counted from midnight of the first day plus the offset, each window in exactly the interval containing its start; without a grouping all windows form one curve. plot_level_section draws for every channel the logarithm of these means against group centre and frequency with colour ticks at the whole powers of ten between smallest and largest value.", "quantifier": "every number of levels, channels, windows and frequencies, every data, start time, grouping, offset and limit of points", "why_tests_cant": "ranges over all window starts relative to midnight, groupings and data; groups without windows and more than ten levels or groups only occur for particular recordings", "anchors": ["resistics/spectra.py::SpectraData.plot", "resistics/spectra.py::SpectraData.plot_level_stack", "resistics/spectra.py::SpectraData._add_stack_data", "resistics/spectra.py::SpectraData.plot_level_section", "resistics/spectra.py::SpectraData.get_timestamps", "resistics/plot.py::apply_lttb"]}
{"id": "C90", "title": "Time figures show each channel in its own panel, at the times of its samples", "statement": "TimeData.plot draws for every channel one curve in the panel titled with it: its samples (all, or at most max_pts including first and last) at the times get_timestamps gives for them. Drawn into an existing figure with that figure's channels, the figure keeps its curves and every channel both have gets a curve in its panel; other channels are skipped. With chans the chosen channels are drawn. DecimatedData.plot draws every level this way, at the times of the level.", "quantifier": "every recording (channels, samples, missing values, first time, sampling frequency), figure, choice of channels, limit of points, number of levels", "why_tests_cant": "ranges over all channel lists, orders and choices and all lengths; a wrong panel shows only when the chosen order differs from the recorded one", "anchors": ["resistics/time.py::TimeData.plot", "resistics/time.py::TimeData.get_timestamps", "resistics/decimate.py::DecimatedData.plot", "resistics/plot.py::get_time_fig", "resistics/plot.py::apply_lttb"]}
{"id": "C91", "title": "Requests for what an object does not hold are refused with the documented error", "statement": "get_level of decimated, windowed and spectra data answers for exactly the levels 0..n_levels-1 and raises ValueError above them; get_timestamps, get_local, get_freq, the window parameters, Selection.get_n_wins, check_sample, sample_to_datetime raise ValueError for levels, windows, indices and samples outside their range; unknown channels are ChannelNotFoundError, unknown sites and measurements SiteNotFoundError and MeasurementNotFoundError, a missing component a ValueError; the path checks say missing, file or directory exactly as the disk does; process and transfer function dictionaries without a name are a KeyError and with an unknown one a ValueError.", "quantifier": "every object the runs return and every level, window, index, sample, channel, site, measurement and path", "why_tests_cant": "all objects and all out-of-range requests, including negative ones; tests try one bad value of a few accessors", "anchors": ["resistics/decimate.py::DecimatedData.get_level", "resistics/decimate.py::DecimatedData.get_timestamps", "resistics/window.py::WindowedData.get_level", "resistics/window.py::WindowedData.get_local", "resistics/window.py::WindowParameters", "resistics/spectra.py::SpectraData", "resistics/gather.py::Selection.get_n_wins", "resistics/sampling.py::check_sample", "resistics/sampling.py::sample_to_datetime", "resistics/common.py::assert_dir", "resistics/common.py::assert_file", "resistics/common.py::dir_contents", "resistics/common.py::get_chan_type", "resistics/project.py::Site.get_measurement", "resistics/project.py::Project.get_site", "resistics/regression.py::Solution.get_component", "resistics/common.py::ResisticsProcess.validate", "resistics/transfunc.py::TransferFunction.validate"]}
{"id": "C92", "title": "quick_spectra, quick_tf and quick_view show the recording of the directory", "statement": "quick_spectra(dir) reads the directory with the first configured reader that can read it; for every level of the result, window k of channel c is the transform of the win_size samples of the level's decimated data that start at sample k * (win_size - olap_size), there are as many windows as fit whole into the level, and without time processors the first, undecimated level holds the samples of the recording itself. quick_tf estimates its transfer function from exactly these spectra. quick_view draws the processed recording (or its decimated levels) channel by channel. If no reader can read the directory all three raise TimeDataReadError.", "quantifier": "every directory, list of readers, configuration without target windowing, recording of up to 2^47 samples at up to 1 MHz, level, window, channel, and every correctly rounded arithmetic", "why_tests_cant": "the composition of reading, processing, decimation, windowing and transform over all recordings and configurations; the repository tests no quick_* function", "anchors": ["resistics/letsgo.py::quick_spectra", "resistics/letsgo.py::quick_view", "resistics/letsgo.py::quick_tf", "resistics/letsgo.py::quick_read", "resistics/letsgo.py::run_windowing", "resistics/letsgo.py::run_fft", "resistics/window.py::get_win_table", "resistics/spectra.py::FourierTransform.run"]}
{"id": "C93", "title": "Tables and timelines list exactly what a project and its parameters hold", "statement": "The table of a loaded project (Project.to_dataframe, Site.to_dataframe) has exactly one row per measurement directory some reader can read, with its name, site, sampling frequency and times; the timeline (panels by site for a project, by measurement for a site) draws every row once, ordered by panel and starting time, entirely inside the drawn range, which starts no later than the reference time, and a project or site without measurements is refused. Row l of the decimation parameter table is what get_eval_freqs, get_fs, get_total_factor and get_incremental_factor say of level l; get_n_evals counts the (level, index) pairs get_n_wins answers for.", "quantifier": "every directory tree, list of readers, project, list of measurements, reference time, decimation setup and selection, and every correctly rounded arithmetic", "why_tests_cant": "all trees, projects and parameters; no test calls to_dataframe of a project or plot_timeline", "anchors": ["resistics/project.py::Site.to_dataframe", "resistics/project.py::Project.to_dataframe", "resistics/project.py::Site.plot", "resistics/project.py::Project.plot", "resistics/plot.py::plot_timeline", "resistics/decimate.py::DecimationParameters.to_numpy", "resistics/decimate.py::DecimationParameters.to_dataframe", "resistics/gather.py::Selection.get_n_evals"]}
{"id": "C94", "title": "Interrupted commands can be repeated", "statement": "If writing decimated, windowed, spectra or evaluation data, time data or a solution is interrupted at any point, any number of times and with any data, then repeating the command (overwrite=True, the default) succeeds, the reader returns the new data and the files on disk are exactly those of a run that was never interrupted; at no crash point has anything outside the output directory's own files changed. With overwrite=False the same must hold, or the first interrupted attempt leaves an unusable directory.", "quantifier": "every directory tree, every number of earlier attempts with any data, every crash point of each of them, every data set", "why_tests_cant": "crash points and histories of crashes are unbounded; tests write once to a fresh directory", "anchors": ["resistics/common.py::ResisticsWriter._check_dir", "resistics/spectra.py::SpectraDataWriter.run", "resistics/decimate.py::DecimatedDataWriter.run", "resistics/window.py::WindowedDataWriter.run", "resistics/time.py::TimeWriterNumpy.run", "resistics/letsgo.py::process_evals_to_tf", "resistics/project.py::get_solution"]}
{"id": "C95", "title": "Reading while another process writes", "statement": "A process that reads spectra, windowed, decimated or evaluation data or a solution while other processes write measurements or solutions gets an error, the complete old or the complete new data, never a mixture and never part of them.", "quantifier": "every interleaving of the reader's looks at the disk with the actions of any number of writers, every data set, every state of the disk", "why_tests_cant": "schedules of several processes are unbounded; tests read after writing", "anchors": ["resistics/spectra.py::SpectraDataReader.run", "resistics/spectra.py::SpectraDataWriter.run", "resistics/decimate.py::DecimatedDataReader.run", "resistics/window.py::WindowedDataReader.run", "resistics/project.py::get_solution", "resistics/letsgo.py::process_evals_to_tf"]}
{"id": "C96", "title": "Processing does not change the project", "statement": "While any number of processes write spectra or evaluation data or save solutions of a project, and wherever they are stopped, load() gives the same project (sites, measurements, times, sampling frequencies, readers) as before, and every reader reads every measurement as before.", "quantifier": "every number of writing processes, every interleaving of their file actions, every point at which each of them stops, every project directory and every set of readers that look only at the measurement directory", "why_tests_cant": "schedules and crash points are unbounded; tests process one project in one process to the end", "anchors": ["resistics/letsgo.py::load", "resistics/letsgo.py::process_time_to_evals", "resistics/letsgo.py::process_evals_to_tf", "resistics/letsgo.py::get_project", "resistics/project.py::get_meas_evals_path", "resistics/project.py::get_meas_spectra_path", "resistics/project.py::get_results_path", "resistics/spectra.py::SpectraDataWriter.run"]}
{"id": "C97", "title": "Only elapsed times matter", "statement": "If every recording, the reference time and the times named in the configuration are moved by the same amount, processing gives the same decimation, windows, spectra and transfer functions (or the same exception); only the reported times move, by that amount.", "quantifier": "every amount, recording, project, configuration (all time processors, both windowers), list of commands, calibration, rounding of floats", "why_tests_cant": "recordings, shifts and configurations are unbounded; tests use one start time", "anchors": ["resistics/letsgo.py::quick_tf", "resistics/letsgo.py::process_time_to_evals", "resistics/letsgo.py::process_evals_to_tf", "resistics/window.py::Windower.run", "resistics/window.py::WindowerTarget.run", "resistics/window.py::get_win_table", "resistics/window.py::datetime_to_win", "resistics/time.py::Subsection.run", "resistics/time.py::ShiftTimestamps.run", "resistics/decimate.py::Decimator.run", "resistics/sampling.py::from_time_to_sample"]}
{"id": "C98", "title": "A transfer function depends on its own channels only", "statement": "Two recordings of the same time that have the same samples in the channels of the transfer function give the same evaluation frequency spectra of these channels and the same transfer function, in whatever order the channels are stored and whatever other channels are recorded beside them, with calibration data or without, in a project or by quick_tf.", "quantifier": "every pair of recordings of at least two channels that agree on the channels, every configuration with Windower and any time processors (ApplyFunction naming the channels), every library meeting its contract", "why_tests_cant": "recordings, numbers and orders of channels and configurations are unbounded", "anchors": ["resistics/letsgo.py::quick_tf", "resistics/time.py::TimeProcess", "resistics/decimate.py::Decimator.run", "resistics/window.py::Windower.run", "resistics/spectra.py::FourierTransform.run", "resistics/spectra.py::EvaluationFreqs.run", "resistics/spectra.py::SpectraData.get_chans", "resistics/gather.py::QuickGather.run", "resistics/calibrate.py::SensorCalibrator.run", "resistics/letsgo.py::process_time_to_evals", "resistics/letsgo.py::process_evals_to_tf"]}
{"id": "C99", "title": "A window holds the same samples whether the recording is processed whole or in part", "statement": "Windows are numbered from the reference time. When a recording and a part of it (samples cut off at its start or its end) are windowed with the same reference time and window parameters, each window of the part has the samples of the window with that number of the whole recording, and at the level that is not decimated the same spectra at the evaluation frequencies. Appending samples to a recording adds windows and changes none.", "quantifier": "every recording and every contiguous part of it, every reference time before it, window and overlap size, level, transform and smoothing", "why_tests_cant": "recordings, cut points, reference times and window parameters are unbounded", "anchors": ["resistics/window.py::get_win_table", "resistics/window.py::get_first_and_last_win", "resistics/window.py::Windower.run", "resistics/spectra.py::FourierTransform.run", "resistics/spectra.py::EvaluationFreqs.run"]}
{"id": "C100", "title": "The transfer function changes with the units of the channels as a ratio of units", "statement": "When the samples of every channel c of a recording are multiplied by a factor k(c) (another unit, a gain not removed), the spectra of channel c are multiplied by k(c), the evaluation frequencies stay the same, and the transfer function entry from input i to output o is multiplied by k(o)/k(i), at every evaluation frequency, provided the cross channels share one factor.", "quantifier": "every recording, every non-zero factor per channel, every configuration of time processors that act linearly on each channel, every decimation, window and spectra setup, with and without sensor calibration, every least squares fit with a unique solution and every fit without preference for units", "why_tests_cant": "recordings, factors, configurations and fits are unbounded", "anchors": ["resistics/letsgo.py::quick_tf", "resistics/regression.py::RegressionPreparerGathered.run", "resistics/regression.py::SolverLinear", "resistics/spectra.py::FourierTransform.run", "resistics/time.py::Multiply"]}
{"id": "C101", "title": "The transfer function is linear in the output channels", "statement": "When an output channel is, sample by sample, a combination of other output channels and of the input channels, then its spectra are the same combination of their spectra, and its row of the transfer function by least squares is the same combination of the other rows, plus the coefficients of the inputs in their columns, at every evaluation frequency; the other outputs may contain any noise.", "quantifier": "every recording, every combination, every configuration of time processors that act on all channels in the same linear way, every decimation, window and spectra setup, every least squares fit with a unique solution", "why_tests_cant": "recordings, combinations, configurations and fits are unbounded", "anchors": ["resistics/letsgo.py::quick_tf", "resistics/regression.py::RegressionPreparerGathered.run", "resistics/regression.py::SolverLinear", "resistics/spectra.py::FourierTransform.run"]}
{"id": "C102", "title": "An output channel has the same transfer function whatever other outputs are asked for", "statement": "Two transfer functions of one recording with the same input and cross channels hold the same entries, number for number, for every output channel both ask for, at the same evaluation frequencies, calibrated or not, with any solver, with quick_tf and from the evaluation data of a project.", "quantifier": "every recording, configuration, list of output channels with that channel, position of the channel in the lists, calibration and solver", "why_tests_cant": "recordings, configurations, lists of channels and solvers are unbounded", "anchors": ["resistics/letsgo.py::quick_tf", "resistics/letsgo.py::process_evals_to_tf", "resistics/regression.py::RegressionPreparerGathered.run", "resistics/regression.py::SolverScikit.run", "resistics/regression.py::Solution.get_tensor"]}
{"id": "C103", "title": "The names and the order of the measurements of a site have no influence on the transfer function", "statement": "If two projects hold the same evaluation data at a sampling frequency for the sites in use, under whatever measurement names and in whatever order, and whatever else they hold, and no window of a site belongs to two measurements with different data, then process_evals_to_tf gives exactly the same transfer function for both, with one site, with inputs from another site and with a remote reference, with any solver.", "quantifier": "every pair of projects with the same evaluation data, number of sites and measurements, names, order, configuration, sampling frequency, choice of sites and solver", "why_tests_cant": "the number, names and order of the measurements, their overlaps and the data are unbounded", "anchors": ["resistics/letsgo.py::process_evals_to_tf", "resistics/gather.py::Selector.run", "resistics/gather.py::get_site_wins", "resistics/gather.py::get_site_level_wins", "resistics/gather.py::ProjectGather.run"]}
{"id": "C104", "title": "A gain in the calibration data changes the transfer function as a ratio of gains, and undoes a change of units", "statement": "When the magnitudes of the calibration data of every calibrated channel c are multiplied by a gain g(c), the transfer function entry from input i to output o is multiplied by g(i)/g(o) at every evaluation frequency, provided the cross channels share one gain. When the recording of every channel c is also multiplied by g(c) (the channel and its calibration are in the same other units), the transfer function stays the same, whatever the gains of the cross channels.", "quantifier": "every recording, every calibration data, every non-zero gain per calibrated channel, every choice of channels to calibrate, every configuration (for the change of units: time processors that act linearly on each channel), every least squares fit with a unique solution and every fit without preference for units", "why_tests_cant": "the recordings, gains, calibration tables, frequencies and channels are unbounded", "anchors": ["resistics/calibrate.py::SensorCalibrator.run", "resistics/calibrate.py::Calibrator._interpolate", "resistics/calibrate.py::Calibrator._calibrate", "resistics/letsgo.py::quick_tf", "resistics/regression.py::RegressionPreparerGathered.run"]}
{"id": "C105", "title": "Magnitudes and phases of spectra", "statement": "get_mag_phs(level) returns, for every window, channel and frequency, the magnitude and the phase angle of the coefficient. Unwrapped phases are the angles up to whole turns, starting with the angle of the first frequency, and step by at most half a turn from one frequency to the next of the same window and channel; they are the angles themselves where those already do, and they recover every phase curve that steps by less than half a turn. The coefficients come back from magnitudes and phases, unwrapped or not. It succeeds for every level of the data and raises for any other.", "quantifier": "every spectra, level, window, channel and phase curve", "why_tests_cant": "spectra, numbers of frequencies and phase curves are unbounded", "anchors": ["resistics/spectra.py::SpectraData.get_mag_phs"]}
