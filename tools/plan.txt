C01 | Sampling.v: from_time_to_sample, to_n_samples, to_timedelta | ceil of an exact quotient; relative error propagation for good_rnd
C02 | Sampling.v: to_time_to_sample | floor of an exact quotient; relative error propagation
C03 | Sampling.v: sample_to_datetime + C01/C02 | composition; vm_compute counter-examples in binary64; dyadic argument for 2^p
C04 | Sampling.v: to_timedelta, to_seconds | integer truncation bounds
C05 | Sampling.v: to_n_samples | floor / ceil / half-even characterisations
C06 | DateTime.v: datetime_to_string, string_to_datetime, HighResDateTime.validate | decimal printer/parser inversion (Base/Dec.v), calendar of the proleptic Gregorian year
C07 | Sampling.v: datetime_array (+estimate) | induction on the array, pointwise equality with sample_to_datetime
C08 | Sampling.v, Time.v: check_sample, _get_read_samples | range analysis with 2^49 bound on float error
C09 | Time.v: TimeReader.run / numpy data slice | list slicing lemmas
C10 | Time.v: Subsection.run | C01 + C02 + slice
C11 | Time.v: Subsection.run twice | arithmetic on offsets; same code path as a partial read
C12 | Alias.v: heap of History / ChanMetadata / array cells, every copy() is shallow | induction over session histories, frame lemmas
C13 | Time.v: all processors | every run appends exactly one record; induction over a pipeline
C14 | Time.v: prime_factorisation, get_downsample_factors | loop invariant, product and primality
C15 | Time.v: Decimate, Resample | length contracts of the scipy oracles
C16 | Time.v: RemoveMean | sums over Q
C17 | Time.v: InterpolateNans, Base/Interp.v (np.interp) | induction over the knots
C18 | Time.v: Add, Multiply | pointwise; binary64 counter-example
C19 | Time.v: ApplyFunction with np.empty cells | None cells remain
C20 | Time.v: ShiftTimestamps; Base/B32.v for float32 | uniform grid interpolation; vm_compute in float32
C21 | Time.v: TimeData get/set | list update lemmas
C22 | Persist.v: Time writers and readers on the file tree | trace semantics of writes then read
C23 | Time.v: any list of processors | invariant by induction over the pipeline
C24 | Time.v: LowPass/HighPass/BandPass/Notch argument computation | bounds under good_rnd; counter-examples
C25 | Decimate.v: get_eval_freqs_* | induction over the number of frequencies
C26 | Decimate.v: while loop with fuel | loop invariant, optimality; non-termination for every fuel
C27 | Decimate.v: DecimationSetup.run increments | products of ratios
C28 | Decimate.v: Decimator.run loop | loop invariant over levels
C29 | Decimate.v: DecimationParameters | list indexing
C30 | Window.v: get_win_table | bounds for every row, counter-example in binary64
C31 | Window.v: global offset + index | time of row = reference + index * increment within tolerance
C32 | Window.v: get_first_and_last_win | search loop characterised as first complete window
C33 | Window.v: get_first_and_last_win | termination of the backward search, family of failures
C34 | Window.v: WindowedData.get_local / get_global | direct, universal refutation
C35 | Window.v: WindowSetup, WindowerTarget sizes | bounds
C36 | Window.v + Base/NdArray.v: sliding_window_view, squeeze | array shape algebra
C37 | Window.v: _get_level_metadata, window_to_datetime | equality of two formulas
C38 | Window.v: WindowedMetadata | loop invariant over levels
C39 | Window.v: datetime_to_window, window_to_datetime | as C01-C03
C40 | Spectra.v: EvaluationFreqs + np.interp | interpolation lemmas, grid bounds
C41 | Spectra.v: smooth length | parity
C42 | Spectra.v: SpectraSmootherGaussian | shows the passed width
C43 | Calibrate.v: SensorCalibrator._get_calibrator | search order; error isolation per channel
C44 | Calibrate.v: calibrate arrays | pointwise division, broadcasting rules of numpy for 2/3 dims
C45 | Calibrate.v: SensorCalibrationTXT | string functions on lines
C46 | Gather.v: SiteCombinedMetadata / table of windows | fold over measurements
C47 | Gather.v: Selector.run | set intersection by merging sorted lists
C48 | Gather.v: ProjectGather.run with np.empty cells | loop invariant over measurements; independent of np.empty contents
C49 | Gather.v: QuickGather vs ProjectGather | equality of two runs
C50 | Regression.v: preparers; Base/Cplx.v | real/imag row equations equivalent to the complex system
C51 | Regression.v: both preparers | equality of two runs
C52 | Regression.v: Solution.get_* | association list with concatenated keys
C53 | Regression.v: weight functions | bounds and monotonicity over Q
C54 | Letsgo.v: new, load; Base/FileSys.v | trace of atomic steps, every crash prefix
C55 | Persist.v: writers | every prefix of the write trace
C56 | Project.v: get_concurrent | interval overlap
C57 | Project.v: fs grouping | sets of frequencies
C58 | Letsgo.v, Project.v: solution file names, run histories | injectivity of the name function, induction over histories
C59 | Process.v: registry, validators, dictionaries | mutual induction over nested values
C60 | Letsgo.v, Time.v: reader search | first match over reader list
C61 | Project.v: path functions | injectivity
C62 | Project.v: get_dir_contents etc. | filter lemmas, counter-example
C63 | Spectra.v: FourierTransform.run | metadata equality per level
C64 | Letsgo.v: load_project | fold over the directory tree
C65 | Persist.v: level data writers / readers | round trip on traces
C66 | Persist.v: memory-mapped reads | view as a pointer into the file
C67 | Pipeline.v: quick_tf, process_time_to_evals, process_evals_to_tf on a store of evaluation data | relate the single measurement gather to quick_gather through the shapes of all stages
C68 | Pipeline.v: run_session over command lists | store lookup after a session depends only on the set of commands
C69 | Pipeline.v: dec_params_of for the requested fs against those of the evaluation data | follow the evaluation frequencies through the stages; counterexample by vm_compute
C70 | Pipeline.v: to_evals for two recordings | parameters depend only on fs and the configuration; counterexample by vm_compute for WindowerTarget
C71 | Window.v, Spectra.v: wd_get_chan, sd_get_chan, sd_get_chans, sd_get_freq on nd-arrays | structural induction on the arrays
C72 | Window.v: target_win_size, windower_target_run | floor of the exact quotient; counterexample by vm_compute
C73 | Display.v: lttb_downsample, apply_lttb with float32 conversion, downsampler as oracle | b32 is exact below 2^24; concrete rounding of 2^24+1 for the refutation
C74 | Display.v: get_phase with np.unwrap, get_resistivity | induction over the unwrapping with an invariant on whole turns
C75 | Parallel.v: writers as sequences of atomic file system actions, schedules as lists of process numbers, pathlib mkdir as its sequence of system calls | rely/guarantee predicate per process, directories apart; induction over the schedule; equality with the sequential model of Persist.v
C76 | Parallel.v: par_save_solution (exists, mkdir, write) | rely/guarantee in an existing directory; explicit schedule for every new directory
C77 | `wls_pass`, `wls_loop`, `robust_scale`, `quantile` (regression.py 1042-1074, numpy/scikit-learn quantiles written out) | on exact data the residuals are 0 so weights stay 1 in every pass (induction over passes); quantiles are monotone and everything up to the third quartile gets weight 1; elimination (Base/Elim.v) meets the contracts
C78 | the same, observations times a constant | equivariance of sorting, quantiles and residuals by induction; refuted for coinciding quartiles, where the scale falls back to 1, for every minimising fit
C79 | `intercept_used`, `run_solver_with` (regression.py 897-922, 978-1009) | corollary of C50 for solvers passing the flag; refutation for Huber, which drops it, for every estimator returning the smallest affine fit
C80 | `process_evals_to_tf` on Selector, ProjectGather, preparer and solver | composition of C47 (tables are the shared windows), C48 (gathered rows are the sites' rows), C29 and C50; rows of a site are unique per window
C81 | `py_replace`, `file_name`, `get_path`, `sreader_run` (calibrate.py 187-251) | induction over pattern pieces, one replacement after the other; first underscore splits uniquely; refutations by concrete names
C82 | text files as strings, numpy.loadtxt modelled line by line (skiprows, max_rows, comments, squeeze), array of any rank | induction over the lines; equality with reading the transposed table by the numpy reader
C83 | process_time as a program over the file tree: read through a memory map, processors of Model/Time.v, numpy writer | composition of the reader, processor and writer theorems; a memory map of another file is equal to its elements
C84 | the three functions over Coq's real numbers (sqrt, atan, PI), numpy broadcasting, division by zero as infinity or nan | trigonometric identities of the standard library
C85 | channel dictionaries, validators and selections as functions on lists and association lists | induction over the channels; invariant of the dictionary comprehension
C86 | timestamps as lists of exact times or of whole nanoseconds, pandas' conversions as functions with a half-nanosecond contract | pointwise on the sample number, using the decimator's level invariant (C28)
C87 | the whole pipeline model (time processors, decimation, windows, spectra, evaluation frequencies, gathering, normal equations, solver), with scipy's routines as functions assumed linear | a relation between the rows of the output and input channels is carried through each stage by induction on the list of processors, levels and windows; then C50's exact recovery
C88 | construction with the validators, regression with the counts next to the lists (numpy broadcasting an axis of length one), the text line by line | case analysis of the constructor; equality with the regression of Model/Regression.v when the counts agree; position of every substring in a line
C89 | the traces and heatmaps as values (pandas' Grouper for fixed frequencies, numpy's means, the iterator of ten colours) | sums over windows by induction; division with remainder for the intervals; minimum and maximum of the logarithms for the ticks
C90 | figures as panel titles and curves; the loop over channels with its skips; downsampling and estimated timestamps as in C73 and C86 | induction over the channels and the levels; each curve's row is the position of its channel
C91 | the accessors of all modelled objects | the keys of the data dictionaries by induction over the level loops; each accessor's refusals characterised as an iff or on the complement of its range
C92 | Model/Quick.v on top of the pipeline | the window table of a recording that starts at the reference time begins at sample 0 in every rounding; the sliding view gives the samples of each window; composed with the decimator and transform lemmas
C93 | Model/Tables.v over the project and decimation models | rows of a loaded project by the loader's specification (C64), the sort by insertion, the range by minimum, maximum and a non-negative pad; refutation for late reference times
C94 | the file system programs of C22, C58, C65; crash = any state of the trace | an invariant kept by every step of every attempt: nothing but the named files, the directory and its parents changes, and no file sits where a directory is needed; so the last run starts in a writable state and C22, C58, C65 apply to it
C95 | the writers of C75, C76 as sequences of atomic actions, the reader as three looks at the disk (exists, metadata, data) at any times | an invariant along every schedule with a mark set once the data file is complete: before it the metadata are the old ones, after it the data are the new ones
C96 | load of Model/Letsgo on the disk left by any schedule of the writers of C75 and savers of C76 | every action of a writer keeps the time directory and the project file, an invariant of every schedule; load depends on those only
C97 | a relation between two recordings, decimated, windowed and spectra data that differ only in their times; the whole of Model/Pipeline.v | the relation is kept by every stage; comparisons and differences of times are invariant, every rounding is a function of the value
C98 | a relation between two recordings (and decimated, windowed and spectra data) that have the same vectors at the places of the common channels; the whole of quick_tf in Model/Pipeline.v | the relation is kept by every process and stage: each works on one channel at a time, and the sizes and metadata do not depend on the channels
C99 | two windowings of Model/Window.v, of a level and of a level whose rows are slices of it; the first level of to_evals in Model/Pipeline.v | a complete window of the part is a complete window of the whole (C32) and its first sample is the last one at or before its start (C31), hence the same one; transform, smoothing and interpolation work on one window and channel at a time
C100 | quick_tf of Model/Pipeline.v on two recordings; the fit as a minimiser of the sum of squares of the residuals | every stage maps two recordings related by the factors to data related by the factors; the columns of the prepared equations are scaled by k(i)k(x) and the observations by k(o)k(x), x the cross channels; a minimiser of determined equations is unique (parallelogram identity), so it scales by the quotient
C101 | quick_tf of Model/Pipeline.v; the fit as a minimiser of the sum of squares of the residuals | the stages map combinations of channels to combinations (as for C87); a minimiser satisfies the normal equations, these are linear in the observations, and determined equations have one minimiser
C102 | quick_tf and process_evals_to_tf of Model/Pipeline.v under two configurations that differ in tf_out only | the gathered rows are those of the evaluation data; the equations of an output are those of its own column; the solution holds the tensors that were fitted (C52)
C103 | process_evals_to_tf of Model/Pipeline.v on two projects with the same data (Spec/Renamed.v: same_data, separate) | selected windows are determined by the data (C46, C47), the rows by the windows (C48, a window has one measurement), the solution by the rows
C104 | quick_tf of Model/Pipeline.v with two lists of calibration readers related by gains (Spec/Gain.v) | np.interp is linear in the magnitudes, so the calibrated coefficients of channel c are divided by g(c) in one recording and, with other units, stay the same; then as C100
C105 | get_mag_phs of Model/MagPhs.v with numpy's unwrap written out (exact rationals, a turn is a parameter) | the correction of a step is a whole number of turns and leaves at most half a turn; induction along the frequencies, two curves with small steps that agree up to turns are equal
