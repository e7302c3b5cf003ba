(** Specification vocabulary for processing runs. *)
From Coq Require Import String.
From Verif Require Import Base.Prelude Base.ListUtil Base.NdArray Base.Cplx
  Model.Sampling Model.Time Model.Decimate Model.Window Model.Spectra Model.Calibrate Model.Gather Model.Regression Model.Pipeline
  Spec.Calibrate Spec.Gather.
Open Scope list_scope. Open Scope Z_scope.

(** every level of the decimated data has one row per channel and as many samples as its metadata say *)
Definition levels_sized (d : dec_data) : Prop :=
  forall i m, nth_error (dd_levels_md d) i = Some m -> exists ld, get_level d (Z.of_nat i) = Ok ld /\
    length ld = length (dd_chans d) /\ forall r, In r ld -> Z.of_nat (length r) = lm_n_samples m.
(** windows have at least two samples, and no level has exactly as many samples as its window (one start
    position: the array loses an axis, see C36) *)
Definition window_sizes_ok (p : win_params) (d : dec_data) : Prop :=
  forall i m w, nth_error (dd_levels_md d) i = Some m -> nth_error (wp_win_sizes p) i = Some w -> 2 <= w /\ w <> lm_n_samples m.
(** the channels of the transfer function are recorded *)
Definition has_channels (tf : tf_chans) (cs : list chan) : Prop :=
  tf_out tf <> [] /\ tf_in tf <> [] /\ tf_cross tf <> [] /\ incl (tf_out tf) cs /\ incl (tf_in tf) cs /\ incl (tf_cross tf) cs.

(** time data that the configuration can process: Windower, at least two channels with those of the transfer
    function, levels as long as their metadata say, no window exactly as long as its level *)
Definition processable (L : library) (c : config) (td : tdata) : Prop :=
  cf_target c = None /\ 1 <= ws_min_n_wins (cf_win c) /\ 1 <= ds_per_level (cf_dec c) /\
  forall td' p dd wp, run_all (l_rnd L) (l_drnd L) (l_orc L) (cf_time c) td = Ok td' ->
    dec_params_of L c (fs (meta td')) = Ok p -> run_decimation L c p td' = Ok dd ->
    win_setup_run (l_rnd L) (cf_win c) (dd_n_levels dd) (dd_fs dd) = Ok wp ->
    (2 <= length (chans (meta td')))%nat /\ has_channels (cf_tf c) (chans (meta td')) /\ levels_sized dd /\ window_sizes_ok wp dd.
(** the time processors that give the data another sampling frequency *)
Definition changes_fs (p : proc) : bool := match p with PResample _ | PDecimate _ _ => true | _ => false end.
(** the time processors do not change the sampling frequency *)
Definition keeps_fs (L : library) (c : config) (td : tdata) : Prop :=
  forall td', run_all (l_rnd L) (l_drnd L) (l_orc L) (cf_time c) td = Ok td' -> fs (meta td') = fs (meta td).
(** the calibration used by quick_tf is the project's: the same readers, or none at all when there is no
    calibration data for any channel *)
Definition same_calibration (quick : option (list (chan -> res cal_data))) (project : list (chan -> res cal_data)) : Prop :=
  quick = Some project \/ (quick = None /\ forall c, no_success project c).
(** np.empty delivers the shape asked for *)
Definition junk_rows (L : library) : Prop := forall k r c, length (l_junk L k r c) = r.

(** the records a run leaves in the history: one per processor, in order *)
Definition sproc_record (p : sproc) : creator := COther (match p with SUniform _ => "SpectraSmootherUniform" | SGaussian _ => "SpectraSmootherGaussian" end).
Definition run_records (c : config) : list creator :=
  map CProc (cf_time c) ++ [COther "Decimator"; COther (match cf_target c with None => "Windower" | Some _ => "WindowerTarget" end); COther "FourierTransform"]
  ++ map sproc_record (cf_spec c) ++ [COther "EvaluationFreqs"].
