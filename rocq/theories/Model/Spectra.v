(** Model of resistics/spectra.py (without plotting and file access).

    Simplifications: history messages are dropped; Fourier coefficients are complex
    numbers with rational parts and their arithmetic is exact; the numerical routines
    (detrending, tapering and FFT of one window; smoothing of one spectrum) are
    parameters acting on the last axis. Fields copied unchanged from the windowed data
    are one opaque value. *)
From Coq Require Import String.
From Verif Require Import Base.Prelude Base.Rounding Base.ListUtil Base.Interp Base.NdArray Base.Cplx
  Model.Sampling Model.Time Model.Decimate Model.Window.
Open Scope Q_scope.

(** SpectraLevelMetadata, spectra.py 26-47 *)
Record spec_level := mkSpecLevel {
  sl_fs : Q; sl_n_wins : Z; sl_win_size : Z; sl_olap_size : Z; sl_offset : Z; sl_n_freqs : Z; sl_freqs : list Q }.
(** SpectraMetadata, 50-73 *)
Record spec_md := mkSpecMd {
  sm_fs : list Q; sm_chans : list chan; sm_n_levels : Z; sm_first : time; sm_last : time; sm_info : string;
  sm_levels : list spec_level; sm_ref : time; sm_history : list creator }.
(** SpectraData, 76-99; the element type is a parameter *)
Record spec_data (A : Type) := mkSpec { sd_md : spec_md; sd_data : list (Z * nd A) }.
Arguments mkSpec {A} _ _.
Arguments sd_md {A} _.
Arguments sd_data {A} _.

Definition with_spec_history (m : spec_md) (h : list creator) : spec_md :=
  mkSpecMd (sm_fs m) (sm_chans m) (sm_n_levels m) (sm_first m) (sm_last m) (sm_info m) (sm_levels m) (sm_ref m) h.

(** SpectraData.__init__ 97: data[0] is evaluated *)
Definition make_spec {A} (m : spec_md) (data : list (Z * nd A)) : res (spec_data A) :=
  match find (fun kv => Z.eqb (fst kv) 0) data with
  | Some _ => Ok (mkSpec m data)
  | None => Err KeyError
  end.

Definition sd_at {A} (d : spec_data A) (level : Z) : res (nd A) :=
  match find (fun kv => Z.eqb (fst kv) level) (sd_data d) with Some (_, x) => Ok x | None => Err KeyError end.
(** get_level 101-105 *)
Definition sd_get_level {A} (d : spec_data A) (level : Z) : res (nd A) :=
  if (level >=? sm_n_levels (sd_md d))%Z then Err ValueError else sd_at d level.
(** get_chan 107-114 *)
Definition sd_get_chan {A} (d : spec_data A) (level : Z) (c : chan) : res (nd A) :=
  match first_index c (sm_chans (sd_md d)) with
  | None => Err ChannelNotFoundError
  | Some i => x <- sd_at d level ;; nd_pick i x
  end.
(** get_chans 116-124 *)
Definition sd_get_chans {A} (d : spec_data A) (level : Z) (cs : list chan) : res (nd A) :=
  is <- mapM (fun c => match first_index c (sm_chans (sd_md d)) with
                       | None => Err ChannelNotFoundError
                       | Some i => Ok i end) cs ;;
  x <- sd_at d level ;; nd_picks is x.
(** levels_metadata[level] *)
Definition sd_level_md {A} (d : spec_data A) (level : Z) : res spec_level :=
  match py_nth (sm_levels (sd_md d)) level with Some m => Ok m | None => Err IndexError end.
(** get_freq 126-131 *)
Definition sd_get_freq {A} (d : spec_data A) (level idx : Z) : res (nd A) :=
  m <- sd_level_md d level ;;
  if (idx <? 0)%Z || (idx >=? sl_n_freqs m)%Z then Err ValueError
  else x <- sd_at d level ;; y <- nd_last_at idx x ;; Ok (squeeze y).

Section Spectra.
  Variable rnd : Q -> Q.
  Variable ns_time : Q -> Z.
  Variable ns_delta : Q -> Z.

  (** get_timestamps 142-175 *)
  Definition sd_get_timestamps {A} (d : spec_data A) (level : Z) : res (list Z) :=
    if (level >=? sm_n_levels (sd_md d))%Z then Err ValueError else
    m <- sd_level_md d level ;;
    get_win_starts rnd ns_time ns_delta (sm_ref (sd_md d)) (sl_win_size m) (sl_olap_size m) (sl_fs m)
      (sl_n_wins m) (sl_offset m).

  (** ** FourierTransform *)
  Variable next_fast_len : Z -> Z.                                (* scipy.fft.next_fast_len *)
  Variable transform : Z -> Z -> list cell -> res (list cq).      (* 539-544 for one window: window size, transform size *)

  (** rfftfreq(n, d = 1/fs), 494: arange(n // 2 + 1) * (1 / (n * d)) *)
  Definition rfft_freqs (n : Z) (fs : Q) : res (list Q) :=
    if Qeq_bool fs 0 then Err ZeroDivisionError else
    let den := rnd (inject_Z n * rnd (1 / fs)) in
    if Qeq_bool den 0 then Err ZeroDivisionError else
    Ok (map (fun k => rnd (inject_Z k * rnd (1 / den))) (arange (n / 2 + 1))).

  (** _get_level_metadata 555-562 *)
  Definition fourier_level_md (m : win_level) (freqs : list Q) : spec_level :=
    mkSpecLevel (wl_fs m) (wl_n_wins m) (wl_win_size m) (wl_olap_size m) (wl_offset m) (Z.of_nat (length freqs)) freqs.
  (** the loop 488-501 *)
  Definition fourier_level (d : win_data) (ilevel : Z) : res ((Z * nd cq) * spec_level) :=
    m <- wd_level_md d ilevel ;;
    let n := next_fast_len (wl_win_size m) in
    freqs <- rfft_freqs n (wl_fs m) ;;
    x <- wd_get_level d ilevel ;;
    y <- nd_last (transform (wl_win_size m) n) x ;;
    Ok ((ilevel, y), fourier_level_md m freqs).
  (** run 463-505, _get_metadata 564-572 *)
  Definition fourier_run (d : win_data) : res (spec_data cq) :=
    r <- mapM (fourier_level d) (arange (wd_n_levels d)) ;;
    make_spec (mkSpecMd (wd_fs d) (wd_chans d) (wd_n_levels d) (wd_first d) (wd_last d) (wd_info d)
                 (map snd r) (wd_ref d) (wd_history d ++ [COther "FourierTransform"])) (map fst r).

  (** ** EvaluationFreqs *)
  (** _get_level_data 735-744 for one spectrum; np.interp gives the fractional position *)
  Definition eval_at (freqs : list Q) (v : list cq) (f : Q) : res cq :=
    pos <- np_interp (combine freqs (map inject_Z (arange (Z.of_nat (length freqs))))) f ;;
    let floor_ := qfloor pos in
    let ceil_ := qceil pos in
    let portion := pos - inject_Z floor_ in
    match py_nth v ceil_, py_nth v floor_ with
    | Some c, Some b => Ok (cplus b (cscale portion (cminus c b)))
    | _, _ => Err IndexError
    end.
  Definition eval_vec (freqs evals : list Q) (v : list cq) : res (list cq) := mapM (eval_at freqs v) evals.
  (** the loop 681-691 and _get_level_metadata 746-753 *)
  Definition eval_level (p : dec_params) (d : spec_data cq) (ilevel : Z) : res ((Z * nd cq) * spec_level) :=
    m <- sd_level_md d ilevel ;;
    evals <- level_eval_freqs p ilevel ;;
    x <- sd_get_level d ilevel ;;
    y <- nd_last (eval_vec (sl_freqs m) evals) x ;;
    Ok ((ilevel, y), mkSpecLevel (sl_fs m) (sl_n_wins m) (sl_win_size m) (sl_olap_size m) (sl_offset m)
                       (Z.of_nat (length evals)) evals).
  (** run 656-696, _get_metadata 755-761 *)
  Definition evals_run (p : dec_params) (d : spec_data cq) : res (spec_data cq) :=
    r <- mapM (eval_level p d) (arange (sm_n_levels (sd_md d))) ;;
    let m := sd_md d in
    make_spec (mkSpecMd (sm_fs m) (sm_chans m) (sm_n_levels m) (sm_first m) (sm_last m) (sm_info m)
                 (map snd r) (sm_ref m) (sm_history m ++ [COther "EvaluationFreqs"])) (map fst r).

  (** ** Smoothers *)
  Variable uniform_filter1d : Z -> list cq -> list cq.      (* scipy.ndimage: size *)
  Variable gaussian_filter1d : Q -> list cq -> list cq.     (* scipy.ndimage: sigma *)

  (** _get_smooth_length 907-914 *)
  Definition smooth_length (proportion : Q) (data_size : Z) : Z :=
    let length := qtrunc (rnd (proportion * inject_Z data_size)) in
    let length := if (length mod 2 =? 0)%Z then (length + 1)%Z else length in
    if (length <? 1)%Z then 1%Z else length.

  Definition smooth_run (name : string) (f : Z -> res (list cq -> list cq)) (d : spec_data cq) : res (spec_data cq) :=
    r <- mapM (fun ilevel => g <- f ilevel ;; x <- sd_get_level d ilevel ;;
                             y <- nd_last (fun v => Ok (g v)) x ;; Ok (ilevel, y))
              (arange (sm_n_levels (sd_md d))) ;;
    make_spec (with_spec_history (sd_md d) (sm_history (sd_md d) ++ [COther name])) r.
  (** SpectraSmootherUniform.run 875-905 *)
  Definition smooth_uniform (proportion : Q) (d : spec_data cq) : res (spec_data cq) :=
    smooth_run "SpectraSmootherUniform" 
      (fun ilevel => m <- sd_level_md d ilevel ;; Ok (uniform_filter1d (smooth_length proportion (sl_n_freqs m)))) d.
  (** SpectraSmootherGaussian.run 948-975: line 969 passes the literal 1 for the width *)
  Definition smooth_gaussian (sigma : Q) (d : spec_data cq) : res (spec_data cq) :=
    smooth_run "SpectraSmootherGaussian" (fun _ => Ok (gaussian_filter1d 1)) d.
End Spectra.
