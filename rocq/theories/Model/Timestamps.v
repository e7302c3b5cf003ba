(** The timestamps of time data: resistics/sampling.py 890-936 (datetime_array_estimate),
    resistics/time.py 579-609 (TimeData.get_timestamps) and resistics/decimate.py 624-664
    (DecimatedData.get_timestamps). Pandas times are whole nanoseconds, as in Window.v. *)
From Coq Require Import String.
From Verif Require Import Base.Prelude Base.ListUtil Base.NdArray Model.Sampling Model.Time Model.Decimate Model.Window.
Open Scope list_scope.
Open Scope Q_scope.

Section Timestamps.
  Variable rnd : Q -> Q.
  Variable ns_time : Q -> Z.    (* pd.to_datetime(t.isoformat()), nanoseconds *)
  Variable ns_delta : Q -> Z.   (* pd.Timedelta(x, "s"), nanoseconds *)

  (** an array of attodatetimes or a pandas DatetimeIndex *)
  Inductive timestamps := High (times : list time) | Estimated (nanoseconds : list Z).

  (** datetime_array_estimate, sampling.py 928-936, with n_samples or samples *)
  Definition estimate (first_time : time) (fs : Q) (n_samples : option Z) (samples : option (list Z)) : res (list Z) :=
    match n_samples with
    | Some n => datetime_array_estimate rnd ns_time ns_delta first_time fs n
    | None =>
        if Qeq_bool fs 0 then Err ZeroDivisionError
        else match samples with
             | None => Err ValueError
             | Some l => Ok (map (fun k => (ns_time first_time + k * ns_delta (rnd (1 / fs)))%Z) l)
             end
    end.
  (** fnc(first_time, fs, ...) in both methods *)
  Definition stamps_of (first_time : time) (fs : Q) (n_samples : Z) (samples : option (list Z)) (est : bool) : res timestamps :=
    let n := match samples with Some _ => None | None => Some n_samples end in
    if est then l <- estimate first_time fs n samples ;; Ok (Estimated l)
    else if Qeq_bool fs 0 then Err ZeroDivisionError
    else l <- datetime_array rnd first_time fs n samples ;; Ok (High l).
  (** TimeData.get_timestamps, time.py 602-609 *)
  Definition time_timestamps (td : tdata) (samples : option (list Z)) (est : bool) : res timestamps :=
    stamps_of (first_time (meta td)) (fs (meta td)) (n_samples (meta td)) samples est.
  (** DecimatedData.get_timestamps, decimate.py 654-664; levels_metadata is a python list *)
  Definition dec_timestamps (d : dec_data) (level : Z) (samples : option (list Z)) (est : bool) : res timestamps :=
    if (level >=? dd_n_levels d)%Z then Err ValueError
    else match py_nth (dd_levels_md d) level with
         | None => Err IndexError
         | Some m => stamps_of (lm_first m) (lm_fs m) (lm_n_samples m) samples est
         end.
End Timestamps.
