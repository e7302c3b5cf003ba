(** Model of resistics/sampling.py.

    Times ([attodatetime]) and time deltas ([attotimedelta]) are rationals, in
    seconds from an arbitrary epoch (simplification: attotime stores the
    sub-microsecond part as a Decimal with 28 significant digits; here it is
    unbounded).  Floats are rationals and every float operation of the code is
    followed by [rnd].  Integers are Z. *)
From Verif Require Import Base.Prelude Base.Rounding.
Open Scope Q_scope.

Notation time := Q (only parsing).
Notation tdelta := Q (only parsing).

(** Fields of a normalised attotimedelta, as [datetime.timedelta] normalises
    them: 0 <= seconds < 86400, 0 <= microseconds < 10^6, 0 <= nanoseconds < 1000
    (the latter with fraction). Used by sampling.py 314-318. *)
Definition td_days (d : tdelta) : Z := qfloor (d / inject_Z 86400).
Definition td_seconds (d : tdelta) : Z := (qfloor d - 86400 * td_days d)%Z.
Definition td_micros (d : tdelta) : Z := qfloor ((d - inject_Z (qfloor d)) * inject_Z 1000000).
Definition td_nanos (d : tdelta) : Q :=
  ((d - inject_Z (qfloor d)) * inject_Z 1000000 - inject_Z (td_micros d)) * inject_Z 1000.

(** Rounding methods of to_n_samples (sampling.py 385-389) *)
Inductive method := Mround | Mfloor | Mceil.

Section Sampling.
  Variable rnd : Q -> Q.

  (** sampling.py 248, the float literal 0.0001 *)
  Definition td_eps : Q := rnd (1 # 10000).

  (** to_timedelta on a number, sampling.py 249-260 *)
  Definition to_timedelta (delta : Q) : tdelta :=
    let seconds := qfloor delta in
    let delta := rnd (rnd (delta - inject_Z seconds) * inject_Z 1000000) in
    let microseconds := qfloor delta in
    let delta := rnd (delta - inject_Z microseconds) in
    let nanoseconds := rnd (delta * inject_Z 1000) in
    let nanoseconds :=
      if negb (Qeq_bool nanoseconds 0) && Qltb nanoseconds td_eps then 0 else nanoseconds in
    inject_Z seconds + inject_Z microseconds / inject_Z 1000000
    + nanoseconds / inject_Z 1000000000.

  (** to_seconds, sampling.py 271-320. [float(delta.nanoseconds)] rounds. *)
  Definition to_seconds (d : tdelta) : Z * Q :=
    let days_in_seconds := (td_days d * (3600 * 24))%Z in
    let microseconds_in_seconds := rnd (inject_Z (td_micros d) / inject_Z 1000000) in
    let nanoseconds_in_seconds := rnd (rnd (td_nanos d) / inject_Z 1000000000) in
    let remaining_in_seconds :=
      rnd (rnd (inject_Z (td_seconds d) + microseconds_in_seconds) + nanoseconds_in_seconds) in
    (days_in_seconds, remaining_in_seconds).

  (** to_n_samples, sampling.py 323-389 *)
  Definition to_n_samples (d : tdelta) (fs : Q) (m : method) : Z :=
    let '(days_in_seconds, remaining_in_seconds) := to_seconds d in
    let n := rnd (rnd (inject_Z days_in_seconds + remaining_in_seconds) * fs) in
    let n := rnd (n + 1) in
    if q_is_integer n then qfloor n
    else match m with
         | Mfloor => qfloor n
         | Mceil => qceil n
         | Mround => qround n
         end.

  (** check_sample, sampling.py 392-433 *)
  Definition check_sample (n_samples sample : Z) : res bool :=
    if (sample <? 0)%Z then Err ValueError
    else if (sample >=? n_samples)%Z then Err ValueError
    else Ok true.

  (** The sample period used everywhere: to_timedelta(1 / fs), lines 478, 884, 887 *)
  Definition period (fs : Q) : tdelta := to_timedelta (rnd (1 / fs)).

  (** sample_to_datetime, sampling.py 436-478 *)
  Definition sample_to_datetime (fs : Q) (first_time : time) (sample : Z) (n_samples : option Z)
    : res time :=
    match n_samples with
    | Some n => if (sample <? 0)%Z || (sample >=? n)%Z then Err ValueError
                else Ok (first_time + inject_Z sample * period fs)
    | None => Ok (first_time + inject_Z sample * period fs)
    end.

  (** samples_to_datetimes, sampling.py 481-533 *)
  Definition samples_to_datetimes (fs : Q) (first_time : time) (from_sample to_sample : Z)
    : res (time * time) :=
    if (from_sample >=? to_sample)%Z then Err ValueError else
    from_time <- sample_to_datetime fs first_time from_sample None ;;
    to_time <- sample_to_datetime fs first_time to_sample None ;;
    Ok (from_time, to_time).

  (** check_from_time, sampling.py 536-603 *)
  Definition check_from_time (first_time last_time from_time : time) : res time :=
    if Qltb last_time from_time then Err ValueError
    else if Qltb (from_time - first_time) 0 then Ok first_time
    else Ok from_time.

  (** check_to_time, sampling.py 606-670 *)
  Definition check_to_time (first_time last_time to_time : time) : res time :=
    if Qltb to_time first_time then Err ValueError
    else if Qltb (last_time - to_time) 0 then Ok last_time
    else Ok to_time.

  (** from_time_to_sample, sampling.py 673-715 *)
  Definition from_time_to_sample (fs : Q) (first_time last_time from_time : time) : res Z :=
    from_time <- check_from_time first_time last_time from_time ;;
    Ok (to_n_samples (from_time - first_time) fs Mceil - 1)%Z.

  (** to_time_to_sample, sampling.py 718-767 *)
  Definition to_time_to_sample (fs : Q) (first_time last_time to_time : time) : res Z :=
    to_time <- check_to_time first_time last_time to_time ;;
    Ok (to_n_samples (to_time - first_time) fs Mfloor - 1)%Z.

  (** datetimes_to_samples, sampling.py 770-829 *)
  Definition datetimes_to_samples (fs : Q) (first_time last_time from_time to_time : time)
    : res (Z * Z) :=
    from_sample <- from_time_to_sample fs first_time last_time from_time ;;
    to_sample <- to_time_to_sample fs first_time last_time to_time ;;
    Ok (from_sample, to_sample).

  (** datetime_array, sampling.py 832-887; [np.arange(n)] is 0..n-1 *)
  Definition arange (n : Z) : list Z := map Z.of_nat (seq 0 (Z.to_nat n)).
  Definition datetime_array (first_time : time) (fs : Q) (n_samples : option Z)
    (samples : option (list Z)) : res (list time) :=
    match n_samples with
    | Some n => Ok (map (fun k => first_time + inject_Z k * period fs) (arange n))
    | None =>
      match samples with
      | None => Err ValueError
      | Some l => Ok (map (fun k => first_time + inject_Z k * period fs) l)
      end
    end.
End Sampling.
