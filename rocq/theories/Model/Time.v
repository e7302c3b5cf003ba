(** Model of resistics/time.py: TimeMetadata, TimeData, readers' sample logic and
    time processors.

    Simplifications: array elements are [option Q] (None = NaN); the dtype is a
    tag; messages and wall-clock times of history records are dropped (a record
    is identified by its creator); metadata fields that no processor touches are
    one opaque value; objects are values (sharing of metadata objects is
    modelled separately in Model/Alias.v). *)
From Coq Require Import String.
From Verif Require Import Base.Prelude Base.Rounding Base.ListUtil Base.Interp Model.Sampling.
Open Scope Q_scope.

Definition cell := option Q.
Definition chan := string.

(** Configuration of the time processes (pydantic fields of the classes), time.py
    1231-2330. *)
Inductive addarg := AScalar (v : Q) | ADict (d : list (chan * Q)).
Inductive proc :=
| PSubsection (from_time to_time : time)                 (* time.py 1266-1267 *)
| PInterpolateNans
| PRemoveMean
| PAdd (a : addarg)                                      (* 1471 *)
| PMultiply (a : addarg)                                 (* 1548 *)
| PLowPass (cutoff : Q) (order : Z)                      (* 1614-1615 *)
| PHighPass (cutoff : Q) (order : Z)                     (* 1684-1685 *)
| PBandPass (low high : Q) (order : Z)                   (* 1756-1758 *)
| PNotch (notch : Q) (band : option Q) (order : Z)       (* 1838-1840 *)
| PResample (new_fs : Q)                                 (* 1922 *)
| PDecimate (factor max_single_factor : Z)               (* 2029-2030 *)
| PShift (shift : Q)                                     (* 2208 *)
| PApply (fncs : list (chan * (list cell -> list cell))) (* 2322 *).

(** Who added a history record (common.py 455-493, field creator). *)
Inductive creator := CProc (p : proc) | CReader | CWriter | COther (name : string).

(** ChanMetadata, time.py 27-86 (fields other than data_files are opaque). *)
Record chan_md := mkChanMd { cm_files : list string; cm_info : string }.

(** TimeMetadata, time.py 88-126. *)
Record tmeta := mkMeta {
  fs : Q; chans : list chan; n_chans : Z; n_samples : Z;
  first_time : time; last_time : time; info : string;
  chans_md : list (chan * chan_md); history : list creator }.

(** TimeData, time.py 442-484. *)
Record tdata := mkData { meta : tmeta; dtype : string; rows : list (list cell) }.

Definition with_history (m : tmeta) (h : list creator) : tmeta :=
  mkMeta (fs m) (chans m) (n_chans m) (n_samples m) (first_time m) (last_time m) (info m) (chans_md m) h.

(** _chan_to_idx built by time.py 482-484: the last index of a name wins. *)
Fixpoint last_index_from (i : nat) (c : chan) (cs : list chan) : option nat :=
  match cs with
  | [] => None
  | x :: t => match last_index_from (S i) c t with
              | Some j => Some j
              | None => if String.eqb x c then Some i else None
              end
  end.
Definition chan_index (cs : list chan) (c : chan) : option nat := last_index_from 0 c cs.

Definition chan_in (c : chan) (cs : list chan) : bool := existsb (String.eqb c) cs.

Fixpoint lookup {A} (c : chan) (d : list (chan * A)) : option A :=
  match d with
  | [] => None
  | (k, v) :: t => if String.eqb k c then Some v else lookup c t
  end.

(** np shape[1] *)
Definition width (d : list (list cell)) : Z :=
  match d with [] => 0%Z | r :: _ => Z.of_nat (length r) end.

(** External numerics (scipy): oracles. *)
Record oracles := {
  o_filter : string -> Z -> list Q -> list cell -> res (list cell);   (* butter + sosfiltfilt *)
  o_resample : Z -> Z -> list cell -> res (list cell);                 (* resample_poly *)
  o_decimate : Z -> list cell -> res (list cell);                      (* signal.decimate *)
  o_isqrt : Z -> Z;                                                    (* int(math.sqrt(n)) *)
  o_limit_denominator : Q -> Q;                                        (* Fraction(x).limit_denominator() *)
  o_garbage : nat -> nat -> cell                                       (* memory returned by np.empty *)
}.

Section Time.
  Variable rnd : Q -> Q.   (* rounding of python floats *)
  Variable drnd : Q -> Q.  (* rounding of array elements *)
  Variable orc : oracles.

  (** adjust_time_metadata, time.py 374-439 *)
  Definition adjust_time_metadata (m : tmeta) (fs' : Q) (first : time) (n : Z) : tmeta :=
    let duration := to_timedelta rnd (rnd (1 / fs')) * inject_Z (n - 1) in
    mkMeta fs' (chans m) (n_chans m) n first (first + duration) (info m) (chans_md m) (history m).

  (** TimeData.get_chan, time.py 531-548 *)
  Definition get_chan (td : tdata) (c : chan) : res (list cell) :=
    if chan_in c (chans (meta td)) then
      match chan_index (chans (meta td)) c with
      | Some i => match nth_error (rows td) i with Some r => Ok r | None => Err IndexError end
      | None => Err KeyError
      end
    else Err ChannelNotFoundError.

  (** TimeData.set_chan, time.py 550-577; [dt] is the dtype of the new data *)
  Definition set_chan (td : tdata) (c : chan) (dt : string) (x : list cell) : res tdata :=
    if chan_in c (chans (meta td)) then
      if negb (Z.of_nat (length x) =? n_samples (meta td))%Z then Err ValueError
      else if negb (String.eqb dt (dtype td)) then Err ValueError
      else match chan_index (chans (meta td)) c with
           | Some i => if Nat.ltb i (length (rows td))
                       then Ok (mkData (meta td) (dtype td) (upd_nth i x (rows td)))
                       else Err IndexError
           | None => Err KeyError
           end
    else Err ChannelNotFoundError.

  (** new_time_data, time.py 1185-1220 *)
  Definition new_time_data (td : tdata) (m : option tmeta) (d : option (list (list cell)))
    (r : option creator) : tdata :=
    let m := match m with Some m => m | None => meta td end in
    let d := match d with Some d => d | None => rows td end in
    let m := match r with Some r => with_history m (history m ++ [r]) | None => m end in
    mkData m (dtype td) d.

  (** ** Readers: TimeReader._get_read_samples, time.py 855-921 *)
  Definition get_read_samples (m : tmeta) (from_time to_time : option time)
    (from_sample to_sample : option Z) : res (Z * Z) :=
    read_from <- match from_time with
                 | Some t => from_time_to_sample rnd (fs m) (first_time m) (last_time m) t
                 | None => match from_sample with
                           | Some s => _ <- check_sample (n_samples m) s ;; Ok s
                           | None => Ok 0%Z
                           end
                 end ;;
    read_to <- match to_time with
               | Some t => to_time_to_sample rnd (fs m) (first_time m) (last_time m) t
               | None => match to_sample with
                         | Some s => _ <- check_sample (n_samples m) s ;; Ok s
                         | None => Ok (n_samples m - 1)%Z
                         end
               end ;;
    if (read_from >=? read_to)%Z then Err ValueError else Ok (read_from, read_to).

  (** TimeReader._get_return_metadata, time.py 923-952 *)
  Definition get_return_metadata (m : tmeta) (read_from read_to : Z) : res tmeta :=
    from_time <- sample_to_datetime rnd (fs m) (first_time m) read_from None ;;
    let n_read := (read_to - read_from + 1)%Z in
    Ok (adjust_time_metadata m (fs m) from_time n_read).

  (** TimeReaderNumpy.read_data, time.py 1072-1108; [stored] is the array in data.npy *)
  Definition read_data_numpy (m : tmeta) (dt : string) (stored : list (list cell)) (read_from read_to : Z)
    : res tdata :=
    let data := map (slice read_from (read_to + 1)) stored in
    m' <- get_return_metadata m read_from read_to ;;
    Ok (mkData (with_history m' (history m' ++ [CReader])) dt data).

  (** TimeReader.run with TimeReaderNumpy, time.py 713-766 (apply_scalings is the
      identity for this reader, 811-831) *)
  Definition reader_run (m : tmeta) (dt : string) (stored : list (list cell))
    (from_time to_time : option time) (from_sample to_sample : option Z) : res tdata :=
    '(a, b) <- get_read_samples m from_time to_time from_sample to_sample ;;
    read_data_numpy m dt stored a b.

  (** ** Processors *)

  (** Subsection.run, time.py 1269-1307 *)
  Definition subsection (from_t to_t : time) (td : tdata) : res tdata :=
    let m := meta td in
    '(from_sample, to_sample) <- datetimes_to_samples rnd (fs m) (first_time m) (last_time m) from_t to_t ;;
    let n := (to_sample - from_sample + 1)%Z in
    '(from_time, _) <- samples_to_datetimes rnd (fs m) (first_time m) from_sample to_sample ;;
    let m' := adjust_time_metadata m (fs m) from_time n in
    let data := map (slice from_sample (to_sample + 1)) (rows td) in
    Ok (new_time_data td (Some m') (Some data) (Some (CProc (PSubsection from_t to_t)))).

  (** InterpolateNans._interpolate_nans, time.py 1355-1376. The points are the
      positions of the numbers. *)
  Fixpoint number_points (i : Z) (l : list cell) : list (Q * Q) :=
    match l with
    | [] => []
    | Some v :: t => (inject_Z i, v) :: number_points (i + 1) t
    | None :: t => number_points (i + 1) t
    end.
  Definition is_nan (c : cell) : bool := match c with None => true | _ => false end.
  Fixpoint fill_from (pts : list (Q * Q)) (i : Z) (l : list cell) : res (list cell) :=
    match l with
    | [] => Ok []
    | Some v :: t => r <- fill_from pts (i + 1) t ;; Ok (Some v :: r)
    | None :: t => v <- np_interp pts (inject_Z i) ;;
                   r <- fill_from pts (i + 1) t ;; Ok (Some v :: r)
    end.
  Definition interpolate_nans_chan (l : list cell) : res (list cell) :=
    if existsb is_nan l then fill_from (number_points 0 l) 0 l else Ok l.

  (** InterpolateNans.run, time.py 1331-1353: loop over the channel names *)
  Fixpoint interp_rows (all : list chan) (cs : list chan) (d : list (list cell))
    : res (list (list cell)) :=
    match cs with
    | [] => Ok d
    | c :: t =>
      match chan_index all c with
      | None => Err KeyError
      | Some i => match nth_error d i with
                  | None => Err IndexError
                  | Some r => r' <- interpolate_nans_chan r ;; interp_rows all t (upd_nth i r' d)
                  end
      end
    end.
  Definition interpolate_nans (td : tdata) : res tdata :=
    d <- interp_rows (chans (meta td)) (chans (meta td)) (rows td) ;;
    Ok (new_time_data td None (Some d) (Some (CProc PInterpolateNans))).

  (** NaN propagating arithmetic on elements *)
  Definition cadd (a b : cell) : cell :=
    match a, b with Some x, Some y => Some (drnd (x + y)) | _, _ => None end.
  Definition csub (a b : cell) : cell :=
    match a, b with Some x, Some y => Some (drnd (x - y)) | _, _ => None end.
  Definition cmul (a b : cell) : cell :=
    match a, b with Some x, Some y => Some (drnd (x * y)) | _, _ => None end.
  Definition cdivn (a : cell) (n : Z) : cell :=
    match a with Some x => if (n =? 0)%Z then None else Some (drnd (x / inject_Z n)) | None => None end.

  (** np.mean of a row: left to right sum divided by the count (numpy's pairwise
      summation order is not modelled; NaN for an empty row) *)
  Definition row_sum (l : list cell) : cell := fold_left cadd l (Some 0).
  Definition row_mean (l : list cell) : cell := cdivn (row_sum l) (Z.of_nat (length l)).

  (** RemoveMean.run, time.py 1404-1426 *)
  Definition remove_mean (td : tdata) : res tdata :=
    let data := map (fun r => map (fun v => csub v (row_mean r)) r) (rows td) in
    Ok (new_time_data td None (Some data) (Some (CProc PRemoveMean))).

  (** Add._get_add 1494-1503 and Multiply._get_mult 1571-1580: the per row values *)
  Fixpoint fill_arg (all cs : list chan) (d : list (chan * Q)) (acc : list Q) : res (list Q) :=
    match cs with
    | [] => Ok acc
    | c :: t =>
      match lookup c d with
      | Some v => match chan_index all c with
                  | Some i => if Nat.ltb i (length acc) then fill_arg all t d (upd_nth i v acc)
                              else Err IndexError
                  | None => Err KeyError
                  end
      | None => fill_arg all t d acc
      end
    end.
  Definition get_add (td : tdata) (a : addarg) : res (list Q) :=
    let z := repeat 0 (Z.to_nat (n_chans (meta td))) in
    match a with
    | AScalar v => Ok (map (fun x => drnd (x + v)) z)
    | ADict d => fill_arg (chans (meta td)) (chans (meta td)) d z
    end.
  Definition get_mult (td : tdata) (a : addarg) : res (list Q) :=
    let z := repeat 1 (Z.to_nat (n_chans (meta td))) in
    match a with
    | AScalar v => Ok (map (fun x => drnd (x * v)) z)
    | ADict d => fill_arg (chans (meta td)) (chans (meta td)) d z
    end.
  (** data + add[:, None]: broadcasting needs equal row counts (numpy would also
      broadcast 1 against n; a ValueError is modelled for every mismatch) *)
  Definition rowwise (op : cell -> cell -> cell) (d : list (list cell)) (vs : list Q)
    : res (list (list cell)) :=
    if Nat.eqb (length d) (length vs)
    then Ok (map (fun rv => map (fun x => op x (Some (snd rv))) (fst rv)) (combine d vs))
    else Err ValueError.

  (** Add.run, time.py 1473-1492 *)
  Definition add (a : addarg) (td : tdata) : res tdata :=
    vs <- get_add td a ;;
    data <- rowwise cadd (rows td) vs ;;
    Ok (new_time_data td None (Some data) (Some (CProc (PAdd a)))).
  (** Multiply.run, time.py 1550-1569 *)
  Definition multiply (a : addarg) (td : tdata) : res tdata :=
    vs <- get_mult td a ;;
    data <- rowwise cmul (rows td) vs ;;
    Ok (new_time_data td None (Some data) (Some (CProc (PMultiply a)))).

  (** TimeMetadata.nyquist, time.py 179-182 *)
  Definition nyquist (m : tmeta) : Q := rnd (fs m / 2).
  (** TimeMetadata.dt, 169-172 *)
  Definition dt (m : tmeta) : Q := rnd (1 / fs m).

  (** LowPass.run 1617-1650: the normalised cutoffs handed to butter *)
  Definition lowpass_cutoffs (cutoff : Q) (m : tmeta) : res (list Q) :=
    if Qltb (nyquist m) cutoff then Err ProcessRunError
    else Ok [rnd (cutoff / nyquist m)].
  (** HighPass.run 1687-1720 *)
  Definition highpass_cutoffs (cutoff : Q) (m : tmeta) : res (list Q) :=
    if Qltb (nyquist m) cutoff then Err ProcessRunError
    else Ok [rnd (cutoff / nyquist m)].
  (** BandPass.run 1760-1802 *)
  Definition bandpass_cutoffs (low high : Q) (m : tmeta) : res (list Q) :=
    if Qltb high low then Err ProcessRunError
    else if Qltb (nyquist m) high then Err ProcessRunError
    else Ok [rnd (low / nyquist m); rnd (high / nyquist m)].
  (** Notch.run 1842-1882; note line 1872 compares the normalised value with the
      Nyquist frequency in Hz *)
  Definition notch_cutoffs (notch : Q) (band : option Q) (m : tmeta) : res (list Q) :=
    if Qltb (nyquist m) notch then Err ProcessRunError else
    let band := match band with None => rnd (rnd (1#10) * fs m) | Some b => b end in
    let low := rnd (rnd (notch - rnd (band / 2)) / nyquist m) in
    let high := rnd (rnd (notch + rnd (band / 2)) / nyquist m) in
    let high := if Qltb (nyquist m) high then nyquist m else high in
    Ok [low; high].

  Definition filter_run (btype : string) (order : Z) (cut : res (list Q)) (p : proc) (td : tdata)
    : res tdata :=
    normed <- cut ;;
    data <- mapM (o_filter orc btype order normed) (rows td) ;;
    Ok (new_time_data td None (Some data) (Some (CProc p))).

  (** Resample.run, time.py 1924-1979 *)
  Definition resample (new_fs : Q) (td : tdata) : res tdata :=
    let m := meta td in
    let frac := Qred (o_limit_denominator orc (rnd (new_fs / fs m))) in
    data <- mapM (o_resample orc (Qnum frac) (Zpos (Qden frac))) (rows td) ;;
    let m' := adjust_time_metadata m new_fs (first_time m) (width data) in
    Ok (new_time_data td (Some m') (Some data) (Some (CProc (PResample new_fs)))).

  (** Decimate._prime_factorisation, time.py 2135-2165 *)
  Fixpoint strip_factor (fuel : nat) (p n : Z) : list Z * Z :=
    match fuel with
    | O => ([], n)
    | S k => if (n mod p =? 0)%Z
             then let '(l, r) := strip_factor k p (n / p) in (p :: l, r)
             else ([], n)
    end.
  (** for ii in range(3, stop, 2) *)
  Fixpoint odd_loop (count : nat) (ii n : Z) : list Z * Z :=
    match count with
    | O => ([], n)
    | S k => let '(l1, n1) := strip_factor (S (Z.to_nat (Z.log2 n))) ii n in
             let '(l2, n2) := odd_loop k (ii + 2) n1 in
             (l1 ++ l2, n2)
    end.
  Definition prime_factorisation (n : Z) : list Z :=
    let '(twos, n1) := strip_factor (S (Z.to_nat (Z.log2 n))) 2 n in
    if (n1 =? 1)%Z then twos else
    let stop := (o_isqrt orc n1 + 1)%Z in
    let '(odds, n2) := odd_loop (Z.to_nat ((stop - 3 + 1) / 2)) 3 n1 in
    if (n2 >? 2)%Z then twos ++ odds ++ [n2] else twos ++ odds.

  (** Decimate._get_downsample_factors, time.py 2076-2133 *)
  Fixpoint pack_factors (maxf : Z) (fs_ : list Z) (val : Z) : list Z :=
    match fs_ with
    | [] => [val]
    | f :: t => if (val * f >? maxf)%Z then val :: pack_factors maxf t (1 * f)
                else pack_factors maxf t (val * f)
    end.
  Definition downsample_factors (maxf factor : Z) : list Z :=
    if (factor <=? maxf)%Z then [factor]
    else pack_factors maxf (prime_factorisation factor) 1.

  (** Decimate.run, time.py 2032-2074 *)
  Fixpoint decimate_steps (factors : list Z) (d : list (list cell)) : res (list (list cell)) :=
    match factors with
    | [] => Ok d
    | f :: t => if (f =? 1)%Z then decimate_steps t d
                else d' <- mapM (o_decimate orc f) d ;; decimate_steps t d'
    end.
  Definition decimate (factor maxf : Z) (td : tdata) : res tdata :=
    let m := meta td in
    data <- decimate_steps (downsample_factors maxf factor) (rows td) ;;
    let new_fs := rnd (fs m / inject_Z factor) in
    let m' := adjust_time_metadata m new_fs (first_time m) (width data) in
    Ok (new_time_data td (Some m') (Some data) (Some (CProc (PDecimate factor maxf)))).

  (** scipy interp1d(kind="linear") at a point inside the range: searchsorted(left),
      clipped to [1, n-1], slope form. *)
  Fixpoint count_below (xs : list Q) (x : Q) : nat :=
    match xs with [] => O | a :: t => if Qltb a x then S (count_below t x) else O end.
  Definition interp1d (xs : list Q) (ys : list cell) (x : Q) : cell :=
    let hi := Nat.max 1 (Nat.min (count_below xs x) (length xs - 1)) in
    let lo := (hi - 1)%nat in
    match nth_error xs lo, nth_error xs hi, nth_error ys lo, nth_error ys hi with
    | Some xl, Some xh, Some (Some yl), Some (Some yh) =>
        Some (drnd (drnd (drnd (drnd (yh - yl) / drnd (xh - xl)) * drnd (x - xl)) + yl))
    | _, _, _, _ => None
    end.

  (** ShiftTimestamps.run, time.py 2210-2264. interp1d needs two entries. *)
  Definition shift_timestamps (shift : Q) (td : tdata) : res tdata :=
    let m := meta td in
    if Qle_bool (dt m) shift then Err ProcessRunError else
    let norm_shift := rnd (shift / dt m) in
    let n := (n_samples m - 1)%Z in
    let first := first_time m + to_timedelta rnd shift in
    if (n_samples m <? 2)%Z then Err ValueError else
    let x := map (fun k => drnd (inject_Z k)) (arange (n_samples m)) in
    let x_shift := map (fun k => drnd (drnd (inject_Z k) + drnd norm_shift)) (arange n) in
    let data := map (fun r => map (interp1d x r) x_shift) (rows td) in
    let m' := adjust_time_metadata m (fs m) first n in
    Ok (new_time_data td (Some m') (Some data) (Some (CProc (PShift shift)))).

  (** np.empty(shape): uninitialised memory *)
  Definition np_empty (d : list (list cell)) : list (list cell) :=
    map (fun i => map (fun j => o_garbage orc i j) (seq 0 (length (nth i d [])))) (seq 0 (length d)).

  (** ApplyFunction.run, time.py 2332-2355 *)
  Fixpoint apply_rows (td : tdata) (fncs : list (chan * (list cell -> list cell)))
    (d : list (list cell)) : res (list (list cell)) :=
    match fncs with
    | [] => Ok d
    | (c, f) :: t =>
      if chan_in c (chans (meta td)) then
        r <- get_chan td c ;;
        match chan_index (chans (meta td)) c with
        | Some i => if Nat.eqb (length (f r)) (length (nth i d []))
                    then apply_rows td t (upd_nth i (f r) d) else Err ValueError
        | None => Err KeyError
        end
      else apply_rows td t d
    end.
  Definition apply_function (fncs : list (chan * (list cell -> list cell))) (td : tdata) : res tdata :=
    data <- apply_rows td fncs (np_empty (rows td)) ;;
    Ok (new_time_data td None (Some data) (Some (CProc (PApply fncs)))).

  (** Dispatch on the process *)
  Definition run (p : proc) (td : tdata) : res tdata :=
    match p with
    | PSubsection a b => subsection a b td
    | PInterpolateNans => interpolate_nans td
    | PRemoveMean => remove_mean td
    | PAdd a => add a td
    | PMultiply a => multiply a td
    | PLowPass c o => filter_run "lowpass" o (lowpass_cutoffs c (meta td)) p td
    | PHighPass c o => filter_run "highpass" o (highpass_cutoffs c (meta td)) p td
    | PBandPass l h o => filter_run "bandpass" o (bandpass_cutoffs l h (meta td)) p td
    | PNotch f b o => filter_run "bandstop" o (notch_cutoffs f b (meta td)) p td
    | PResample f => resample f td
    | PDecimate f k => decimate f k td
    | PShift s => shift_timestamps s td
    | PApply l => apply_function l td
    end.

  (** Running a list of processes one after the other (letsgo.py run_time_processors) *)
  Fixpoint run_all (ps : list proc) (td : tdata) : res tdata :=
    match ps with
    | [] => Ok td
    | p :: t => td' <- run p td ;; run_all t td'
    end.
End Time.
