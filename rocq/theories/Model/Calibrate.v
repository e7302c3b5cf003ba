(** Model of resistics/calibrate.py (without plotting and file access).

    Simplifications: np.exp(1j x) and the complex division are parameters; np.interp is
    evaluated exactly and, as numpy documents, meaningful for increasing frequencies only;
    dtype conversion on assignment is not modelled; messages are dropped. *)
From Coq Require Import String Ascii.
From Verif Require Import Base.Prelude Base.Rounding Base.ListUtil Base.Interp Base.NdArray Base.Cplx Base.PyString
  Model.Sampling Model.Time Model.Decimate Model.Window Model.Spectra.
Open Scope Q_scope.

(** CalibrationData, calibrate.py 29-66: the numerical columns *)
Record cal_data := mkCal { cal_freq : list Q; cal_mag : list Q; cal_phase : list Q }.

(** numpy broadcasting of two vectors under an operation *)
Definition zip_with {A B C} (f : A -> B -> C) (a : list A) (b : list B) : list C :=
  map (fun p => f (fst p) (snd p)) (combine a b).
Definition broadcast_op {A B C} (f : A -> B -> C) (a : list A) (b : list B) : res (list C) :=
  if Nat.eqb (length a) (length b) then Ok (zip_with f a b)
  else match a, b with
       | _, [y] => Ok (map (fun x => f x y) a)
       | [x], _ => Ok (map (f x) b)
       | _, _ => Err ValueError
       end.

(** x[...] = value for a target of [n] rows of [k] columns *)
Definition broadcast_to {A} (n k : nat) (v : nd A) : res (list (list A)) :=
  let row (r : nd A) : res (list A) :=
    match r with
    | Sc x => Ok (repeat x k)
    | Ax l => match scalars l with
              | Some v => if Nat.eqb (length v) k then Ok v
                          else match v with [x] => Ok (repeat x k) | _ => Err ValueError end
              | None => Err ValueError
              end
    end in
  match n with
  | O => Ok []
  | _ =>
    match v with
    | Ax l => match scalars l with
              | Some _ => r <- row v ;; Ok (repeat r n)
              | None => if Nat.eqb (length l) n then mapM row l
                        else match l with [x] => r <- row x ;; Ok (repeat r n) | _ => Err ValueError end
              end
    | Sc _ => r <- row v ;; Ok (repeat r n)
    end
  end.

Section Calibrate.
  Variable cis : Q -> cq.                (* np.exp(1j * x) *)
  Variable cdiv : cq -> cq -> cq.        (* complex division *)

  (** Calibrator._interpolate 472-498 *)
  Definition interpolate (freqs : list Q) (cal : cal_data) : res (list cq) :=
    if Nat.eqb (length (cal_freq cal)) 0 then Err ValueError
    else if negb (Nat.eqb (length (cal_mag cal)) (length (cal_freq cal))) then Err ValueError
    else if negb (Nat.eqb (length (cal_phase cal)) (length (cal_freq cal))) then Err ValueError
    else mapM (fun f => mag <- np_interp (combine (cal_freq cal) (cal_mag cal)) f ;;
                        phs <- np_interp (combine (cal_freq cal) (cal_phase cal)) f ;;
                        Ok (cscale mag (cis phs))) freqs.

  (** _calibrate 445-470: chan_data[:, newaxis, :] / transfunc[newaxis, :], squeezed *)
  Definition calibrate (freqs : list Q) (chan_data : list (list cq)) (cal : cal_data) : res (nd cq) :=
    tf <- interpolate freqs cal ;;
    rows <- mapM (fun v => broadcast_op cdiv v tf) chan_data ;;
    Ok (squeeze (Ax (map (fun r => Ax [nd1 r]) rows))).

  (** data[ilevel][:, idx], spectra.py arrays with windows first *)
  Definition column (x : nd cq) (idx : nat) : res (list (list cq)) :=
    match x with
    | Sc _ => Err IndexError
    | Ax ws => mapM (fun w => match nd_nth w idx with
                              | Some (Ax l) => match scalars l with Some v => Ok v | None => Err IndexError end
                              | _ => Err IndexError       (* fewer than three axes: 469 has too many indices *)
                              end) ws
    end.
  (** data[ilevel][:, idx] = value *)
  Definition set_column (x : nd cq) (idx : nat) (vals : list (list cq)) : nd cq :=
    match x with
    | Sc _ => x
    | Ax ws => Ax (map (fun wv : nd cq * list cq =>
                          match fst wv with Ax cs => Ax (upd_nth idx (nd1 (snd wv)) cs) | Sc _ => fst wv end)
                       (combine ws vals))
    end.
  Definition calibrate_level (freqs : list Q) (x : nd cq) (idx : nat) (cal : cal_data) : res (nd cq) :=
    col <- column x idx ;;
    v <- calibrate freqs col cal ;;
    vals <- broadcast_to (length col) (match col with r :: _ => length r | [] => 0%nat end) v ;;
    Ok (set_column x idx vals).

  (** the level loop 527-531 on the dictionary of arrays *)
  Fixpoint upd_key {A} (k : Z) (x : A) (l : list (Z * A)) : list (Z * A) :=
    match l with
    | [] => []
    | (j, y) :: t => if (j =? k)%Z then (j, x) :: t else (j, y) :: upd_key k x t
    end.
  Definition dict_get {A} (k : Z) (l : list (Z * A)) : res A :=
    match find (fun kv => Z.eqb (fst kv) k) l with Some (_, x) => Ok x | None => Err KeyError end.
  Fixpoint calibrate_levels (md : spec_md) (idx : nat) (cal : cal_data) (levels : list Z) (data : list (Z * nd cq))
    : res (list (Z * nd cq)) :=
    match levels with
    | [] => Ok data
    | l :: rest =>
      m <- match py_nth (sm_levels md) l with Some m => Ok m | None => Err IndexError end ;;
      x <- dict_get l data ;;
      y <- calibrate_level (sl_freqs m) x idx cal ;;
      calibrate_levels md idx cal rest (upd_key l y data)
    end.

  (** SensorCalibrator._get_cal_data 537-550: a reader is its result for a channel *)
  Fixpoint get_cal_data (readers : list (chan -> res cal_data)) (c : chan) : option cal_data :=
    match readers with
    | [] => None
    | r :: t => match r c with Ok cal => Some cal | Err _ => get_cal_data t c end
    end.
  (** Calibrator._get_chans 439-443 *)
  Definition get_cal_chans (sel : option (list chan)) (cs : list chan) : list chan :=
    match sel with None => cs | Some l => filter (fun c => chan_in c cs) l end.
  (** the channel loop 518-532 *)
  Fixpoint calibrate_chans (md : spec_md) (readers : list (chan -> res cal_data)) (cs : list chan) (data : list (Z * nd cq))
    : res (list (Z * nd cq)) :=
    match cs with
    | [] => Ok data
    | c :: rest =>
      match get_cal_data readers c with
      | None => calibrate_chans md readers rest data
      | Some cal =>
        match first_index c (sm_chans md) with
        | None => Err ValueError
        | Some idx =>
          data' <- calibrate_levels md idx cal (arange (sm_n_levels md)) data ;;
          calibrate_chans md readers rest data'
        end
      end
    end.
  (** SensorCalibrator.run 512-535 *)
  Definition calibrator_run (readers : list (chan -> res cal_data)) (sel : option (list chan)) (d : spec_data cq) : res (spec_data cq) :=
    data <- calibrate_chans (sd_md d) readers (get_cal_chans sel (sm_chans (sd_md d))) (sd_data d) ;;
    make_spec (with_spec_history (sd_md d) (sm_history (sd_md d) ++ [COther "SensorCalibrator"])) data.
End Calibrate.

(** ** SensorCalibrationTXT 283-426 *)
Local Open Scope string_scope.
Record cal_txt := mkCalTxt {
  ct_serial : string; ct_sensor : string; ct_gain : Q; ct_chopper : bool; ct_mag_unit : string; ct_phase_unit : string;
  ct_rows : list (Q * Q * Q) }.

Section Txt.
  Variable parse_float : string -> option Q.                          (* float(s) *)
  Variable to_radians : Q -> Q.                                       (* x * (np.pi / 180) *)
  Variable sort_rows : list (Q * Q * Q) -> list (Q * Q * Q).          (* set_index("frequency").sort_index() *)

  (** line.split("=")[1].strip() *)
  Definition value_of (line : string) : res string :=
    match split_char "="%char line with _ :: v :: _ => Ok (strip v) | _ => Err IndexError end.

  (** _get_sensor_details 360-370 *)
  Fixpoint sensor_details (serial sensor : string) (lines : list string) : res (string * string) :=
    match lines with
    | [] => Ok (serial, sensor)
    | l :: rest =>
      let l := lower l in
      serial <- (if contains "serial" l then value_of l else Ok serial) ;;
      sensor <- (if contains "sensor" l then value_of l else Ok sensor) ;;
      sensor_details serial sensor rest
    end.
  (** _get_static_gain 372-379 *)
  Fixpoint static_gain (lines : list string) : res Q :=
    match lines with
    | [] => Ok 1%Q
    | l :: rest => if contains "static gain" (lower l)
                   then v <- value_of l ;; match parse_float v with Some x => Ok x | None => Err ValueError end
                   else static_gain rest
    end.
  (** _get_chopper 381-387 *)
  Fixpoint chopper (lines : list string) : res bool :=
    match lines with
    | [] => Ok false
    | l :: rest => if contains "chopper" (lower l) then v <- value_of l ;; Ok (String.eqb v "True") else chopper rest
    end.
  (** _get_units 389-398 *)
  Fixpoint units (mag phs : string) (lines : list string) : res (string * string) :=
    match lines with
    | [] => Ok (mag, phs)
    | l :: rest =>
      mag <- (if contains "magnitude unit" (lower l) then value_of l else Ok mag) ;;
      phs <- (if contains "phase unit" (lower l) then value_of l else Ok phs) ;;
      units mag phs rest
    end.
  (** _get_read_from 413-418 followed by _get_data_lines 420-426 *)
  Fixpoint until_blank (lines : list string) : list string :=
    match lines with
    | [] => []
    | l :: rest => if String.eqb l "" then [] else l :: until_blank rest
    end.
  Fixpoint data_lines (lines : list string) : res (list string) :=
    match lines with
    | [] => Err ValueError
    | l :: rest => if contains "CALIBRATION DATA" l then Ok (until_blank rest) else data_lines rest
    end.
  (** one row: np.array(..., dtype=float) with three columns *)
  Definition parse_row (l : string) : res (Q * Q * Q) :=
    match words l with
    | [a; b; c] => match parse_float a, parse_float b, parse_float c with
                   | Some x, Some y, Some z => Ok (x, y, z)
                   | _, _, _ => Err ValueError
                   end
    | _ => Err ValueError
    end.
  (** read_calibration_data 315-343, _read_metadata 345-358, _read_data 400-411 *)
  Definition read_txt (file : list string) : res cal_txt :=
    let lines := map strip file in
    '(serial, sensor) <- sensor_details "1" "" lines ;;
    gain <- static_gain lines ;;
    chop <- chopper lines ;;
    '(mag, phs) <- units "mV/nT" "radians" lines ;;
    dl <- data_lines lines ;;
    rows <- mapM parse_row dl ;;
    match rows with
    | [] => Err ValueError
    | _ =>
      let rows := if String.eqb phs "degrees"
                  then map (fun r : Q * Q * Q => let '(f, m, p) := r in (f, m, to_radians p)) rows else rows in
      Ok (mkCalTxt serial sensor gain chop mag phs (sort_rows rows))
    end.
End Txt.
