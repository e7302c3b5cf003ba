(** Model of the search for sensor calibration files, resistics/calibrate.py 141-251.

    Simplifications: strings are ASCII; [sr_parse] is read_calibration_data applied to the
    content of the file (the TXT format is modelled in Calibrate.v); logging is dropped. *)
From Coq Require Import String Ascii.
From Verif Require Import Base.Prelude Base.PyString Base.FileSys Model.Time Model.Calibrate Model.Project.
Open Scope list_scope.

(** s.replace(old, new) for a non-empty [old]; [skip]: characters of an occurrence still to be dropped *)
Fixpoint replace_from (old new : string) (skip : nat) (s : string) : string :=
  match s with
  | EmptyString => EmptyString
  | String c t => match skip with
                  | S k => replace_from old new k t
                  | O => if prefix old s then (new ++ replace_from old new (String.length old - 1) t)%string
                         else String c (replace_from old new 0 t)
                  end
  end.
Definition py_replace (old new s : string) : string := replace_from old new 0 s.

(** SensorCalibrationReader 154-187 (file_str) with CalibrationReader.extension 144 *)
Record sreader := mkReader { sr_file_str : string; sr_extension : option string; sr_parse : string -> res cal_data }.
Definition default_file_str : string := "IC_$sensor$extension".
(** ChanMetadata.sensor and .serial of the channels: metadata.chans_metadata *)
Definition chans_md := list (string * (string * string)).

(** the file name, _get_path 247-250 *)
Definition file_name (file_str : string) (extension : option string) (sensor serial : string) : string :=
  let name := py_replace "$sensor" sensor file_str in
  let name := py_replace "$serial" serial name in
  match extension with Some e => py_replace "$extension" e name | None => name end.
(** _get_path 244-251 *)
Definition get_path (r : sreader) (dir : path) (md : chans_md) (c : chan) : res path :=
  match assoc c md with
  | None => Err KeyError
  | Some (sensor, serial) => Ok (pjoin dir (file_name (sr_file_str r) (sr_extension r) sensor serial))
  end.
(** run 189-219 *)
Definition sreader_run (s : node) (dir : path) (md : chans_md) (r : sreader) (c : chan) : res cal_data :=
  p <- get_path r dir md c ;;
  match kind_at s p with
  | None => Err CalibrationFileNotFound
  | Some KDir => Err OSError
  | Some (KFile content) => sr_parse r content
  end.
(** the readers of a SensorCalibrator on a calibration directory *)
Definition calibration_readers (s : node) (dir : path) (md : chans_md) (rs : list sreader) : list (chan -> res cal_data) :=
  map (fun r => sreader_run s dir md r) rs.
