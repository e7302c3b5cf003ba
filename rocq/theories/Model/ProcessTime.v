(** Writing processed time data into a project: process_time, resistics/letsgo.py 655-697.
    The measurement is one that was read by TimeReaderNumpy; its metadata is that of the
    loaded project. *)
From Coq Require Import String Ascii.
From Verif Require Import Base.Prelude Base.FileSys Model.Project Model.Sampling Model.Time Model.Persist.
Open Scope list_scope.

Section ProcessTime.
  Variable rnd : Q -> Q.
  Variable drnd : Q -> Q.
  Variable orc : oracles.
  Variable tser : tmeta -> string.
  Variable nser : string * list (list cell) -> string.
  Variable nparse : string -> res (string * list (list cell)).
  Variable inter : string -> list string.

  (** meas.reader.run(meas.dir_path, metadata=meas.metadata, from_time, to_time): the metadata
      file is not read again (time.py 752-756) and the data is a memory map; scale_data is the
      identity for this reader *)
  Definition read_known (m : tmeta) (from_time to_time : option time) (d : path) (s : node) : res (tmeta * source) :=
    '(a, b) <- get_read_samples rnd m from_time to_time None None ;;
    f <- first_data_file m ;;
    text <- read_file s (pjoin d f) ;;
    x <- nparse text ;;
    m' <- get_return_metadata rnd m a b ;;
    Ok (with_history m' (history m' ++ [CReader]), Mapped (pjoin d f) (fst x) a b).
  (** letsgo.py 690-697 from the directory [src] and metadata [m] of the measurement. Every
      processor makes a new array (np.array in time.py 1305, 1217 and scipy results), so the
      memory map reaches the writer only without processors; TimeWriterNumpy() overwrites *)
  Definition process_time (src : path) (m : tmeta) (ps : list proc) (proj : path) (out_site out_meas : string) (from_time to_time : option time) : prog unit :=
    x <~ pres (read_known m from_time to_time src) ;;
    let out := get_meas_time_path proj out_site out_meas in
    match ps with
    | [] => write_numpy_map tser nser nparse inter true out (fst x) (snd x)
    | _ :: _ => td <~ pres (fun s => data <- elements nparse (snd x) s ;; run_all rnd drnd orc ps (mkData (fst x) (source_dtype (snd x)) data)) ;;
                write_numpy tser nser inter true out td
    end.
End ProcessTime.
