(** Model of a reader working while other processes write.

    Simplification: the content of one file is read in one action (a reader of a large
    file could also see parts of two versions of it). *)
From Coq Require Import String Ascii.
From Verif Require Import Base.Prelude Base.FileSys Model.Persist Model.Parallel.
Open Scope list_scope.

Section Reader.
  Context {B A : Type}.
  Variable mparse : string -> res (pmeta B).
  Variable zparse : string -> res (list (string * A)).
  (** SpectraDataReader.run, spectra.py 799-836 (decimate.py 840-877; window.py 1570-1607):
      dir_path.exists() in the state [s1], the metadata file read in [s2], np.load in [s3] *)
  Definition par_read_levels (who : string) (d : path) (s1 s2 s3 : node) : res (pmeta B * list (Z * A)) :=
    if negb (exists_ s1 d) then Err ReadError
    else
      text <- read_file s2 (d ++ [META_FILE]) ;;
      m <- mparse text ;;
      z <- read_file s3 (d ++ [NPZ_FILE]) ;;
      arc <- zparse z ;;
      data <- int_keys arc [] ;;
      Ok (mkPMeta (pm_body m) (pm_hist m ++ [who]) (pm_info m), data).
End Reader.
