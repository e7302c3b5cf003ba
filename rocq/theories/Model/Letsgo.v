(** Model of resistics/letsgo.py: creating and loading projects, reading with a list of
    readers, storing and finding solutions. Logging is dropped; the processing stages are
    modelled in the other files. *)
From Coq Require Import String Ascii.
From Verif Require Import Base.Prelude Base.PyString Base.FileSys Model.Project.
Open Scope list_scope.
Open Scope Q_scope.

(** TimeReader.run, time.py 713-766: with metadata_only=True the metadata, otherwise the
    data ([D]); both depend on the file system and the directory and may raise *)
Record reader (D : Type) := mkReader {
  rd_name : string; rd_md : node -> path -> res meas_md; rd_run : node -> path -> res D }.
Arguments mkReader {D}. Arguments rd_name {D}. Arguments rd_md {D}. Arguments rd_run {D}.

(** min and max of a non-empty list of times *)
Fixpoint min_q (x : Q) (l : list Q) : Q := match l with [] => x | y :: t => min_q (if Qltb y x then y else x) t end.
Fixpoint max_q (x : Q) (l : list Q) : Q := match l with [] => x | y :: t => max_q (if Qltb x y then y else x) t end.
(** letsgo.py 133-138 and 167-172: the extremes, or two calls of datetime.now() *)
Definition span (now : Q * Q) (begins ends : list Q) : Q * Q :=
  match begins, ends with
  | b :: bs, e :: es => (min_q b bs, max_q e es)
  | _, _ => now
  end.

Section Letsgo.
  Context {M D S : Type}.
  (** metadata.json() of ProjectMetadata (file_info included, common.py 441-452) and parse_file *)
  Variable pser : M -> string.
  Variable pparse : string -> res M.
  (** contents a crash may leave before a file is completely written *)
  Variable inter : string -> list string.
  (** datetime.now() at the two calls made for a directory *)
  Variable now : path -> Q * Q.

  (** WriteableMetadata.write, common.py 441-452 *)
  Definition write_json (p : path) (text : string) : prog unit := write_file p (inter text) text.

  (** ProjectCreator._make_subdirs, letsgo.py 60-66 *)
  Fixpoint make_subdirs (p : path) (dirs : list (string * string)) : prog unit :=
    match dirs with
    | [] => pret tt
    | (_, d) :: t =>
        e <~ preads (fun s => exists_ s (pjoin p d)) ;;
        _ <~ (if (e : bool) then pret tt else mkdir (pjoin p d)) ;;
        make_subdirs p t
    end.
  (** ProjectCreator.run, letsgo.py 33-58, and new, 69-89 *)
  Definition new (p : path) (m : M) : prog unit :=
    let mp := pjoin p PROJ_FILE in
    old <~ preads (fun s => exists_ s p && is_dir_ s p && exists_ s mp) ;;
    if (old : bool) then pfail ProjectCreateError
    else e <~ preads (fun s => exists_ s p) ;;
         _ <~ (if (e : bool) then pres (fun s => assert_dir s p) else mkdir_parents p) ;;
         _ <~ make_subdirs p PROJ_DIRS ;;
         write_json mp (pser m).

  (** ProjectLoader._check_subdirs, letsgo.py 147-155: the return statement is in the loop *)
  Definition check_subdirs (s : node) (p : path) (dirs : list (string * string)) : res bool :=
    match dirs with
    | [] => Ok true
    | (_, d) :: _ => _ <- assert_dir s (pjoin p d) ;; Ok false
    end.
  (** ProjectLoader._load_measurement, letsgo.py 180-219 *)
  Fixpoint load_measurement (s : node) (readers : list (reader D)) (site : string) (d : path) : option meas :=
    match readers with
    | [] => None
    | r :: t => match rd_md r s d with
                | Ok md => Some (mkMeas site d md (rd_name r))
                | Err _ => load_measurement s t site d
                end
    end.
  (** the loop of ProjectLoader._load_site, letsgo.py 162-166 *)
  Fixpoint load_meas_all (s : node) (readers : list (reader D)) (site : string) (dirs : list path) (acc : list (string * meas)) : list (string * meas) :=
    match dirs with
    | [] => acc
    | d :: t => load_meas_all s readers site t
                  (match load_measurement s readers site d with
                   | Some m => set_assoc (path_name d) m acc
                   | None => acc
                   end)
    end.
  (** ProjectLoader._load_site, letsgo.py 157-178 *)
  Definition load_site (s : node) (readers : list (reader D)) (d : path) : res psite :=
    subdirs <- dir_subdirs s d ;;
    let ms := load_meas_all s readers (path_name d) subdirs [] in
    let be := span (now d) (map (fun x => mm_first (me_md (snd x))) ms) (map (fun x => mm_last (me_md (snd x))) ms) in
    Ok (mkSite d ms (fst be) (snd be)).
  (** the loop of ProjectLoader.run, letsgo.py 129-132 *)
  Fixpoint load_sites (s : node) (readers : list (reader D)) (dirs : list path) (acc : list (string * psite)) : res (list (string * psite)) :=
    match dirs with
    | [] => Ok acc
    | d :: t => x <- load_site s readers d ;; load_sites s readers t (set_assoc (path_name d) x acc)
    end.
  (** ProjectLoader.run, letsgo.py 97-145, and load, 233-261 *)
  Definition load (readers : list (reader D)) (p : path) (s : node) : res (pproject M) :=
    _ <- assert_dir s p ;;
    let mp := pjoin p PROJ_FILE in
    if negb (exists_ s mp) then Err ProjectLoadError
    else
      _ <- check_subdirs s p PROJ_DIRS ;;
      text <- read_file s mp ;;
      m <- pparse text ;;
      dirs <- dir_subdirs s (pjoin p (proj_sub "time")) ;;
      sites <- load_sites s readers dirs [] ;;
      let be := span (now p) (map (fun x => st_begin (snd x)) sites) (map (fun x => st_end (snd x)) sites) in
      Ok (mkProject p (fst be) (snd be) m sites).

  (** quick_read, letsgo.py 490-528 *)
  Fixpoint quick_read (s : node) (readers : list (reader D)) (d : path) : res D :=
    match readers with
    | [] => Err TimeDataReadError
    | r :: t => match rd_run r s d with Ok x => Ok x | Err _ => quick_read s t d end
    end.

  (** ** Solutions *)
  (** Solution.json() and Solution.parse_file; name and variation of its transfer function *)
  Variable sser : S -> string.
  Variable sparse : string -> res S.
  Variables (s_tf_name s_tf_var : S -> string).
  (** process_evals_to_tf, letsgo.py 740-808; [compute] stands for lines 779-800 *)
  Definition process_evals_to_tf (compute : node -> res S) (proj : path) (config : string) (fs : Q) (out_site : string)
    (postfix : option string) : prog S :=
    sol <~ pres compute ;;
    let sp := get_results_path proj out_site config in
    e <~ preads (fun s => exists_ s sp) ;;
    _ <~ (if (e : bool) then pret tt else mkdir_parents sp) ;;
    _ <~ write_json (pjoin sp (get_solution_name fs (s_tf_name sol) (s_tf_var sol) postfix)) (sser sol) ;;
    pret sol.
  (** get_solution, letsgo.py 811-850 *)
  Definition get_solution_file (proj : path) (site config : string) (fs : Q) (tf_name tf_var : string) (postfix : option string) (s : node) : res S :=
    text <- read_file s (pjoin (get_results_path proj site config) (get_solution_name fs tf_name tf_var postfix)) ;;
    sparse text.
End Letsgo.
