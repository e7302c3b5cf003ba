(** Model of resistics/project.py (plots and data frames are not modelled) and of
    the functions of resistics/common.py it uses.

    Times are rational seconds; sampling frequencies are rationals; a Path is the
    list of its components; strings are ASCII. *)
From Coq Require Import String Ascii.
From Verif Require Import Base.Prelude Base.PyString Base.Dec Base.FileSys.
Open Scope list_scope.
Open Scope Q_scope.

(** PROJ_FILE and PROJ_DIRS, project.py 21-31 *)
Definition PROJ_FILE : string := "resistics.json".
Definition PROJ_DIRS : list (string * string) := [
  ("time", "time"); ("calibration", "calibrate"); ("spectra", "spectra"); ("evals", "evals");
  ("features", "features"); ("masks", "masks"); ("results", "results"); ("images", "images")]%string.
(** PROJ_DIRS[key]: a literal key, always present *)
Definition proj_sub (key : string) : string := match assoc key PROJ_DIRS with Some d => d | None => key end.

(** get_calibration_path, project.py 34-36 *)
Definition get_calibration_path (p : path) : path := pjoin p (proj_sub "calibration").
(** get_meas_time_path, 39-41 *)
Definition get_meas_time_path (p : path) (site meas : string) : path := pjoin (pjoin (pjoin p (proj_sub "time")) site) meas.
(** get_meas_spectra_path, 44-48 *)
Definition get_meas_spectra_path (p : path) (site meas config : string) : path :=
  pjoin (pjoin (pjoin (pjoin p (proj_sub "spectra")) site) config) meas.
(** get_meas_evals_path, 51-55 *)
Definition get_meas_evals_path (p : path) (site meas config : string) : path :=
  pjoin (pjoin (pjoin (pjoin p (proj_sub "evals")) site) config) meas.
(** get_meas_features_path, 58-62 *)
Definition get_meas_features_path (p : path) (site meas config : string) : path :=
  pjoin (pjoin (pjoin (pjoin p (proj_sub "features")) site) config) meas.
(** get_mask_path, 65-67 *)
Definition get_mask_path (p : path) (site config : string) : path :=
  pjoin (pjoin (pjoin p (proj_sub "masks")) site) config.
(** get_results_path, 77-79 *)
Definition get_results_path (p : path) (site config : string) : path :=
  pjoin (pjoin (pjoin p (proj_sub "results")) site) config.

(** str.replace(a, b) for single characters *)
Fixpoint replace_char (a b : ascii) (s : string) : string :=
  match s with EmptyString => EmptyString | String c t => String (if Ascii.eqb c a then b else c) (replace_char a b t) end.

Open Scope string_scope.
(** fs_to_string, common.py 322-342 *)
Definition fs_to_string (fs : Q) : string := replace_char "." "_" (fix6 fs).
(** get_mask_name, project.py 70-74 *)
Definition get_mask_name (fs : Q) (mask : string) : string := fs_to_string fs ++ "_" ++ mask ++ ".dat".
(** get_solution_name, project.py 82-94 *)
Definition get_solution_name (fs : Q) (tf_name tf_var : string) (postfix : option string) : string :=
  let name := fs_to_string fs ++ "_" ++ lower tf_name in
  let name := if String.eqb tf_var "" then name else name ++ "_" ++ replace_char " " "_" tf_var in
  match postfix with
  | None => name ++ ".json"
  | Some x => name ++ "_" ++ x ++ ".json"
  end.
Close Scope string_scope.

(** ** Measurement, Site and Project *)
(** the fields of TimeMetadata used here (time.py 88-126) *)
Record meas_md := mkMeasMd { mm_fs : Q; mm_first : Q; mm_last : Q; mm_other : string }.
(** Measurement, project.py 97-113; [me_reader] is the name of the reader *)
Record meas := mkMeas { me_site : string; me_dir : path; me_md : meas_md; me_reader : string }.
(** Site, project.py 116-148 *)
Record psite := mkSite { st_dir : path; st_meas : list (string * meas); st_begin : Q; st_end : Q }.
(** Project, project.py 225-253 *)
Record pproject (M : Type) := mkProject { pr_dir : path; pr_begin : Q; pr_end : Q; pr_md : M; pr_sites : list (string * psite) }.
Arguments mkProject {M}. Arguments pr_dir {M}. Arguments pr_begin {M}. Arguments pr_end {M}. Arguments pr_md {M}. Arguments pr_sites {M}.

(** Path.name *)
Definition path_name (p : path) : string := last p ""%string.
Definition me_name (m : meas) : string := path_name (me_dir m).
Definition st_name (s : psite) : string := path_name (st_dir s).

(** sorted(list(set(l))) for floats *)
Fixpoint insert_q (x : Q) (l : list Q) : list Q :=
  match l with
  | [] => [x]
  | y :: t => if Qltb x y then x :: l else if Qltb y x then y :: insert_q x t else l
  end.
Definition sorted_q (l : list Q) : list Q := fold_right insert_q [] l.
Definition in_q (x : Q) (l : list Q) : bool := existsb (Qeq_bool x) l.

(** Site.fs, 150-153 *)
Definition site_fs (s : psite) : list Q := sorted_q (map (fun x => mm_fs (me_md (snd x))) (st_meas s)).
(** Site.get_measurement, 155-161 *)
Definition get_measurement (s : psite) (name : string) : res meas :=
  match assoc name (st_meas s) with Some m => Ok m | None => Err MeasurementNotFoundError end.
(** Site.get_measurements, 163-171 *)
Definition get_measurements (s : psite) (fs : option Q) : list (string * meas) :=
  match fs with
  | None => st_meas s
  | Some f => filter (fun x => Qeq_bool (mm_fs (me_md (snd x))) f) (st_meas s)
  end.

Section Proj.
  Context {M : Type}.
  (** Project.fs, 255-260 *)
  Definition proj_fs (p : pproject M) : list Q := sorted_q (flat_map (fun x => site_fs (snd x)) (pr_sites p)).
  (** Project.get_site, 262-268 *)
  Definition pget_site (p : pproject M) (name : string) : res psite :=
    match assoc name (pr_sites p) with Some s => Ok s | None => Err SiteNotFoundError end.
  (** Project.get_sites, 270-287 *)
  Definition get_sites (p : pproject M) (fs : option Q) : list (string * psite) :=
    match fs with
    | None => pr_sites p
    | Some f => filter (fun x => in_q f (site_fs (snd x))) (pr_sites p)
    end.
  (** Project.get_concurrent, 289-314 *)
  Definition get_concurrent (p : pproject M) (name : string) : res (list psite) :=
    match assoc name (pr_sites p) with
    | None => Err KeyError
    | Some s => Ok (filter (fun o => negb (String.eqb (st_name o) name) && negb (Qltb (st_end o) (st_begin s))
                                      && negb (Qltb (st_end s) (st_begin o))) (map snd (pr_sites p)))
    end.
End Proj.

(** ** dir_contents, dir_files, dir_subdirs: common.py 119-198 *)
Definition dir_contents (s : node) (p : path) : res (list path * list path) :=
  if negb (exists_ s p) then Err PathNotFoundError
  else if negb (is_dir_ s p) then Err NotDirectoryError
  else let objs := map (fun x => p ++ [x]) (iterdir s p) in
       Ok (filter (fun o => negb (is_file_ s o) && is_dir_ s o) objs, filter (is_file_ s) objs).
Definition dir_files (s : node) (p : path) : res (list path) := c <- dir_contents s p ;; Ok (snd c).
Definition dir_subdirs (s : node) (p : path) : res (list path) := c <- dir_contents s p ;; Ok (fst c).
(** assert_dir, common.py 95-116 *)
Definition assert_dir (s : node) (p : path) : res unit :=
  if negb (exists_ s p) then Err FileNotFoundError else if negb (is_dir_ s p) then Err NotDirectoryError else Ok tt.
(** assert_file, common.py 48-69 *)
Definition assert_file (s : node) (p : path) : res unit :=
  if negb (exists_ s p) then Err FileNotFoundError else if negb (is_file_ s p) then Err NotFileError else Ok tt.
