(** Specification of projects on disk: what users rely on. *)
From Coq Require Import String Ascii Sorted.
From Verif Require Import Base.Prelude Base.FileSys Model.Project Model.Letsgo.
Open Scope list_scope.
Open Scope Q_scope.

(** the sub-directories and the project file of the documentation *)
Definition sub_names : list string := ["time"; "calibrate"; "spectra"; "evals"; "features"; "masks"; "results"; "images"]%string.
Definition proj_file (p : path) : path := p ++ ["resistics.json"]%string.
Definition sub_dir (p : path) (d : string) : path := p ++ [d].

(** a place where a project can be created: no project file yet, and no plain file where a
    directory is needed *)
Definition creatable (s : node) (p : path) : Prop :=
  p <> [] /\ kind_at s [] = Some KDir /\
  (forall q r c, p = q ++ r -> kind_at s q <> Some (KFile c)) /\
  kind_at s (proj_file p) = None /\
  (forall d c, In d sub_names -> kind_at s (sub_dir p d) <> Some (KFile c)).
(** the state after creating project [p]: directories above it and the sub-directories, the
    project file, and nothing else *)
Definition created (s : node) (p : path) (text : string) (s' : node) : Prop :=
  kind_at s' (proj_file p) = Some (KFile text) /\
  (forall d, In d sub_names -> kind_at s' (sub_dir p d) = Some KDir) /\
  (forall q r, p = q ++ r -> kind_at s' q = Some KDir) /\
  (forall q, q <> proj_file p -> (forall d, In d sub_names -> q <> sub_dir p d) -> (forall r, p <> q ++ r) ->
     kind_at s' q = kind_at s q).
Definition same_files (s s' : node) : Prop := forall q, kind_at s q = kind_at s' q.

(** directories hold each name once *)
Definition wf_names (s : node) : Prop := forall p, NoDup (iterdir s p).
(** [x] comes from the first element of [l] on which [f] succeeds *)
Definition first_success {A B} (l : list A) (f : A -> res B) (a : A) (b : B) : Prop :=
  exists i, nth_error l i = Some a /\ f a = Ok b /\ forall j a', (j < i)%nat -> nth_error l j = Some a' -> forall b', f a' <> Ok b'.
Definition all_fail {A B} (l : list A) (f : A -> res B) : Prop := forall a b, In a l -> f a <> Ok b.

(** the least and the greatest of some times *)
Definition is_min (x : Q) (l : list Q) : Prop := (exists y, In y l /\ y == x) /\ forall y, In y l -> x <= y.
Definition is_max (x : Q) (l : list Q) : Prop := (exists y, In y l /\ y == x) /\ forall y, In y l -> y <= x.
(** a site read from directory [d]: its measurements are the sub-directories that some reader
    can read, each with the first such reader *)
Definition site_of {D} (now : path -> Q * Q) (s : node) (readers : list (reader D)) (d : path) (st : psite) : Prop :=
  st_dir st = d /\ NoDup (map fst (st_meas st)) /\
  (forall name m, In (name, m) (st_meas st) <->
     kind_at s (d ++ [name]) = Some KDir /\
     exists r md, first_success readers (fun r => rd_md r s (d ++ [name])) r md /\
       m = mkMeas (path_name d) (d ++ [name]) md (rd_name r)) /\
  match st_meas st with
  | [] => (st_begin st, st_end st) = now d
  | _ => is_min (st_begin st) (map (fun x => mm_first (me_md (snd x))) (st_meas st)) /\
         is_max (st_end st) (map (fun x => mm_last (me_md (snd x))) (st_meas st))
  end.
Definition project_of {M D} (now : path -> Q * Q) (s : node) (readers : list (reader D)) (p : path) (m : M) (pr : pproject M) : Prop :=
  pr_dir pr = p /\ pr_md pr = m /\ NoDup (map fst (pr_sites pr)) /\
  (forall name st, In (name, st) (pr_sites pr) -> site_of now s readers (p ++ ["time"; name]%string) st) /\
  (forall name, In name (map fst (pr_sites pr)) <-> kind_at s (p ++ ["time"; name]%string) = Some KDir) /\
  match pr_sites pr with
  | [] => (pr_begin pr, pr_end pr) = now p
  | _ => is_min (pr_begin pr) (map (fun x => st_begin (snd x)) (pr_sites pr)) /\
         is_max (pr_end pr) (map (fun x => st_end (snd x)) (pr_sites pr))
  end.

(** ** sites and sampling frequencies *)
(** projects as made by load: a site is stored under its name and ends after it begins *)
Definition named {M} (pr : pproject M) : Prop :=
  NoDup (map fst (pr_sites pr)) /\ forall name st, In (name, st) (pr_sites pr) -> st_name st = name /\ st_begin st <= st_end st.
(** two sites record at some common time *)
Definition overlap (a b : psite) : Prop := exists t, st_begin a <= t <= st_end a /\ st_begin b <= t <= st_end b.
(** the distinct values of [l], increasing *)
Definition distinct_increasing (l r : list Q) : Prop :=
  StronglySorted Qlt r /\ forall x, (exists y, In y r /\ y == x) <-> (exists y, In y l /\ y == x).

(** a name that is one component of a path *)
Fixpoint no_char (c : ascii) (s : string) : Prop := match s with EmptyString => True | String x t => x <> c /\ no_char c t end.
Definition component (s : string) : Prop := s <> ""%string /\ s <> "."%string /\ no_char "/"%char s.

(** the places where data of a measurement or site is stored *)
Inductive place :=
| TimeOf (site meas : string)
| SpectraOf (site config meas : string)
| EvalsOf (site config meas : string)
| FeaturesOf (site config meas : string)
| MasksOf (site config : string)
| ResultsOf (site config : string)
| Calibration.
Definition place_path (p : path) (x : place) : path :=
  match x with
  | TimeOf s m => get_meas_time_path p s m
  | SpectraOf s c m => get_meas_spectra_path p s m c
  | EvalsOf s c m => get_meas_evals_path p s m c
  | FeaturesOf s c m => get_meas_features_path p s m c
  | MasksOf s c => get_mask_path p s c
  | ResultsOf s c => get_results_path p s c
  | Calibration => get_calibration_path p
  end.
Definition place_names (x : place) : list string :=
  match x with
  | TimeOf s m => [s; m]
  | SpectraOf s c m | EvalsOf s c m | FeaturesOf s c m => [s; c; m]
  | MasksOf s c | ResultsOf s c => [s; c]
  | Calibration => []
  end.
(** a sampling frequency as printed: millionths of a Hertz *)
Definition micro (fs : Q) : Z := qround (Qabs fs * 1000000).

(** ** stored solutions *)
(** the results directory of project [p] as resistics uses it: directories for sites and
    configurations, plain files below them *)
Definition results_tree (s : node) (p : path) : Prop :=
  kind_at s p = Some KDir /\ (forall c, kind_at s (p ++ ["results"]%string) <> Some (KFile c)) /\
  (forall a c, kind_at s (p ++ ["results"%string; a]) <> Some (KFile c)) /\
  (forall a b c, kind_at s (p ++ ["results"%string; a; b]) <> Some (KFile c)) /\
  (forall a b n, kind_at s (p ++ ["results"%string; a; b; n]) <> Some KDir).
(** one call of process_evals_to_tf: site, configuration, frequency, postfix and the solution
    (with the name and variation of its transfer function) *)
Record job (S : Type) := mkJob { j_site : string; j_config : string; j_fs : Q; j_postfix : option string; j_sol : S }.
Arguments mkJob {S}. Arguments j_site {S}. Arguments j_config {S}. Arguments j_fs {S}. Arguments j_postfix {S}. Arguments j_sol {S}.
Definition job_name {S} (tfn tfv : S -> string) (j : job S) : string := get_solution_name (j_fs j) (tfn (j_sol j)) (tfv (j_sol j)) (j_postfix j).
Definition job_ok {S} (tfn tfv : S -> string) (j : job S) : Prop :=
  component (j_site j) /\ component (j_config j) /\ 0 <= j_fs j /\
  no_char "/"%char (tfn (j_sol j)) /\ no_char "/"%char (tfv (j_sol j)) /\ match j_postfix j with Some x => no_char "/"%char x | None => True end.
(** two calls that store in the same file *)
Definition same_file {S} (tfn tfv : S -> string) (a b : job S) : Prop :=
  j_site a = j_site b /\ j_config a = j_config b /\ job_name tfn tfv a = job_name tfn tfv b.
(** a sequence of calls of process_evals_to_tf on project [p], those that computed a solution
    listed in order; a call whose computation raises is also allowed in between *)
Section History.
  Context {S : Type}.
  Variable inter : string -> list string.
  Variable sser : S -> string.
  Variables (tfn tfv : S -> string).
  Inductive history (p : path) : node -> list (job S) -> node -> Prop :=
  | H_nil s : history p s [] s
  | H_run s j compute js s' : job_ok tfn tfv j -> compute s = Ok (j_sol j) ->
      history p (final (process_evals_to_tf inter sser tfn tfv compute p (j_config j) (j_fs j) (j_site j) (j_postfix j)) s) js s' ->
      history p s (j :: js) s'
  | H_fail s e config fs site postfix compute js s' : compute s = Err e ->
      history p (final (process_evals_to_tf inter sser tfn tfv compute p config fs site postfix) s) js s' ->
      history p s js s'.
End History.
