(** C54, C56-C58, C60-C62, C64: projects on disk.

    Files are what is observed ([kind_at]); [pparse]/[sparse] are the JSON parsers,
    [inter] gives the contents a crash may leave while a file is written, [now] the
    clock; the theorems hold for all of them. *)
From Coq Require Import String Ascii Sorted.
From Verif Require Import Base.Prelude Base.FileSys Model.Project Model.Letsgo Spec.Project.
From Verif Require Import Proofs.FileSys Proofs.ProjectFs Proofs.ProjectLoad Proofs.ProjectNames Proofs.ProjectSites Proofs.ProjectFinal.
Open Scope list_scope.
Open Scope Q_scope.

(** ** C54 *)
Theorem C54_new_then_load : forall (M D : Type) (pser : M -> string) (pparse : string -> res M) inter now (readers : list (reader D)) s p m,
  creatable s p -> wf_names s -> pparse (pser m) = Ok m ->
  result (new pser inter p m) s = Ok tt /\ created s p (pser m) (final (new pser inter p m) s) /\
  exists pr, load pparse now readers p (final (new pser inter p m) s) = Ok pr /\
    project_of now (final (new pser inter p m) s) readers p m pr /\ (kind_at s p = None -> pr_sites pr = []).
Proof. exact @c54_new. Qed.
Print Assumptions C54_new_then_load.
Theorem C54_refuses_existing : forall (M : Type) (pser : M -> string) inter s p m k, kind_at s p = Some KDir -> kind_at s (proj_file p) = Some k ->
  result (new pser inter p m) s = Err ProjectCreateError /\ crash_states (new pser inter p m) s = [s] /\ final (new pser inter p m) s = s.
Proof. exact @c54_refuses. Qed.
Print Assumptions C54_refuses_existing.
(** every crash point: before the project file exists, new can be repeated and ends in the
    same files; from then on all sub-directories exist *)
Theorem C54_crash_partial : forall (M : Type) (pser : M -> string) inter s p m s', creatable s p -> In s' (crash_states (new pser inter p m) s) ->
  (kind_at s' (proj_file p) = None /\ result (new pser inter p m) s' = Ok tt /\
   same_files (final (new pser inter p m) s') (final (new pser inter p m) s)) \/
  (exists c, In c (""%string :: inter (pser m) ++ [pser m]) /\ kind_at s' (proj_file p) = Some (KFile c) /\
     (forall d, In d sub_names -> kind_at s' (sub_dir p d) = Some KDir) /\
     new pser inter p m s' = ([], (s', Err ProjectCreateError)) /\
     (c = pser m -> s' = final (new pser inter p m) s)).
Proof. exact @new_crash. Qed.
Print Assumptions C54_crash_partial.
(** a crash just after the project file was opened: neither new nor load accepts the directory *)
Theorem C54_crash_refuted : forall (M D : Type) (pser : M -> string) (pparse : string -> res M) inter now (readers : list (reader D)) s p m, creatable s p ->
  (forall x, pparse ""%string <> Ok x) ->
  exists s', In s' (crash_states (new pser inter p m) s) /\ result (new pser inter p m) s' = Err ProjectCreateError /\
    forall pr, load pparse now readers p s' <> Ok pr.
Proof. exact @c54_stuck. Qed.
Print Assumptions C54_crash_refuted.
(** load refuses a directory without time/ ... *)
Theorem C54_load_refuses_partial : forall (M D : Type) (pparse : string -> res M) now (readers : list (reader D)) s p,
  kind_at s (sub_dir p "time"%string) <> Some KDir -> forall pr, load pparse now readers p s <> Ok pr.
Proof. exact @c54_load_refuses. Qed.
Print Assumptions C54_load_refuses_partial.

Definition exParse (t : string) : res string := if String.eqb t "{m}" then Ok "m"%string else Err ValueError.
Definition exSer (m : string) : string := ("{" ++ m ++ "}")%string.
Definition exInter (t : string) : list string := [substring 0 1 t; substring 0 2 t].
Definition exNow (p : path) : Q * Q := (1000, 1001).
Definition exReader (name fname : string) (md : meas_md) : reader string :=
  mkReader name (fun s d => if is_file_ s (d ++ [fname]) then Ok md else Err MetadataReadError)
                (fun s d => if is_file_ s (d ++ [fname]) then Ok name else Err MetadataReadError).
Definition exReaders : list (reader string) := [exReader "A" "a.txt" (mkMeasMd 4 10 20 ""); exReader "B" "b.npy" (mkMeasMd 16 15 30 "")]%string.
Definition P0 : path := ["home"; "proj"]%string.
Definition exRoot : node := Dir [("home"%string, Dir [("old"%string, File "x")])].
(** ... but accepts one that has no other sub-directory *)
Theorem C54_subdirs_refuted : exists s pr, wf_names s /\ load exParse exNow exReaders P0 s = Ok pr /\
  forall d, In d sub_names -> d <> "time"%string -> kind_at s (sub_dir P0 d) = None.
Proof.
  exists (Dir [("home"%string, Dir [("proj"%string, Dir [("resistics.json"%string, File "{m}"); ("time"%string, Dir [])])])]). eexists.
  split; [|split; [vm_compute; reflexivity|]].
  - wf_tac.
  - intros d H N. cbn in H. repeat (destruct H as [<-|H]; [first [congruence|vm_compute; reflexivity]|]). destruct H.
Qed.
Print Assumptions C54_subdirs_refuted.
(** a plain file named like a sub-directory: the project is created without that directory *)
Theorem C54_plain_file_refuted : exists s, kind_at s P0 = Some KDir /\ kind_at s (proj_file P0) = None /\
  result (new exSer exInter P0 "m"%string) s = Ok tt /\
  kind_at (final (new exSer exInter P0 "m"%string) s) (proj_file P0) = Some (KFile "{m}") /\
  kind_at (final (new exSer exInter P0 "m"%string) s) (sub_dir P0 "evals"%string) = Some (KFile "x").
Proof.
  exists (Dir [("home"%string, Dir [("proj"%string, Dir [("evals"%string, File "x")])])]). split; [vm_compute; reflexivity|]. split; [vm_compute; reflexivity|]. split; [vm_compute; reflexivity|]. split; vm_compute; reflexivity.
Qed.
Print Assumptions C54_plain_file_refuted.
Example C54_ex_creatable : creatable exRoot P0 /\ wf_names exRoot.
Proof.
  split.
  - split; [discriminate|]. split; [reflexivity|]. split; [|split; [reflexivity|]].
    + intros [|a [|b [|c q]]] r x E; cbn in E; [discriminate| | |].
      * injection E as <- _. vm_compute. discriminate.
      * injection E as <- <- _. vm_compute. discriminate.
      * injection E as _ _ E. discriminate.
    + intros d c H. cbn in H. repeat (destruct H as [<-|H]; [vm_compute; discriminate|]). destruct H.
  - wf_tac.
Qed.
(** ten crash points before the project file, four while it is written *)
Example C54_ex_crash : length (crash_states (new exSer exInter P0 "m"%string) exRoot) = 14%nat /\
  map (fun s' => is_ok (result (new exSer exInter P0 "m"%string) s')) (crash_states (new exSer exInter P0 "m"%string) exRoot) =
    [true; true; true; true; true; true; true; true; true; true; false; false; false; false] /\
  map (fun s' => is_ok (load exParse exNow exReaders P0 s')) (crash_states (new exSer exInter P0 "m"%string) exRoot) =
    [false; false; false; false; false; false; false; false; false; false; false; false; false; true].
Proof. split; [vm_compute; reflexivity|]. split; vm_compute; reflexivity. Qed.

(** ** C64: the loaded project mirrors the time directory *)
Theorem C64_load : forall (M D : Type) (pparse : string -> res M) now (readers : list (reader D)) s p text m, wf_names s -> kind_at s p = Some KDir ->
  kind_at s (proj_file p) = Some (KFile text) -> pparse text = Ok m -> kind_at s (sub_dir p "time"%string) = Some KDir ->
  exists pr, load pparse now readers p s = Ok pr /\ project_of now s readers p m pr.
Proof. intros M D pparse now readers s p text m. exact (load_ok pparse now s readers p text m). Qed.
Print Assumptions C64_load.
Definition exTree : node := Dir [("proj"%string, Dir [("resistics.json"%string, File "{m}"); ("time"%string, Dir [
  ("S1"%string, Dir [("m1"%string, Dir [("a.txt"%string, File "")]); ("m2"%string, Dir [("b.npy"%string, File "")]); ("bad"%string, Dir []); ("note"%string, File "")]);
  (".cache"%string, Dir []); ("S2"%string, Dir [("m1"%string, Dir [("b.npy"%string, File ""); ("a.txt"%string, File "")])])])])].
Example C64_ex : exists pr, load exParse exNow exReaders ["proj"%string] exTree = Ok pr /\
  map fst (pr_sites pr) = ["S1"; ".cache"; "S2"]%string /\ (pr_begin pr, pr_end pr) = (10, 1001) /\
  map (fun x => map (fun y => (fst y, me_reader (snd y))) (st_meas (snd x))) (pr_sites pr) = [[("m1", "A"); ("m2", "B")]; []; [("m1", "A")]]%string /\
  map (fun x => (st_begin (snd x), st_end (snd x))) (pr_sites pr) = [(10, 30); (1000, 1001); (10, 20)].
Proof. eexists. split; [vm_compute; reflexivity|]. vm_compute. split; [reflexivity|]. split; [reflexivity|]. split; reflexivity. Qed.

(** ** C56 *)
Theorem C56_concurrent : forall (M : Type) (p : pproject M) name s, named p -> In (name, s) (pr_sites p) ->
  exists l, get_concurrent p name = Ok l /\ forall o, In o l <-> exists other, other <> name /\ In (other, o) (pr_sites p) /\ overlap s o.
Proof. exact @concurrent_ok. Qed.
Print Assumptions C56_concurrent.
Theorem C56_symmetric : forall (M : Type) (p : pproject M) a b sa sb la lb, named p -> In (a, sa) (pr_sites p) -> In (b, sb) (pr_sites p) ->
  get_concurrent p a = Ok la -> get_concurrent p b = Ok lb -> a <> b -> (In sb la <-> In sa lb).
Proof. exact @concurrent_sym. Qed.
Print Assumptions C56_symmetric.
(** every loaded project satisfies the hypothesis *)
Theorem C56_loaded : forall (M D : Type) now s (readers : list (reader D)) p m (pr : pproject M), project_of now s readers p m pr ->
  (forall q, fst (now q) <= snd (now q)) -> (forall r d md, In r readers -> rd_md r s d = Ok md -> mm_first md <= mm_last md) -> named pr.
Proof. intros M D. exact (@loaded_named M D). Qed.
Print Assumptions C56_loaded.
Example C56_ex : exists pr, load exParse exNow exReaders ["proj"%string] exTree = Ok pr /\
  (l <- get_concurrent pr "S1"%string ;; Ok (map st_name l)) = Ok ["S2"%string] /\ (l <- get_concurrent pr ".cache"%string ;; Ok (map st_name l)) = Ok [] /\
  get_concurrent pr "S9"%string = Err KeyError.
Proof. eexists. split; [vm_compute; reflexivity|]. vm_compute. split; [reflexivity|]. split; reflexivity. Qed.

(** ** C57 *)
Theorem C57_site_fs : forall s, distinct_increasing (map (fun x => mm_fs (me_md (snd x))) (st_meas s)) (site_fs s).
Proof. exact site_fs_spec. Qed.
Print Assumptions C57_site_fs.
Theorem C57_measurements : forall s f x, In x (get_measurements s (Some f)) <-> In x (st_meas s) /\ mm_fs (me_md (snd x)) == f.
Proof. exact get_measurements_spec. Qed.
Print Assumptions C57_measurements.
Theorem C57_partition : forall s x, In x (st_meas s) ->
  exists f, In f (site_fs s) /\ In x (get_measurements s (Some f)) /\
    forall g, In g (site_fs s) -> In x (get_measurements s (Some g)) -> g = f.
Proof. exact partition_spec. Qed.
Print Assumptions C57_partition.
Theorem C57_project_fs : forall (M : Type) (p : pproject M),
  distinct_increasing (flat_map (fun x => map (fun y => mm_fs (me_md (snd y))) (st_meas (snd x))) (pr_sites p)) (proj_fs p).
Proof. exact @proj_fs_spec. Qed.
Print Assumptions C57_project_fs.
Theorem C57_get_sites : forall (M : Type) (p : pproject M) f x, In x (get_sites p (Some f)) <->
  In x (pr_sites p) /\ exists m, In m (st_meas (snd x)) /\ mm_fs (me_md (snd m)) == f.
Proof. exact @get_sites_spec. Qed.
Print Assumptions C57_get_sites.
Example C57_ex : exists pr, load exParse exNow exReaders ["proj"%string] exTree = Ok pr /\ proj_fs pr = [4; 16] /\
  map fst (get_sites pr (Some 16)) = ["S1"%string] /\ map fst (get_sites pr (Some 4)) = ["S1"; "S2"]%string.
Proof. eexists. split; [vm_compute; reflexivity|]. vm_compute. split; [reflexivity|]. split; reflexivity. Qed.

(** ** C58 *)
(** for one transfer function, files differ unless postfix and printed frequency agree *)
Theorem C58_names_of_one_tf : forall n v a b px py, 0 <= a -> 0 <= b ->
  get_solution_name a n v px = get_solution_name b n v py -> micro a = micro b /\ px = py.
Proof. exact names_one_tf. Qed.
Print Assumptions C58_names_of_one_tf.
(** across transfer functions, for lower-case names and variations without space or underscore *)
Theorem C58_names_partial : forall a n v px b n' v' py, 0 <= a -> 0 <= b ->
  (no_char "_" n /\ no_char " " n /\ PyString.lower n = n) -> (no_char "_" n' /\ no_char " " n' /\ PyString.lower n' = n') ->
  no_char "_" v -> no_char " " v -> no_char "_" v' -> no_char " " v' -> (v = ""%string <-> v' = ""%string) ->
  get_solution_name a n v px = get_solution_name b n' v' py -> micro a = micro b /\ n = n' /\ v = v' /\ px = py.
Proof. exact names_plain. Qed.
Print Assumptions C58_names_partial.
(** collisions: case, space and underscore, variation and postfix, close frequencies *)
Theorem C58_collision_refuted :
  get_solution_name 128 "ImpedanceTensor" "default" None = get_solution_name 128 "IMPEDANCEtensor" "default" None /\
  get_solution_name 128 "Tipper" "my var" None = get_solution_name 128 "Tipper" "my_var" None /\
  get_solution_name 128 "Tipper" "" (Some "rr"%string) = get_solution_name 128 "Tipper" "rr" None /\
  get_solution_name 128 "Tipper" "default" (Some "a_b"%string) = get_solution_name 128 "Tipper" "default_a" (Some "b"%string) /\
  get_solution_name (1 # 3) "Tipper" "default" None = get_solution_name (333333 # 1000000) "Tipper" "default" None.
Proof. repeat (split; [vm_compute; reflexivity|]). vm_compute; reflexivity. Qed.
Print Assumptions C58_collision_refuted.
(** after any sequence of calls, get_solution reads the last solution stored in that file *)
Theorem C58_history : forall (S : Type) inter (sser : S -> string) sparse tfn tfv p s before j after s',
  history inter sser tfn tfv p s (before ++ j :: after) s' -> results_tree s p ->
  (forall j', In j' after -> ~ same_file tfn tfv j' j) -> sparse (sser (j_sol j)) = Ok (j_sol j) ->
  get_solution_file sparse p (j_site j) (j_config j) (j_fs j) (tfn (j_sol j)) (tfv (j_sol j)) (j_postfix j) s' = Ok (j_sol j).
Proof. exact @c58_history. Qed.
Print Assumptions C58_history.
Theorem C58_returns : forall (S : Type) inter (sser : S -> string) tfn tfv p s j compute, results_tree s p -> job_ok tfn tfv j -> compute s = Ok (j_sol j) ->
  result (process_evals_to_tf inter sser tfn tfv compute p (j_config j) (j_fs j) (j_site j) (j_postfix j)) s = Ok (j_sol j) /\
  results_tree (final (process_evals_to_tf inter sser tfn tfv compute p (j_config j) (j_fs j) (j_site j) (j_postfix j)) s) p.
Proof. exact @c58_returns. Qed.
Print Assumptions C58_returns.
Theorem C58_new_project : forall s p text s', creatable s p -> created s p text s' -> kind_at s (p ++ ["results"]%string) = None -> results_tree s' p.
Proof. exact @c58_created. Qed.
Print Assumptions C58_new_project.
Definition exJob (fs : Q) (px : option string) (sol : string) : job string := mkJob "S1"%string "conf"%string fs px sol.
Example C58_ex : get_solution_name 128 "ImpedanceTensor" "with Hz" (Some "rr"%string) = "128_000000_impedancetensor_with_Hz_rr.json"%string /\
  exists s', history exInter exSer (fun _ => "Tipper"%string) (fun _ => "default"%string) P0
    (final (new exSer exInter P0 "m"%string) exRoot) [exJob 128 None "x"; exJob (1 # 2) None "y"; exJob 128 (Some "rr"%string) "z"]%string s' /\
  map (fun f => get_solution_file (fun t => Ok t) P0 "S1" "conf" (fst f) "TIPPER" "default" (snd f) s') [(128, None); (1 # 2, None); (128, Some "rr"); (2, None)]%string =
    [Ok "{x}"; Ok "{y}"; Ok "{z}"; Err FileNotFoundError]%string.
Proof.
  split; [vm_compute; reflexivity|]. eexists. split.
  - assert (J : forall fs px sol, 0 <= fs -> match px with Some x => no_char "/"%char x | None => True end -> job_ok (fun _ => "Tipper"%string) (fun _ => "default"%string) (exJob fs px sol)).
    { intros fs px sol H1 H2. split; [|split; [|split; [exact H1|split; [|split; [|exact H2]]]]]; try (cbn; repeat split; discriminate); (split; [discriminate|split; [discriminate|cbn; repeat split; discriminate]]). }
    apply H_run with (compute := fun _ => Ok "x"%string); [apply J; [lra|exact I]|reflexivity|].
    apply H_run with (compute := fun _ => Ok "y"%string); [apply J; [lra|exact I]|reflexivity|].
    apply (H_fail exInter exSer _ _ P0 _ KeyError "conf"%string 8 "S1"%string None (fun _ => Err KeyError)); [reflexivity|].
    apply H_run with (compute := fun _ => Ok "z"%string); [apply J; [lra|cbn; repeat split; discriminate]|reflexivity|]. apply H_nil.
  - vm_compute. reflexivity.
Qed.

(** ** C60 *)
Theorem C60_quick_read : forall (D : Type) s (readers : list (reader D)) d x,
  quick_read s readers d = Ok x <-> exists r, first_success readers (fun r => rd_run r s d) r x.
Proof. exact @quick_read_ok. Qed.
Print Assumptions C60_quick_read.
Theorem C60_quick_read_fails : forall (D : Type) s (readers : list (reader D)) d,
  all_fail readers (fun r => rd_run r s d) -> quick_read s readers d = Err TimeDataReadError.
Proof. exact @quick_read_err. Qed.
Print Assumptions C60_quick_read_fails.
Theorem C60_measurement : forall (D : Type) s (readers : list (reader D)) site d m,
  load_measurement s readers site d = Some m <-> exists r md, first_success readers (fun r => rd_md r s d) r md /\ m = mkMeas site d md (rd_name r).
Proof. exact @load_measurement_some. Qed.
Print Assumptions C60_measurement.
Theorem C60_no_measurement : forall (D : Type) s (readers : list (reader D)) site d,
  load_measurement s readers site d = None <-> all_fail readers (fun r => rd_md r s d).
Proof. exact @load_measurement_none. Qed.
Print Assumptions C60_no_measurement.
Example C60_ex : quick_read exTree exReaders ["proj"; "time"; "S1"; "m2"]%string = Ok "B"%string /\
  quick_read exTree exReaders ["proj"; "time"; "S2"; "m1"]%string = Ok "A"%string /\
  quick_read exTree exReaders ["proj"; "time"; "S1"; "bad"]%string = Err TimeDataReadError.
Proof. split; [vm_compute; reflexivity|]. split; vm_compute; reflexivity. Qed.

(** ** C61: two places never share a path, nor does one lie inside the other *)
Theorem C61_paths : forall p x y r, Forall component (place_names x) -> Forall component (place_names y) ->
  place_path p y = place_path p x ++ r -> x = y.
Proof. exact place_inj. Qed.
Print Assumptions C61_paths.
Example C61_ex : Forall component (place_names (SpectraOf "S1" "conf.1" "m 1")) /\
  place_path P0 (SpectraOf "S1" "conf.1" "m 1") = ["home"; "proj"; "spectra"; "S1"; "conf.1"; "m 1"]%string /\
  place_path P0 (TimeOf "S1" "m 1") = ["home"; "proj"; "time"; "S1"; "m 1"]%string.
Proof. split; [repeat constructor; try discriminate; cbn; repeat split; discriminate|]. split; vm_compute; reflexivity. Qed.
(** names with a slash do collide *)
Example C61_slash : place_path P0 (EvalsOf "a/b" "c" "d") = place_path P0 (EvalsOf "a" "b/c" "d").
Proof. vm_compute. reflexivity. Qed.

(** ** C62 *)
Theorem C62_listing_partial : forall s p, wf_names s -> kind_at s p = Some KDir ->
  exists dirs files, dir_contents s p = Ok (dirs, files) /\ dir_subdirs s p = Ok dirs /\ dir_files s p = Ok files /\
    NoDup dirs /\ NoDup files /\
    (forall o, In o dirs <-> exists x, o = p ++ [x] /\ kind_at s o = Some KDir) /\
    (forall o, In o files <-> exists x c, o = p ++ [x] /\ kind_at s o = Some (KFile c)).
Proof. exact listing. Qed.
Print Assumptions C62_listing_partial.
(** hidden files are listed, and a hidden directory becomes a site of the project *)
Theorem C62_hidden_refuted : exists s p, wf_names s /\ dir_files s p = Ok [p ++ [".hidden"%string]] /\
  exists s' pr, load exParse exNow exReaders ["proj"%string] s' = Ok pr /\ In ".cache"%string (map fst (pr_sites pr)).
Proof.
  exists (Dir [(".hidden"%string, File "")]), []. split; [|split; [reflexivity|]].
  - wf_tac.
  - exists exTree. eexists. split; [vm_compute; reflexivity|]. vm_compute. tauto.
Qed.
Print Assumptions C62_hidden_refuted.
