(** C94: an interrupted command can be repeated.

    The file formats and the computation are parameters, as in C22, C55, C58 and C65.
    overwrite=True is the default of every writer (common.py 914). *)
From Coq Require Import String Ascii.
From Verif Require Import Spec.Project.
From Verif Require Import Base.Prelude Base.Rounding Base.FileSys Model.Sampling Model.Time Model.Project Model.Letsgo Model.Persist
  Spec.Sampling Spec.Time Spec.Persist Spec.Restart.
From Verif Require Import Proofs.FileSys Proofs.PersistFs Proofs.Restart Proofs.RestartTf.
From Verif Require Props.Persist Props.Project.
Open Scope list_scope.
Open Scope Z_scope.

(** decimated, windowed, spectra and evaluation data *)
Theorem C94_levels : forall (B A : Type) (mser : pmeta B -> string) (mparse : string -> res (pmeta B)) (zser : list (string * A) -> string)
  (zparse : string -> res (list (string * A))) inter who who' now s s' d m (data : list (Z * A)),
  writable s d ["data.npz"; "metadata.json"]%string -> levels_distinct data ->
  mparse (mser (written who now m)) = Ok (written who now m) -> zparse (zser (archive data)) = Ok (archive data) ->
  attempts (fun p => exists who0 now0 ov0 m0 data0, p = write_levels mser zser inter who0 now0 ov0 d m0 data0) s s' ->
  elsewhere_same d ["data.npz"; "metadata.json"]%string s s' /\
  let s'' := final (write_levels mser zser inter who now true d m data) s' in
  result (write_levels mser zser inter who now true d m data) s' = Ok tt /\
  read_levels mparse zparse who' d s'' = Ok (mkPMeta (pm_body m) (pm_hist m ++ [who; who']) (Some now), data) /\
  stored s d [("data.npz"%string, zser (archive data)); ("metadata.json"%string, mser (written who now m))] s''.
Proof. exact @c94_levels. Qed.
Print Assumptions C94_levels.

(** time data *)
Theorem C94_time : forall rnd tser tparse nser nparse inter s s' d td,
  consistent rnd td -> chans_described (meta td) -> (2 <= n_samples (meta td))%Z ->
  writable s d ["data.npy"; "metadata.json"]%string ->
  tparse (tser (as_written numpy_name (meta td))) = Ok (as_written numpy_name (meta td)) -> nparse (nser (dtype td, rows td)) = Ok (dtype td, rows td) ->
  attempts (fun p => exists ov0 td0, p = write_numpy tser nser inter ov0 d td0) s s' ->
  elsewhere_same d ["data.npy"; "metadata.json"]%string s s' /\
  let s'' := final (write_numpy tser nser inter true d td) s' in
  result (write_numpy tser nser inter true d td) s' = Ok tt /\
  stored s d [("data.npy"%string, nser (dtype td, rows td)); ("metadata.json"%string, tser (as_written numpy_name (meta td)))] s'' /\
  exists td', read_numpy rnd tparse nparse None None None None d s'' = Ok td' /\ rows td' = rows td /\ dtype td' = dtype td /\
    same_recording (meta td) (meta td') /\ Model.Time.history (meta td') = Model.Time.history (meta td) ++ [CWriter; CReader].
Proof. exact c94_time. Qed.
Print Assumptions C94_time.

(** solutions: every earlier attempt was a job for the same file *)
Theorem C94_solution : forall (S : Type) inter (sser : S -> string) sparse tfn tfv s s' p (j : job S) compute, job_ok tfn tfv j ->
  let d := get_results_path p (j_site j) (j_config j) in
  let name := get_solution_name (j_fs j) (tfn (j_sol j)) (tfv (j_sol j)) (j_postfix j) in
  writable s d [name] -> sparse (sser (j_sol j)) = Ok (j_sol j) -> compute s' = Ok (j_sol j) ->
  attempts (fun q => exists compute0 j0, job_ok tfn tfv j0 /\ same_file tfn tfv j0 j /\ (forall t sol, compute0 t = Ok sol -> sol = j_sol j0) /\
    q = process_evals_to_tf inter sser tfn tfv compute0 p (j_config j0) (j_fs j0) (j_site j0) (j_postfix j0)) s s' ->
  elsewhere_same d [name] s s' /\
  let run := process_evals_to_tf inter sser tfn tfv compute p (j_config j) (j_fs j) (j_site j) (j_postfix j) in
  result run s' = Ok (j_sol j) /\
  get_solution_file sparse p (j_site j) (j_config j) (j_fs j) (tfn (j_sol j)) (tfv (j_sol j)) (j_postfix j) (final run s') = Ok (j_sol j) /\
  stored s d [(name, sser (j_sol j))] (final run s').
Proof. exact @c94_solution. Qed.
Print Assumptions C94_solution.

(** overwrite=False: stopped just after the directory was made, no repetition succeeds *)
Theorem C94_no_overwrite_refuted : forall (B A : Type) (mser : pmeta B -> string) (mparse : string -> res (pmeta B)) (zser : list (string * A) -> string)
  (zparse : string -> res (list (string * A))) inter who who' now s d m (data : list (Z * A)),
  writable s d ["data.npz"; "metadata.json"]%string -> kind_at s d = None ->
  exists s', In s' (crash_states (write_levels mser zser inter who now false d m data) s) /\ (forall r, read_levels mparse zparse who' d s' <> Ok r) /\
    forall s'', attempts (fun p => exists who0 now0 m0 data0, p = write_levels mser zser inter who0 now0 false d m0 data0) s' s'' ->
      s'' = s' /\ forall who0 now0 m0 data0, result (write_levels mser zser inter who0 now0 false d m0 data0) s'' = Err WriteError.
Proof. exact @c94_stuck. Qed.
Print Assumptions C94_no_overwrite_refuted.

(** two attempts stopped half way (the first while writing the arrays, the second the metadata), then a third *)
Import Props.Persist.
Definition crash1 : node := nth 4 (crash_states (write_levels tMser tZser tInter "w" "now" true D0 (mkPMeta "other"%string [] None) [(5%Z, "q"%string)]) R0) R0.
Definition crash2 : node := nth 6 (crash_states (write_levels tMser tZser tInter "w" "now" true D0 md lv) crash1) R0.
Example C94_ex : attempts (fun p => exists who0 now0 ov0 m0 data0, p = write_levels tMser tZser tInter who0 now0 ov0 D0 m0 data0) R0 crash2 /\
  writable R0 D0 ["data.npz"; "metadata.json"]%string /\ levels_distinct lv /\
  crash2 <> R0 /\ is_ok (read_levels tMparse tZparse "r" D0 crash2) = false /\
  is_ok (result (write_levels tMser tZser tInter "w" "now" false D0 md lv) crash2) = false /\
  read_levels tMparse tZparse "r" D0 (final (write_levels tMser tZser tInter "w" "now" true D0 md lv) crash2) = Ok (mkPMeta "new" ["w"; "r"] (Some "now"), lv)%string.
Proof.
  split; [|split; [exact (proj1 C65_ex)|split; [exact (proj1 (proj2 C65_ex))|]]].
  - apply one_more with (p := write_levels tMser tZser tInter "w" "now" true D0 md lv) (s1 := crash1).
    + apply one_more with (p := write_levels tMser tZser tInter "w" "now" true D0 (mkPMeta "other"%string [] None) [(5%Z, "q"%string)]) (s1 := R0).
      * apply no_attempt.
      * repeat eexists.
      * apply nth_In. vm_compute. repeat constructor.
    + repeat eexists.
    + apply nth_In. vm_compute. repeat constructor.
  - split; [vm_compute; discriminate|]. split; [vm_compute; reflexivity|]. split; vm_compute; reflexivity.
Qed.
Definition crash3 : node := nth 3 (crash_states (write_numpy tTser tNser tInter true D0 tTd) R0) R0.
Example C94_ex_time : attempts (fun p => exists ov0 td0, p = write_numpy tTser tNser tInter ov0 D0 td0) R0 crash3 /\ crash3 <> R0 /\
  is_ok (read_numpy b64 (tTparse (as_written numpy_name (meta tTd))) (tNparse (dtype tTd, rows tTd)) None None None None D0 crash3) = false /\
  is_ok (read_numpy b64 (tTparse (as_written numpy_name (meta tTd))) (tNparse (dtype tTd, rows tTd)) None None None None D0 (final (write_numpy tTser tNser tInter true D0 tTd) crash3)) = true.
Proof.
  split; [|split; [vm_compute; discriminate|split; vm_compute; reflexivity]].
  apply one_more with (p := write_numpy tTser tNser tInter true D0 tTd) (s1 := R0); [apply no_attempt|repeat eexists|]. apply nth_In. vm_compute. repeat constructor.
Qed.
Import Props.Project.
Definition exRun := process_evals_to_tf exInter exSer (fun _ => "Tipper"%string) (fun _ => "default"%string) (fun _ => Ok "xyz"%string) P0 "conf" 128 "S1" None.
Definition started : node := final (new exSer exInter P0 "m"%string) exRoot.
Definition crash4 : node := nth 4 (crash_states exRun started) started.
Lemma startedWritable : writable started (get_results_path P0 "S1" "conf") [get_solution_name 128 "Tipper" "default" None].
Proof.
  split; [vm_compute; discriminate|]. split; [vm_compute; reflexivity|]. split.
  - intros q r c E. change (get_results_path P0 "S1" "conf") with (P0 ++ ["results"; "S1"; "conf"]%string) in E.
    destruct q as [|a [|b [|e [|f [|g q]]]]]; cbn in E.
    + vm_compute. discriminate.
    + injection E as <- _. vm_compute. discriminate.
    + injection E as <- <- _. vm_compute. discriminate.
    + injection E as <- <- <- _. vm_compute. discriminate.
    + injection E as <- <- <- <- _. vm_compute. discriminate.
    + injection E as <- <- <- <- <- E. destruct q; [|discriminate]. vm_compute. discriminate.
  - intros f [<-|[]]. vm_compute. discriminate.
Qed.
Example C94_ex_solution : length (crash_states exRun started) = 7%nat /\ crash4 <> started /\ crash4 <> final exRun started /\
  map (fun s => get_solution_file (fun t => if String.eqb t "{xyz}" then Ok t else Err ValueError) P0 "S1" "conf" 128 "Tipper" "default" None s) [started; crash4; final exRun crash4] =
  [Err FileNotFoundError; Err ValueError; Ok "{xyz}"%string].
Proof. split; [vm_compute; reflexivity|]. split; [vm_compute; discriminate|]. split; [vm_compute; discriminate|]. vm_compute. reflexivity. Qed.
