(** C96: processing does not change the project.

    The file formats are parameters, as in C55, C64 and C75. Readers of measurements look only at the
    measurement directory they are given. A process that dies is one the schedule no longer names. *)
From Coq Require Import String Ascii.
From Verif Require Import Spec.Project.
From Verif Require Import Base.Prelude Base.FileSys Model.Project Model.Letsgo Model.Persist Model.Parallel Spec.Persist Spec.Parallel Spec.Unaffected.
From Verif Require Import Proofs.FileSys Proofs.ProjectNames Proofs.Unaffected.
From Verif Require Props.Project Props.Parallel.
Open Scope list_scope.

Theorem C96_load : forall (M D B A : Type) (pparse : string -> res M) now (readers : list (reader D)) (mser : pmeta B -> string)
  (zser : list (string * A) -> string) inter p s (wjobs : list (wjob B A)) (sjobs : list sjob) sched pool s',
  kind_at s p = Some KDir -> (forall r, In r readers -> looks_inside r) ->
  (forall b, In b wjobs -> derived_data p (w_dir b)) -> (forall b, In b sjobs -> derived_data p (s_dir b)) ->
  run_schedule sched (map (fun b => par_write_levels mser zser inter (w_who b) (w_now b) (w_ov b) (w_dir b) (w_meta b) (w_data b)) wjobs ++
                      map (fun b => par_save_solution (s_dir b) (s_name b) (s_inter b) (s_text b)) sjobs) s = (pool, s') ->
  load pparse now readers p s' = load pparse now readers p s /\
  forall r site meas, In r readers -> rd_run r s' (p ++ ["time"%string; site; meas]) = rd_run r s (p ++ ["time"%string; site; meas]).
Proof. exact @c96. Qed.
Print Assumptions C96_load.

(** the directories the processing commands write to *)
Theorem C96_paths : forall p site meas config, component site -> component meas -> component config ->
  derived_data p (get_meas_spectra_path p site meas config) /\ derived_data p (get_meas_evals_path p site meas config) /\
  derived_data p (get_results_path p site config).
Proof. exact c96_paths. Qed.
Print Assumptions C96_paths.

(** the condition on the directories is needed: data written below time/ become a new site of the project *)
Definition w96 : wjob string string := (mkWJob "w" "now" true ["proj"; "time"; "S3"; "m1"] (mkPMeta "one" [] None) [(0%Z, "a")])%string.
Theorem C96_time_refuted : exists s p (b : wjob string string) sched pool s',
  kind_at s p = Some KDir /\ (forall r, In r Props.Project.exReaders -> looks_inside r) /\ w_dir b = p ++ ["time"; "S3"; "m1"]%string /\
  run_schedule sched [par_write_levels Props.Parallel.t75 Props.Parallel.z75 (fun _ => []) (w_who b) (w_now b) (w_ov b) (w_dir b) (w_meta b) (w_data b)] s = (pool, s') /\
  exists pr pr', load Props.Project.exParse Props.Project.exNow Props.Project.exReaders p s = Ok pr /\
    load Props.Project.exParse Props.Project.exNow Props.Project.exReaders p s' = Ok pr' /\
    map fst (pr_sites pr) <> map fst (pr_sites pr').
Proof.
  assert (L : forall r, In r Props.Project.exReaders -> looks_inside r).
  { intros r [<-|[<-|[]]] s s' d E; unfold Props.Project.exReader, is_file_; cbn [rd_md rd_run]; rewrite !look_app, E; split; reflexivity. }
  exists Props.Project.exTree, ["proj"%string], w96, (repeat 0%nat 20). eexists. eexists.
  split; [vm_compute; reflexivity|]. split; [exact L|]. split; [reflexivity|]. split; [vm_compute; reflexivity|].
  eexists. eexists. split; [vm_compute; reflexivity|]. split; [vm_compute; reflexivity|]. intros H. vm_compute in H. discriminate H.
Qed.
Print Assumptions C96_time_refuted.

(** half-way through two evaluations and a solution *)
Definition s96 : list sjob := [mkSJob (get_results_path ["proj"] "siteA" "default") "128_000000_impedancetensor.json" ["{"] "{1}"]%string.
Example C96_ex : kind_at Props.Project.exTree ["proj"%string] = Some KDir /\
  (forall r, In r Props.Project.exReaders -> looks_inside r) /\
  (forall b, In b Props.Parallel.ex75 -> derived_data ["proj"%string] (w_dir b)) /\ (forall b, In b s96 -> derived_data ["proj"%string] (s_dir b)) /\
  let (pool, s') := run_schedule [0; 1; 0; 2; 2; 1; 0; 1; 2; 0; 0; 2; 2; 0; 0; 0; 1; 1; 0; 2; 0; 2; 2; 2]%nat (Props.Parallel.p75 ++ map (fun b => par_save_solution (s_dir b) (s_name b) (s_inter b) (s_text b)) s96) Props.Project.exTree in
  kind_at s' ["proj"; "evals"]%string = Some KDir /\
  (exists pr, load Props.Project.exParse Props.Project.exNow Props.Project.exReaders ["proj"%string] s' = Ok pr /\ map fst (pr_sites pr) = ["S1"; ".cache"; "S2"]%string) /\
  quick_read s' Props.Project.exReaders ["proj"; "time"; "S1"; "m2"]%string = Ok "B"%string.
Proof.
  split; [vm_compute; reflexivity|]. split.
  { intros r [<-|[<-|[]]] s s' d E; unfold Props.Project.exReader, is_file_; cbn [rd_md rd_run]; rewrite !look_app, E; split; reflexivity. }
  assert (C : forall n, In n ["siteA"; "meas1"; "meas2"; "default"]%string -> component n).
  { intros n [<-|[<-|[<-|[<-|[]]]]]; unfold component; repeat split; vm_compute; intuition discriminate. }
  split; [|split].
  - intros b [<-|[<-|[]]]; (refine (proj1 (proj2 (c96_paths _ _ _ _ (C _ _) (C _ _) (C _ _)))); cbn; tauto).
  - intros b [<-|[]]. refine (proj2 (proj2 (c96_paths _ "siteA" "meas1" "default" (C _ _) (C _ _) (C _ _)))); cbn; tauto.
  - vm_compute. split; [reflexivity|]. split; [eexists; split; reflexivity|reflexivity].
Qed.
