(** C75, C76: several processes working on one project at the same time. *)
From Coq Require Import String Ascii.
From Verif Require Import Spec.Project.
From Verif Require Import Base.Prelude Base.FileSys Model.Project Model.Persist Model.Parallel Spec.Persist Spec.Parallel.
From Verif Require Import Proofs.FileSys Proofs.PersistFs Proofs.ProjectNames Proofs.Parallel Proofs.ParallelJobs.
Open Scope list_scope.

(** ** C75: measurements processed at the same time *)
Theorem C75_parallel_writers : forall (B A : Type) (mser : pmeta B -> string) (zser : list (string * A) -> string) inter
  (jobs : list (wjob B A)) s sched pool s',
  apart (map w_dir jobs) ->
  (forall b, In b jobs -> levels_distinct (w_data b) /\ writable s (w_dir b) ["data.npz"; "metadata.json"]%string /\ (w_ov b = true \/ kind_at s (w_dir b) = None)) ->
  run_schedule sched (map (fun b => par_write_levels mser zser inter (w_who b) (w_now b) (w_ov b) (w_dir b) (w_meta b) (w_data b)) jobs) s = (pool, s') ->
  (forall i b r, nth_error jobs i = Some b -> ended pool i r -> r = Ok tt /\
     holds s' (w_dir b) [("data.npz"%string, zser (archive (w_data b))); ("metadata.json"%string, mser (written (w_who b) (w_now b) (w_meta b)))]) /\
  (forall q, elsewhere (map w_dir jobs) ["data.npz"; "metadata.json"]%string q -> kind_at s' q = kind_at s q) /\
  (all_ended pool -> forall q, kind_at s' q =
     kind_at (fold_left (fun s b => final (write_levels mser zser inter (w_who b) (w_now b) (w_ov b) (w_dir b) (w_meta b) (w_data b)) s) jobs s) q).
Proof. exact @levels_pool. Qed.
Print Assumptions C75_parallel_writers.
Theorem C75_can_finish : forall pool s, exists sched pool' s', run_schedule sched pool s = (pool', s') /\ all_ended pool'.
Proof. exact can_finish. Qed.
Print Assumptions C75_can_finish.
Theorem C75_readers : forall (B A : Type) (mser : pmeta B -> string) (zser : list (string * A) -> string) inter
  (mparse : string -> res (pmeta B)) (zparse : string -> res (list (string * A))) (jobs : list (wjob B A)) s sched pool s' who e,
  apart (map w_dir jobs) ->
  (forall b, In b jobs -> levels_distinct (w_data b) /\ writable s (w_dir b) ["data.npz"; "metadata.json"]%string /\ (w_ov b = true \/ kind_at s (w_dir b) = None)) ->
  run_schedule sched (map (fun b => par_write_levels mser zser inter (w_who b) (w_now b) (w_ov b) (w_dir b) (w_meta b) (w_data b)) jobs) s = (pool, s') ->
  (forall b, In b jobs -> forall r, w_dir b <> e ++ r /\ e <> w_dir b ++ r) ->
  read_levels mparse zparse who e s' = read_levels mparse zparse who e s.
Proof. exact @levels_readers. Qed.
Print Assumptions C75_readers.
Theorem C75_measurements_apart : forall p (ms : list (string * (string * string))),
  (forall site meas config, In (site, (meas, config)) ms -> component site /\ component meas /\ component config) -> NoDup ms ->
  apart (map (fun m => get_meas_evals_path p (fst m) (fst (snd m)) (snd (snd m))) ms).
Proof. exact evals_apart. Qed.
Print Assumptions C75_measurements_apart.

(** two measurements of a new configuration: both processes find that evals/site/config is missing, and both make it *)
Definition ex75 : list (wjob string string) := [
  mkWJob "w" "now" true (get_meas_evals_path ["proj"] "siteA" "meas1" "default") (mkPMeta "one" [] None) [(0%Z, "a")];
  mkWJob "w" "now" true (get_meas_evals_path ["proj"] "siteA" "meas2" "default") (mkPMeta "two" [] None) [(0%Z, "b"); (1%Z, "c")]]%string.
Definition t75 (m : pmeta string) : string := pm_body m.
Definition z75 (l : list (string * string)) : string := String.concat "," (map snd l).
Definition d75 : node := Dir [("proj"%string, Dir [("evals"%string, Dir [])])].
Definition p75 : list io := map (fun b => par_write_levels t75 z75 (fun _ => []) (w_who b) (w_now b) (w_ov b) (w_dir b) (w_meta b) (w_data b)) ex75.
Definition sched75 : list nat := flat_map (fun _ => [0; 1]%nat) (seq 0 20).
Example C75_ex : apart (map w_dir ex75) /\
  (forall b, In b ex75 -> levels_distinct (w_data b) /\ writable d75 (w_dir b) ["data.npz"; "metadata.json"]%string /\ (w_ov b = true \/ kind_at d75 (w_dir b) = None)) /\
  let (pool, s') := run_schedule sched75 p75 d75 in
  pool = [Ret (Ok tt); Ret (Ok tt)] /\
  kind_at s' ["proj"; "evals"; "siteA"; "default"; "meas2"; "data.npz"]%string = Some (KFile "b,c") /\
  kind_at s' ["proj"; "evals"; "siteA"; "default"; "meas1"; "metadata.json"]%string = Some (KFile "one").
Proof.
  split; [|split].
  - apply (evals_apart ["proj"]%string [("siteA", ("meas1", "default")); ("siteA", ("meas2", "default"))]%string).
    + intros site meas config [H|[H|[]]]; injection H as <- <- <-; unfold component; repeat split; vm_compute; intuition discriminate.
    + repeat constructor; cbn; intuition discriminate.
  - intros b Hb. assert (Hd : exists m, w_dir b = ["proj"; "evals"; "siteA"; "default"; m]%string).
    { destruct Hb as [<-|[<-|[]]]; eexists; vm_compute; reflexivity. }
    destruct Hd as [m Hd]. split; [|split].
    + destruct Hb as [<-|[<-|[]]]; repeat constructor; cbn; intuition discriminate.
    + rewrite Hd. split; [discriminate|]. split; [reflexivity|]. split.
      * intros q r c E K. do 6 (destruct q as [|? q]; [cbn in K; discriminate|cbn in E; inversion E; subst; clear E; rename H1 into E]).
      * intros f _. vm_compute. discriminate.
    + left. destruct Hb as [<-|[<-|[]]]; reflexivity.
  - vm_compute. repeat split.
Qed.

(** ** C76: solutions of one site saved at the same time *)
Theorem C76_existing_directory_partial : forall d (jobs : list sjob) s sched pool s', kind_at s d = Some KDir -> NoDup (map s_name jobs) ->
  (forall b, In b jobs -> s_dir b = d /\ kind_at s (d ++ [s_name b]) <> Some KDir) ->
  run_schedule sched (map (fun b => par_save_solution (s_dir b) (s_name b) (s_inter b) (s_text b)) jobs) s = (pool, s') ->
  (forall i b r, nth_error jobs i = Some b -> ended pool i r -> r = Ok tt /\ kind_at s' (d ++ [s_name b]) = Some (KFile (s_text b))) /\
  (forall q, (forall b, In b jobs -> q <> d ++ [s_name b]) -> kind_at s' q = kind_at s q).
Proof. exact solutions_same. Qed.
Print Assumptions C76_existing_directory_partial.
Theorem C76_different_sites : forall (jobs : list sjob) s sched pool s', apart (map s_dir jobs) -> (forall b, In b jobs -> writable s (s_dir b) [s_name b]) ->
  run_schedule sched (map (fun b => par_save_solution (s_dir b) (s_name b) (s_inter b) (s_text b)) jobs) s = (pool, s') ->
  (forall i b r, nth_error jobs i = Some b -> ended pool i r -> r = Ok tt /\ kind_at s' (s_dir b ++ [s_name b]) = Some (KFile (s_text b))).
Proof. exact solutions_apart. Qed.
Print Assumptions C76_different_sites.
(** letsgo.py 802-803: exists() and mkdir() are two actions, and mkdir() is called without
    exist_ok: whenever the directory of the results is new, one of two may fail *)
Theorem C76_new_directory_refuted : forall s d n1 i1 c1 n2 i2 c2, d <> [] -> kind_at s d = None -> kind_at s (removelast d) = Some KDir -> n1 <> n2 ->
  exists sched pool s', run_schedule sched [par_save_solution d n1 i1 c1; par_save_solution d n2 i2 c2] s = (pool, s') /\
    all_ended pool /\ ended pool 0 (Ok tt) /\ ended pool 1 (Err OSError) /\
    kind_at s' (d ++ [n1]) = Some (KFile c1) /\ kind_at s' (d ++ [n2]) = None.
Proof. exact solutions_clash. Qed.
Print Assumptions C76_new_directory_refuted.

Definition d76 : path := ["proj"; "results"; "siteA"; "default"]%string.
Definition j76 : list sjob := [mkSJob d76 "128_000000_impedancetensor.json" ["{"] "{1}"; mkSJob d76 "512_000000_impedancetensor.json" ["{"] "{2}"]%string.
Definition s76 (default : list (string * node)) : node := Dir [("proj"%string, Dir [("results"%string, Dir [("siteA"%string, Dir default)])])].
Example C76_existing_ex : kind_at (s76 [("default"%string, Dir [])]) d76 = Some KDir /\ NoDup (map s_name j76) /\
  (forall b, In b j76 -> s_dir b = d76 /\ kind_at (s76 [("default"%string, Dir [])]) (d76 ++ [s_name b]) <> Some KDir) /\
  fst (run_schedule sched75 (map (fun b => par_save_solution (s_dir b) (s_name b) (s_inter b) (s_text b)) j76) (s76 [("default"%string, Dir [])])) = [Ret (Ok tt); Ret (Ok tt)].
Proof.
  split; [reflexivity|]. split; [repeat constructor; cbn; intuition discriminate|]. split; [|vm_compute; reflexivity].
  intros b [<-|[<-|[]]]; split; try reflexivity; vm_compute; discriminate.
Qed.
Example C76_new_ex : d76 <> [] /\ kind_at (s76 []) d76 = None /\ kind_at (s76 []) (removelast d76) = Some KDir /\
  fst (run_schedule sched75 (map (fun b => par_save_solution (s_dir b) (s_name b) (s_inter b) (s_text b)) j76) (s76 [])) = [Ret (Ok tt); Ret (Err OSError)].
Proof. repeat split; try reflexivity; try discriminate; vm_compute; reflexivity. Qed.
(** two runs for one measurement: both end without an error, with the data of one and the
    metadata of the other *)
Theorem C76_same_measurement_refuted : exists sched pool s',
  run_schedule sched [par_write_levels t75 z75 (fun _ => []) "w" "now" true ["m"] (mkPMeta "one" [] None) [(0%Z, "a")];
                      par_write_levels t75 z75 (fun _ => []) "w" "now" true ["m"] (mkPMeta "two" [] None) [(0%Z, "b")]]%string (Dir [("m"%string, Dir [])]) = (pool, s') /\
  ended pool 0 (Ok tt) /\ ended pool 1 (Ok tt) /\
  kind_at s' ["m"; "data.npz"]%string = Some (KFile "b") /\ kind_at s' ["m"; "metadata.json"]%string = Some (KFile "one").
Proof.
  exists (repeat 0%nat 5 ++ repeat 1%nat 20 ++ repeat 0%nat 20). eexists. eexists. split; [vm_compute; reflexivity|].
  repeat split.
Qed.
Print Assumptions C76_same_measurement_refuted.
