(** Property C93: tables and timelines. *)
From Coq Require Import String Sorted Permutation.
From Verif Require Import Base.Prelude Base.Rounding Base.ListUtil Base.FileSys Spec.Project Spec.Tables Model.Project Model.Letsgo Model.Sampling Model.Decimate Model.Gather Model.Tables
  Spec.Decimate Proofs.EvalFreqs Proofs.ProjectFinal Proofs.Tables Props.Project.
Open Scope list_scope. Open Scope Z_scope.

(** ** C93 *)
(** The table of a loaded project has one row for every directory time/site/name a reader can read, with the sampling frequency
    and times of the first such reader, and no other row. *)
Theorem C93_project_table : forall (M D : Type) now s (readers : list (reader D)) p (m : M) pr nt, project_of now s readers p m pr ->
  (forall row, In row (project_table nt pr) <->
     exists site name md, on_disk s readers p site name md /\ row = mkTRow name (mm_fs md) (nt (mm_first md)) (nt (mm_last md)) site) /\
  NoDup (map (fun r => (tr_site r, tr_name r)) (project_table nt pr)).
Proof. exact @project_rows. Qed.
Print Assumptions C93_project_table.
(** The timeline draws every row once, by panel and starting time, all of it inside the drawn range; the range starts at or before
    the reference time. *)
Theorem C93_timeline : forall rnd rows y ref, good_rnd rnd -> rows <> [] -> (forall r, In r rows -> tr_first r <= tr_last r) ->
  exists t, plot_timeline rnd rows y ref = Ok t /\ Permutation (tl_bars t) rows /\ StronglySorted (bar_before y) (tl_bars t) /\
    (forall r, In r (tl_bars t) -> visible t r) /\ tl_ref t = ref /\
    forall x, ref = Some x -> tl_from t <= x /\ ((exists r, In r rows /\ x <= tr_last r) -> x <= tl_to t).
Proof. exact timeline_spec. Qed.
Print Assumptions C93_timeline.
(** The timeline of a project has a panel per site and the project's reference time, the one of a site a panel per measurement. *)
Theorem C93_plots : forall rnd nt (M : Type) ref (p : pproject M) (s : psite), good_rnd rnd ->
  (project_table nt p <> [] -> (forall r, In r (project_table nt p) -> tr_first r <= tr_last r) ->
   exists t, project_plot rnd nt ref p = Ok t /\ Permutation (tl_bars t) (project_table nt p) /\ StronglySorted (bar_before tr_site) (tl_bars t) /\
     tl_ref t = Some (nt (ref (pr_md p))) /\ forall r, In r (tl_bars t) -> visible t r) /\
  (st_meas s <> [] -> (forall r, In r (site_table nt s) -> tr_first r <= tr_last r) ->
   exists t, site_plot rnd nt s = Ok t /\ Permutation (tl_bars t) (site_table nt s) /\ StronglySorted (bar_before tr_name) (tl_bars t) /\
     tl_ref t = None /\ forall r, In r (tl_bars t) -> visible t r).
Proof.
  intros rnd nt M ref p s G. split; intros N R.
  - destruct (C93_timeline rnd _ tr_site (Some (nt (ref (pr_md p)))) G N R) as (t & A & B & C & D & E & _). exists t. repeat (split; [assumption|]). assumption.
  - assert (N' : site_table nt s <> []) by (unfold site_table; intro C; apply map_eq_nil in C; contradiction).
    destruct (C93_timeline rnd _ tr_name None G N' R) as (t & A & B & C & D & E & _). exists t. repeat (split; [assumption|]). assumption.
Qed.
Print Assumptions C93_plots.
(** without measurements there is no timeline *)
Theorem C93_nothing_to_plot : forall rnd nt (s : psite) (M : Type) ref (p : pproject M),
  (site_plot rnd nt s = Err ValueError <-> st_meas s = []) /\ (project_plot rnd nt ref p = Err ValueError <-> forall name st, In (name, st) (pr_sites p) -> st_meas st = []).
Proof.
  intros rnd nt s M ref p. unfold site_plot, project_plot, plot_timeline. split.
  - unfold site_table. destruct (st_meas s); cbn [map]; split; intros H; try reflexivity; discriminate H.
  - split.
    + intros H name st I. destruct (st_meas st) as [|x t] eqn:E; [reflexivity|]. exfalso. destruct (project_table nt p) as [|r l] eqn:EP; [|discriminate H].
      assert (N : In (mkTRow (me_name (snd x)) (mm_fs (me_md (snd x))) (nt (mm_first (me_md (snd x)))) (nt (mm_last (me_md (snd x)))) (st_name st)) (project_table nt p)).
      { unfold project_table. apply in_flat_map. exists (name, st). split; [exact I|]. cbn [snd]. unfold site_table. rewrite E. left. reflexivity. }
      rewrite EP in N. exact N.
    + intros H. destruct (project_table nt p) as [|r l] eqn:EP; [reflexivity|]. exfalso.
      assert (N : In r (project_table nt p)) by (rewrite EP; left; reflexivity). unfold project_table in N. apply in_flat_map in N. destruct N as ((name & st) & I & N).
      cbn [snd] in N. unfold site_table in N. rewrite (H name st I) in N. exact N.
Qed.
Print Assumptions C93_nothing_to_plot.
(** A reference time that is later than the last measurement by more than the recorded span is not in the drawn range. *)
Theorem C93_late_reference_refuted : forall rnd rows y x, good_rnd rnd -> rows <> [] -> (forall r, In r rows -> tr_first r <= tr_last r) ->
  forall lo hi, (forall r, In r rows -> lo <= tr_first r /\ tr_last r <= hi) -> hi + (hi - lo) < x ->
  exists t, plot_timeline rnd rows y (Some x) = Ok t /\ tl_ref t = Some x /\ tl_to t < x.
Proof. exact late_reference. Qed.
Print Assumptions C93_late_reference_refuted.
(** The table of the decimation parameters: row l holds what the accessors say of level l. *)
Theorem C93_decimation_table : forall rnd pw fuel c fs p, 0 <= ds_n_levels c -> 0 <= ds_per_level c -> setup_run rnd pw fuel c fs = Ok p ->
  exists t, dec_table p = Ok t /\ Z.of_nat (length t) = dp_n_levels p /\
    forall l row, nth_error t l = Some row -> level_eval_freqs p (Z.of_nat l) = Ok (fst row) /\ get_fs p (Z.of_nat l) = Ok (fst (snd row)) /\
      get_total_factor p (Z.of_nat l) = Ok (fst (snd (snd row))) /\ get_incremental_factor p (Z.of_nat l) = Ok (snd (snd (snd row))) /\
      forall i f, (Z.of_nat i < dp_per_level p) -> (nth_error (fst row) i = Some f <-> level_eval_freq p (Z.of_nat l) (Z.of_nat i) = Ok f).
Proof. exact dec_table_spec. Qed.
Print Assumptions C93_decimation_table.
(** get_n_evals counts the evaluation frequencies get_n_wins answers for. *)
Theorem C93_n_evals : forall s : selection, 0 <= dp_per_level (sel_params s) -> exists pairs, NoDup pairs /\ Z.of_nat (length pairs) = get_n_evals s /\
  forall l e, In (l, e) pairs <-> exists n, get_n_wins s l e = Ok n.
Proof. exact n_evals_spec. Qed.
Print Assumptions C93_n_evals.

Example C93_ex : exists pr, load exParse exNow exReaders ["proj"%string] exTree = Ok pr /\ project_of exNow exTree exReaders ["proj"%string] "m"%string pr /\
  project_table (fun x => qfloor (x * 1000000000)) pr =
    [mkTRow "m1" 4 10000000000 20000000000 "S1"; mkTRow "m2" 16 15000000000 30000000000 "S1"; mkTRow "m1" 4 10000000000 20000000000 "S2"]%string /\
  exists t, project_plot b64 (fun x => qfloor (x * 1000000000)) (fun _ => 0%Q) pr = Ok t /\ tl_from t = -3000000000 /\ tl_to t = 33000000000 /\ length (tl_bars t) = 3%nat.
Proof.
  destruct (C64_load string string exParse exNow exReaders exTree ["proj"%string] "{m}" "m"%string) as (pr & L & P).
  - wf_tac.
  - reflexivity.
  - reflexivity.
  - reflexivity.
  - reflexivity.
  - exists pr. split; [exact L|]. split; [exact P|]. vm_compute in L. injection L as <-. split; [vm_compute; reflexivity|]. eexists. vm_compute. repeat split.
Qed.
Example C93_late_ex : exists t, plot_timeline b64 [mkTRow "m" 4 0 10 "S"; mkTRow "n" 4 5 20 "S"]%string tr_site (Some 41) = Ok t /\ tl_ref t = Some 41 /\ tl_to t < 41.
Proof.
  apply (C93_late_reference_refuted b64 _ tr_site 41 b64_good) with (lo := 0) (hi := 20); [discriminate| | |lia]; intros r [<-|[<-|[]]]; cbn; lia.
Qed.
Example C93_decimation_ex : exists p t, setup_run b64 pw64 100 (mkDecSetup 4 3 3 2 None) 8 = Ok p /\ dec_table p = Ok t /\ length t = 4%nat /\
  map (fun r => snd (snd r)) t = [(1, 1); (2, 2); (8, 4); (16, 2)].
Proof. do 2 eexists. split; [vm_compute; reflexivity|]. split; [vm_compute; reflexivity|]. split; vm_compute; reflexivity. Qed.
Example C93_n_evals_ex : exists p, setup_run b64 pw64 100 (mkDecSetup 4 3 3 2 None) 8 = Ok p /\ get_n_evals (mkSel ["A"%string] p [[(0, ["m"%string])]; []]) = 6 /\
  get_n_wins (mkSel ["A"%string] p [[(0, ["m"%string])]; []]) 0 2 = Ok 1.
Proof. eexists. split; [vm_compute; reflexivity|]. split; vm_compute; reflexivity. Qed.
