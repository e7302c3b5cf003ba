(** Properties C67-C70: processing runs. *)
From Coq Require Import String.
From Verif Require Import Base.Prelude Base.Rounding Base.ListUtil Base.NdArray Base.Cplx
  Model.Sampling Model.Time Model.Decimate Model.Window Model.Spectra Model.Calibrate Model.Gather Model.Regression Model.Pipeline
  Spec.Sampling Spec.Time Spec.Decimate Spec.Calibrate Spec.Gather Spec.Pipeline
  Proofs.PipelineFinal Proofs.PipelineUse Proofs.PipelineSizes Proofs.PipelineFreqs Proofs.Toy Proofs.ToyDec Proofs.EvalFreqs.
Open Scope list_scope. Open Scope Q_scope.

(** ** A small library, configuration and recording for the examples *)
Definition toyL : library := mkLib b64 b64 toy pw64 64 (fun x => qfloor (x * 1000000000)) (fun x => qfloor (x * 1000000000)) (fun n => n)
  (fun w n x => Ok (map (fun k => mkC (match nth (Z.to_nat k) x None with Some q => q | None => 0 end) (inject_Z k)) (arange (n / 2 + 1))))
  (fun _ x => x) (fun _ x => x) (fun q => mkC q 1) ctimes ctimes
  (fun _ r c => repeat (repeat (mkC 0 0) c) r) (fun n => repeat 0 n) (fun r c => repeat (repeat 0 c) r)
  (fun preds obs => Ok (map (fun k => Qred (fold_left Qplus (map (fun row => nth k row 0) preds) 0 + fold_left Qplus obs 0)) (seq 0 2))).
Definition toyC (ps : list proc) (target : option win_target) : config :=
  mkConfig "toy" ps (mkDecSetup 3 2 8 2 None) false 13 (mkWinSetup 8 2 4 (1#4) 2 None None) target [] None
    (mkTf ["Ex"%string] ["Hy"%string] ["Hy"%string]).
Definition toyTd (first : Q) (n : Z) : tdata :=
  mkData (mkMeta 8 ["Ex"; "Hy"]%string 2 n first (first + inject_Z (n - 1) * (1#8)) "" [] []) "float64"
    [map (fun k => Some (inject_Z (k * k))) (arange n); map (fun k => Some (inject_Z (k mod 5))) (arange n)].
Definition toyProj : raw_project := [("A"%string, [("m"%string, (8, Ok (toyTd 100 40)))])].
Definition toyProj2 : raw_project :=
  [("A"%string, [("m"%string, (8, Ok (toyTd 100 40)))]); ("B"%string, [("n"%string, (8, Ok (toyTd 100 64))); ("o"%string, (4, Err ReadError))])].
(** no calibration data *)
Definition toyCal : list (chan -> res cal_data) := [].

(** ** C67 *)
Theorem C67_project_equals_quick : forall L c cal quick_cal proj site meas td s s' r,
  find (fun x : string * raw_site => String.eqb (fst x) site) proj = Some (site, [(meas, (fs (meta td), Ok td))]) ->
  processable L c td -> keeps_fs L c td -> same_calibration quick_cal cal -> junk_rows L ->
  process_time_to_evals L c cal (first_time (meta td)) proj site meas s = (s', r) ->
  match r with
  | Err e => quick_tf L c quick_cal meas td = Err e
  | Ok _ => process_evals_to_tf L c proj s' (fs (meta td)) site None None = quick_tf L c quick_cal meas td
  end.
Proof. exact c67. Qed.
Print Assumptions C67_project_equals_quick.
Theorem C67_processable : forall L c td D, good_rnd (l_rnd L) -> good_oracles (l_orc L) -> good_pow2half (l_pw L) ->
  (D <= 2 ^ 49)%Z -> (forall x, best_approx D x (o_limit_denominator (l_orc L) x)) -> (3 <= cf_max_single c)%Z ->
  usable (l_rnd L) td -> Forall valid_proc (cf_time c) ->
  (forall qs rest mid, cf_time c = qs ++ rest -> run_all (l_rnd L) (l_drnd L) (l_orc L) qs td = Ok mid -> (n_samples (meta mid) < 2 ^ 49)%Z) ->
  ds_eval_freqs (cf_dec c) = None -> (1 <= ds_div_factor (cf_dec c))%Z -> (1 <= ds_per_level (cf_dec c))%Z ->
  cf_target c = None -> ws_win_sizes (cf_win c) = None -> (2 <= ws_min_size (cf_win c))%Z -> (1 <= ws_min_n_wins (cf_win c))%Z ->
  (2 <= length (chans (meta td)))%nat -> has_channels (cf_tf c) (chans (meta td)) ->
  (forall td' p dd wp, run_all (l_rnd L) (l_drnd L) (l_orc L) (cf_time c) td = Ok td' ->
    dec_params_of L c (fs (meta td')) = Ok p -> run_decimation L c p td' = Ok dd ->
    win_setup_run (l_rnd L) (cf_win c) (dd_n_levels dd) (dd_fs dd) = Ok wp ->
    Forall (fun f => (f <= 2 ^ 53)%Z) (dp_factors p) /\ Forall (fun f => cf_resample c = true -> (f <= D)%Z) (dp_increments p) /\
    forall i m w, nth_error (dd_levels_md dd) i = Some m -> nth_error (wp_win_sizes wp) i = Some w -> w <> lm_n_samples m) ->
  processable L c td.
Proof. exact processable_ok. Qed.
Print Assumptions C67_processable.
Theorem C67_keeps_fs : forall L c td, forallb (fun p => negb (changes_fs p)) (cf_time c) = true -> keeps_fs L c td.
Proof. exact keeps_fs_ok. Qed.
Print Assumptions C67_keeps_fs.
Example C67_ex : processable toyL (toyC [PRemoveMean] None) (toyTd 100 40) /\ keeps_fs toyL (toyC [PRemoveMean] None) (toyTd 100 40) /\
  same_calibration None toyCal /\ junk_rows toyL /\
  exists s' sol, process_time_to_evals toyL (toyC [PRemoveMean] None) toyCal 100 toyProj "A" "m" [] = (s', Ok tt) /\
    process_evals_to_tf toyL (toyC [PRemoveMean] None) toyProj s' 8 "A" None None = Ok sol /\
    quick_tf toyL (toyC [PRemoveMean] None) None "m" (toyTd 100 40) = Ok sol /\ length (so_freqs sol) = 4%nat.
Proof.
  split; [|split; [|split; [|split]]].
  - split; [reflexivity|]. split; [cbn; lia|]. split; [cbn; lia|]. intros td' p dd wp H1 H2 H3 H4.
    vm_compute in H1. injection H1 as <-. vm_compute in H2. injection H2 as <-. vm_compute in H3. injection H3 as <-. vm_compute in H4. injection H4 as <-.
    split; [cbn; lia|]. split; [repeat split; try discriminate; intros x [<-|[]]; cbn; auto|]. split.
    + intros [|[|[|i]]] m Hm; cbn in Hm; try discriminate; try (destruct i; discriminate); injection Hm as <-; eexists; (split; [vm_compute; reflexivity|]); (split; [reflexivity|]); intros r [<-|[<-|[]]]; reflexivity.
    + intros [|[|[|i]]] m w Hm Hw; cbn in Hm, Hw; try discriminate; try (destruct i; discriminate); injection Hm as <-; injection Hw as <-; cbn; lia.
  - apply keeps_fs_ok. reflexivity.
  - right. split; [reflexivity|]. intros c r [].
  - intros k r c. apply repeat_length.
  - eexists _, _. repeat match goal with |- _ /\ _ => apply conj end; vm_compute; reflexivity.
Qed.

(** with oracles meeting the contracts *)
Definition toyDL : library := mkLib b64 b64 toyD pw64 64 (l_ns_time toyL) (l_ns_delta toyL) (l_next_fast_len toyL) (l_transform toyL)
  (l_uniform toyL) (l_gaussian toyL) (l_cis toyL) (l_cdiv toyL) (l_cmul toyL) (l_junk toyL) (l_junk1 toyL) (l_junk2 toyL) (l_fit toyL).
Example C67_processable_ex : processable toyDL (toyC [PRemoveMean; PSubsection 100 104] None) (toyTd 100 40) /\
  exists sol, quick_tf toyDL (toyC [PRemoveMean; PSubsection 100 104] None) None "m" (toyTd 100 40) = Ok sol.
Proof.
  split; [|eexists; vm_compute; reflexivity].
  set (c := toyC [PRemoveMean; PSubsection 100 104] None). set (td := toyTd 100 40).
  assert (U : usable b64 td).
  { split; [|split; [reflexivity|vm_compute; discriminate]].
    split; [discriminate|]. split; [reflexivity|]. split; [reflexivity|]. split; [intros r [<-|[<-|[]]]; reflexivity|vm_compute; reflexivity]. }
  assert (NS : forall qs rest mid, cf_time c = qs ++ rest -> run_all b64 b64 toyD qs td = Ok mid -> (n_samples (meta mid) < 2 ^ 49)%Z).
  { intros qs rest mid E H. unfold c in E. cbn [cf_time toyC] in E.
    destruct qs as [|q1 [|q2 [|q3 qs]]]; cbn [app] in E.
    - vm_compute in H. injection H as <-. vm_compute. reflexivity.
    - injection E as <- _. vm_compute in H. injection H as <-. vm_compute. reflexivity.
    - injection E as <- <- _. vm_compute in H. injection H as <-. vm_compute. reflexivity.
    - discriminate E. }
  refine (C67_processable toyDL c td 40 b64_good (proj1 toyD_good) pw64_good _ (proj2 toyD_good) _ U _ NS eq_refl _ _ eq_refl eq_refl _ _ _ _ _).
  - discriminate.
  - discriminate.
  - unfold c. cbn [cf_time toyC]. repeat constructor.
  - discriminate.
  - discriminate.
  - discriminate.
  - discriminate.
  - apply le_n.
  - unfold c. cbn [cf_tf toyC]. repeat split; try discriminate; intros x [<-|[]]; cbn; auto.
  - intros td' p dd wp H1 H2 H3 H4. vm_compute in H1. injection H1 as <-. vm_compute in H2. injection H2 as <-. vm_compute in H3. injection H3 as <-. vm_compute in H4. injection H4 as <-.
    split; [repeat constructor; vm_compute; discriminate|]. split; [apply Forall_forall; intros f _ E; discriminate E|].
    intros [|[|[|i]]] m w Hm Hw; cbn in Hm, Hw; try discriminate; try (destruct i; discriminate); injection Hm as <-; injection Hw as <-; vm_compute; discriminate.
Qed.

(** ** C68 *)
Theorem C68_session_order_irrelevant : forall L proj cmds cmds' s, (forall x, In x cmds <-> In x cmds') ->
  (forall x y, In x cmds -> In y cmds -> cmd_key x = cmd_key y -> cm_config x = cm_config y /\ cm_cal x = cm_cal y /\ cm_ref x = cm_ref y) ->
  (forall k, store_get k (run_session L proj cmds s) = store_get k (run_session L proj cmds' s)) /\
  forall c fs out_site in_site cross_site,
    process_evals_to_tf L c proj (run_session L proj cmds s) fs out_site in_site cross_site =
    process_evals_to_tf L c proj (run_session L proj cmds' s) fs out_site in_site cross_site.
Proof. exact c68. Qed.
Print Assumptions C68_session_order_irrelevant.
(** in any session every command succeeds or fails, and leaves under its measurement and configuration what it would
    have left alone; a failing command changes nothing, and evaluation data of no command are untouched *)
Theorem C68_each_as_if_alone : forall L proj cmds s,
  (forall x y, In x cmds -> In y cmds -> cmd_key x = cmd_key y -> cm_config x = cm_config y /\ cm_cal x = cm_cal y /\ cm_ref x = cm_ref y) ->
  (forall x, In x cmds -> store_get (cmd_key x) (run_session L proj cmds s) = store_get (cmd_key x) (fst (run_cmd L proj x s))) /\
  (forall k, (forall x, In x cmds -> cmd_key x <> k) -> store_get k (run_session L proj cmds s) = store_get k s) /\
  (forall x s' s'', snd (run_cmd L proj x s') = snd (run_cmd L proj x s'')) /\
  (forall x s' e, snd (run_cmd L proj x s') = Err e -> fst (run_cmd L proj x s') = s').
Proof. exact c68_alone. Qed.
Print Assumptions C68_each_as_if_alone.
Example C68_ex : let a := mkCmd (toyC [] None) toyCal 100 "A" "m" in let b := mkCmd (toyC [] None) toyCal 100 "B" "n" in
  let bad := mkCmd (toyC [] None) toyCal 100 "B" "o" in
  (forall x, In x [a; b; a; bad] <-> In x [bad; b; a]) /\
  exists sol, process_evals_to_tf toyL (toyC [] None) toyProj2 (run_session toyL toyProj2 [a; b; a; bad] []) 8 "A" None (Some "B"%string) = Ok sol.
Proof. split; [intros x; cbn [In]; tauto|]. eexists. vm_compute. reflexivity. Qed.

(** ** C69 *)
(** the labels are the evaluation frequencies for the requested sampling frequency *)
Theorem C69_solution_labels : forall L c proj s fs out_site in_site cross_site sol,
  process_evals_to_tf L c proj s fs out_site in_site cross_site = Ok sol ->
  exists p n ls, dec_params_of L c fs = Ok p /\ mapM (level_eval_freqs p) (arange n) = Ok ls /\ so_freqs sol = concat ls.
Proof. exact c69_labels. Qed.
Print Assumptions C69_solution_labels.
(** those are the frequencies of the evaluation data when the time processors keep the sampling frequency *)
Theorem C69_labels_are_evaluated_partial : forall L c cal ref proj site meas fs0 td ed p i m, keeps_fs L c td ->
  find_meas proj site meas = Ok (fs0, Ok td) -> dec_params_of L c (fs (meta td)) = Ok p ->
  evals_of L c cal ref proj site meas = Ok ed -> nth_error (sm_levels (sd_md ed)) i = Some m ->
  level_eval_freqs p (Z.of_nat i) = Ok (sl_freqs m).
Proof. exact c69_evaluated. Qed.
Print Assumptions C69_labels_are_evaluated_partial.
(** with a Decimate process (factor 2) data evaluated at 1 Hz, 1/2 Hz .. are labelled 2 Hz, 1 Hz ..; asking for the
    sampling frequency the data have after the processors finds no measurement *)
Theorem C69_resampled_refuted : let c := toyC [PDecimate 2 3] None in
  let s := run_session toyL toyProj2 [mkCmd c toyCal 100 "B" "n"] [] in
  exists sol quick ed, process_evals_to_tf toyL c toyProj2 s 8 "B" None None = Ok sol /\
    evals_of toyL c toyCal 100 toyProj2 "B" "n" = Ok ed /\ quick_tf toyL c None "n" (toyTd 100 64) = Ok quick /\
    map (fun m => hd 0 (sl_freqs m)) (sm_levels (sd_md ed)) = [1; 1 # 2] /\
    nth 0 (so_freqs sol) 0 = 2 /\ nth 2 (so_freqs sol) 0 = 1 /\ nth 0 (so_freqs quick) 0 = 1 /\ nth 2 (so_freqs quick) 0 = 1 # 2 /\
    so_components sol = so_components quick /\
    process_evals_to_tf toyL c toyProj2 s 4 "B" None None = Err ValueError.
Proof. eexists _, _, _. repeat match goal with |- _ /\ _ => apply conj end; vm_compute; reflexivity. Qed.
Print Assumptions C69_resampled_refuted.
Example C69_ex : exists ed p m, keeps_fs toyL (toyC [PRemoveMean] None) (toyTd 100 40) /\ find_meas toyProj "A" "m" = Ok (8, Ok (toyTd 100 40)) /\
  dec_params_of toyL (toyC [PRemoveMean] None) 8 = Ok p /\ evals_of toyL (toyC [PRemoveMean] None) toyCal 100 toyProj "A" "m" = Ok ed /\
  nth_error (sm_levels (sd_md ed)) 1 = Some m /\ length (sl_freqs m) = 2%nat.
Proof. eexists _, _, _. split; [apply keeps_fs_ok; reflexivity|]. repeat match goal with |- _ /\ _ => apply conj end; vm_compute; reflexivity. Qed.

(** ** C70 *)
Theorem C70_same_windows_partial : forall L c ref ref2 td td2 p p2 ed ed2, cf_target c = None ->
  to_evals L c ref td = Ok (p, ed) -> to_evals L c ref2 td2 = Ok (p2, ed2) ->
  (forall td' td2', run_all (l_rnd L) (l_drnd L) (l_orc L) (cf_time c) td = Ok td' -> run_all (l_rnd L) (l_drnd L) (l_orc L) (cf_time c) td2 = Ok td2' -> fs (meta td') = fs (meta td2')) ->
  p = p2 /\ forall i m m2, nth_error (sm_levels (sd_md ed)) i = Some m -> nth_error (sm_levels (sd_md ed2)) i = Some m2 ->
    sl_fs m = sl_fs m2 /\ sl_win_size m = sl_win_size m2 /\ sl_olap_size m = sl_olap_size m2 /\ sl_freqs m = sl_freqs m2.
Proof. exact c70. Qed.
Print Assumptions C70_same_windows_partial.
Example C70_ex : exists p ed ed2 m m2, to_evals toyL (toyC [] None) 100 (toyTd 100 40) = Ok (p, ed) /\ to_evals toyL (toyC [] None) 100 (toyTd 102 64) = Ok (p, ed2) /\
  nth_error (sm_levels (sd_md ed)) 1 = Some m /\ nth_error (sm_levels (sd_md ed2)) 1 = Some m2 /\ sl_win_size m = 8%Z /\ sl_offset m = 0%Z /\ sl_offset m2 = 2%Z.
Proof. eexists _, _, _, _, _. repeat match goal with |- _ /\ _ => apply conj end; vm_compute; reflexivity. Qed.
(** WindowerTarget adapts the windows to the length of each recording: two sites starting together have windows
    1 starting 13 and 21 samples after the start, and the project run combines them *)
Theorem C70_target_windows_refuted : let c := toyC [] (Some (mkWinTarget 3 6 (1#4))) in
  let s := run_session toyL toyProj2 [mkCmd c toyCal 100 "A" "m"; mkCmd c toyCal 100 "B" "n"] [] in
  exists a b sel sol, evals_of toyL c toyCal 100 toyProj2 "A" "m" = Ok a /\ evals_of toyL c toyCal 100 toyProj2 "B" "n" = Ok b /\
    map (fun m => (sl_win_size m - sl_olap_size m, sl_offset m, sl_fs m)%Z) (firstn 1 (sm_levels (sd_md a))) = [(13, 0, 8%Q)]%Z /\
    map (fun m => (sl_win_size m - sl_olap_size m, sl_offset m, sl_fs m)%Z) (firstn 1 (sm_levels (sd_md b))) = [(21, 0, 8%Q)]%Z /\
    (p <- dec_params_of toyL c 8 ;; sel <- selector_run (view "toy" toyProj2 s) ["A"; "B"]%string p ;; sel_table sel 0) = Ok sel /\
    nth 1 sel (0%Z, []) = (1%Z, ["m"; "n"]%string) /\
    process_evals_to_tf toyL c toyProj2 s 8 "A" None (Some "B"%string) = Ok sol.
Proof. eexists _, _, _, _. repeat match goal with |- _ /\ _ => apply conj end; vm_compute; reflexivity. Qed.
Print Assumptions C70_target_windows_refuted.

(** ** C13, through a whole run *)
(** The history of the evaluation frequency data is that of the recording, one record for every time processor, for decimation,
    windowing and transform, for every spectra processor and for the evaluation frequencies, in the order they ran. *)
Theorem C13_run : forall L c ref td p ed, to_evals L c ref td = Ok (p, ed) -> sm_history (sd_md ed) = history (meta td) ++ run_records c.
Proof. exact run_history. Qed.
Print Assumptions C13_run.
(** ... and calibration adds one more *)
Theorem C13_calibrated : forall L c cal d d', run_calibration L c cal d = Ok d' -> sm_history (sd_md d') = sm_history (sd_md d) ++ [COther "SensorCalibrator"].
Proof. exact calibration_history. Qed.
Print Assumptions C13_calibrated.
Example C13_run_ex : exists p ed, to_evals toyL (toyC [PRemoveMean] (Some (mkWinTarget 4 4 (1#4)))) 100 (toyTd 100 40) = Ok (p, ed).
Proof. do 2 eexists. vm_compute. reflexivity. Qed.
