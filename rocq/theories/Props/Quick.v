(** Property C92: quick_spectra, quick_tf and quick_view on a directory. *)
From Coq Require Import String.
From Verif Require Import Base.Prelude Base.Rounding Base.B32 Base.ListUtil Base.NdArray Base.Cplx Base.FileSys Spec.Project Model.Project Model.Letsgo
  Model.Sampling Model.Time Model.Decimate Model.Window Model.Spectra Model.Calibrate Model.Gather Model.Regression Model.Pipeline Model.TimePlot Model.Quick
  Spec.Sampling Spec.Time Spec.Decimate Spec.Display Spec.TimePlot Spec.Quick
  Proofs.ProjectLoad Proofs.TimeMeta Proofs.Quick Proofs.ToyDec Proofs.EvalFreqs Props.Pipeline Props.Display Props.TimePlot.
Open Scope list_scope. Open Scope Q_scope.

(** ** C92 *)
(** The spectra of a directory: the recording is what the first reader that can read it gives; level by level, window k holds the
    transform of the [w] samples of the decimated data from sample k * (w - overlap) on, for as many whole windows as there are. *)
Theorem C92_spectra : forall L readers c s d sd D,
  good_rnd (l_rnd L) -> good_oracles (l_orc L) -> (D <= 2 ^ 49)%Z -> (forall x, best_approx D x (o_limit_denominator (l_orc L) x)) ->
  (3 <= cf_max_single c)%Z -> cf_target c = None -> quick_spectra L readers c s d = Ok sd ->
  exists r td td' p dd, first_success readers (fun r => rd_run r s d) r td /\
    run_all (l_rnd L) (l_drnd L) (l_orc L) (cf_time c) td = Ok td' /\ dec_params_of L c (fs (meta td')) = Ok p /\ run_decimation L c p td' = Ok dd /\
    (usable (l_rnd L) td' -> first_time (meta td') == first_time (meta td) -> fs (meta td') <= 1000000 # 1 -> (n_samples (meta td') <= 2 ^ 47)%Z ->
     Forall (fun f => (1 <= f)%Z /\ (cf_resample c = true -> f <= D)%Z) (dp_increments p) ->
     forall j, (Z.of_nat j < sm_n_levels (sd_md sd))%Z ->
     exists m ld y, sd_level_md sd (Z.of_nat j) = Ok m /\ get_level dd (Z.of_nat j) = Ok ld /\ sd_get_level sd (Z.of_nat j) = Ok y /\
       length ld = length (chans (meta td')) /\
       let n := ceil_div (n_samples (meta td')) (prodZ (firstn (Datatypes.S j) (dp_increments p))) in
       (forall row, In row ld -> Z.of_nat (length row) = n) /\
       ((2 <= sl_win_size m <= 1000000)%Z -> (sl_olap_size m < sl_win_size m < n)%Z ->
         sl_n_wins m = n_windows n (sl_win_size m) (sl_win_size m - sl_olap_size m) /\
         holds_spectra L (sl_win_size m) (sl_win_size m - sl_olap_size m) n ld y)).
Proof.
  intros L readers c s d sd D G GO HD HL Hm HT H. apply bind_ok in H. destruct H as (td & H0 & H). apply quick_read_ok in H0. destruct H0 as (r & H0).
  pose proof H as HS. unfold spectra_of in H. apply bind_ok in H. destruct H as (td' & H1 & H). apply bind_ok in H. destruct H as (p & H2 & H). apply bind_ok in H. destruct H as (dd & H3 & _).
  exists r, td, td', p, dd. split; [exact H0|]. split; [exact H1|]. split; [exact H2|]. split; [exact H3|]. intros U FT FS NS HF j Hj.
  destruct (spectra_level L c D td td' p dd sd j G GO HD HL Hm HT H1 H2 H3 U FT FS NS HF HS Hj) as (m & ld & y & A1 & A2 & A3 & A4 & A5 & A6).
  exists m, ld, y. cbv zeta in *. repeat (split; [assumption|]). intros W1 W2. destruct (A6 W1 (proj1 W2) (proj2 W2)) as (B1 & B2 & B3). split; [exact B1|]. split; [exact B2|exact B3].
Qed.
Print Assumptions C92_spectra.
(** Without time processors and with a first level that is not decimated these are the samples of the recording itself. *)
Theorem C92_first_level : forall L readers c s d sd D td rest p,
  good_rnd (l_rnd L) -> good_oracles (l_orc L) -> (D <= 2 ^ 49)%Z -> (forall x, best_approx D x (o_limit_denominator (l_orc L) x)) ->
  (3 <= cf_max_single c)%Z -> cf_target c = None -> cf_time c = [] ->
  quick_read s readers d = Ok td -> usable (l_rnd L) td -> fs (meta td) <= 1000000 # 1 -> (n_samples (meta td) <= 2 ^ 47)%Z ->
  dec_params_of L c (fs (meta td)) = Ok p -> dp_increments p = 1%Z :: rest -> Forall (fun f => (1 <= f)%Z /\ (cf_resample c = true -> f <= D)%Z) rest -> (1 <= D)%Z ->
  quick_spectra L readers c s d = Ok sd -> (0 < sm_n_levels (sd_md sd))%Z ->
  exists m y, sd_level_md sd 0 = Ok m /\ sd_get_level sd 0 = Ok y /\
    ((2 <= sl_win_size m <= 1000000)%Z -> (sl_olap_size m < sl_win_size m < n_samples (meta td))%Z ->
      holds_spectra L (sl_win_size m) (sl_win_size m - sl_olap_size m) (n_samples (meta td)) (rows td) y).
Proof.
  intros L readers c s d sd D td rest p G GO HD HL Hm HT CT HR U FS NS HP EI HF D1 H Hj. unfold quick_spectra in H. rewrite HR in H. change (spectra_of L c td = Ok sd) in H.
  pose proof H as HS. unfold spectra_of in H. apply bind_ok in H. destruct H as (td' & H1 & H). apply bind_ok in H. destruct H as (p' & H2 & H). apply bind_ok in H. destruct H as (dd & H3 & _).
  assert (td' = td) by (rewrite CT in H1; cbn [run_all] in H1; congruence). subst td'. assert (p' = p) by congruence. subst p'.
  assert (HF' : Forall (fun f => (1 <= f)%Z /\ (cf_resample c = true -> f <= D)%Z) (dp_increments p)) by (rewrite EI; constructor; [split; [lia|intros _; lia]|exact HF]).
  destruct (spectra_level L c D td td p dd sd 0%nat G GO HD HL Hm HT H1 H2 H3 U (Qeq_refl _) FS NS HF' HS Hj) as (m & ld & y & A1 & A2 & A3 & A4 & A5 & A6).
  assert (NL : (0 < dp_n_levels p)%Z) by (pose proof (setup_increments _ _ _ _ _ _ H2) as LN; rewrite EI in LN; cbn [length] in LN; lia).
  assert (ld = rows td) by (pose proof (first_level_rows _ _ _ _ _ _ _ _ EI NL H3) as E; change (Z.of_nat 0) with 0%Z in A2; congruence). subst ld.
  exists m, y. split; [exact A1|]. split; [exact A3|]. rewrite EI in A5, A6. cbn [firstn prodZ] in A5, A6. 
  assert (CD : ceil_div (n_samples (meta td)) (1 * 1) = n_samples (meta td)).
  { unfold ceil_div. assert (E : inject_Z (n_samples (meta td)) / inject_Z (1 * 1) == inject_Z (n_samples (meta td))) by (change (inject_Z (1 * 1)) with 1; field). rewrite E. apply Qceiling_Z. }
  rewrite CD in A5, A6. intros W1 W2. destruct (A6 W1 (proj1 W2) (proj2 W2)) as (_ & B2 & B3). split; [exact B2|exact B3].
Qed.
Print Assumptions C92_first_level.
(** quick_tf estimates its transfer function from the spectra quick_spectra returns *)
Theorem C92_transfer_function : forall L readers c cal s d sol, quick_tf_dir L readers c cal s d = Ok sol ->
  exists td sd td' p sd' ed ed' g, quick_read s readers d = Ok td /\ quick_spectra L readers c s d = Ok sd /\
    run_all (l_rnd L) (l_drnd L) (l_orc L) (cf_time c) td = Ok td' /\ dec_params_of L c (fs (meta td')) = Ok p /\
    run_sprocs L (cf_spec c) sd = Ok sd' /\ evals_run p sd' = Ok ed /\
    match cal with Some readers => run_calibration L c readers ed | None => Ok ed end = Ok ed' /\ quick_gather (path_name d) p (cf_tf c) ed' = Ok g /\ run_regression L c g = Ok sol.
Proof.
  intros L readers c cal s d sol H. apply bind_ok in H. destruct H as (td & H0 & H). destruct (tf_from_spectra _ _ _ _ _ _ H) as (sd & td' & p & sd' & ed & ed' & g & H1 & H2).
  exists td, sd, td', p, sd', ed, ed', g. split; [exact H0|]. split; [unfold quick_spectra; rewrite H0; exact H1|exact H2].
Qed.
Print Assumptions C92_transfer_function.
(** quick_view shows the processed recording: one panel per channel, in it the samples at their times, thinned out to [max_pts] *)
Theorem C92_view : forall L lttbc ycast lm, picks_points lttbc -> forall readers c max_pts s d td td', quick_read s readers d = Ok td ->
  run_all (l_rnd L) (l_drnd L) (l_orc L) (cf_time c) td = Ok td' -> recording (Some max_pts) td' -> described td' ->
  exists f, quick_view L b32 lttbc ycast lm readers c false max_pts s d = Ok f /\ fg_titles f = chans (meta td') /\
    length (fg_curves f) = length (chans (meta td')) /\
    forall i ch cv, nth_error (chans (meta td')) i = Some ch -> nth_error (fg_curves f) i = Some cv ->
      panel f cv = Some ch /\ shows_chan (l_rnd L) (l_ns_time L) (l_ns_delta L) ycast (Some max_pts) td' ch cv.
Proof.
  intros L lttbc ycast lm P readers c max_pts s d td td' H0 H1 R DS.
  destruct (C90_recording (l_rnd L) (l_ns_time L) (l_ns_delta L) lttbc ycast lm P td' (inl "blue"%string) (CName "TimeData") (Some max_pts) R DS) as (f & E & A & B & C).
  exists f. unfold quick_view. rewrite H0. cbv beta iota delta [bind]. rewrite H1. cbn [negb]. split; [exact E|]. split; [exact A|]. split; [exact B|].
  intros i ch cv Hc Hcv. destruct (C i ch cv Hc Hcv) as (C1 & _ & _ & _ & C5). split; assumption.
Qed.
Print Assumptions C92_view.
(** ... and with decimate=True the decimated levels, one colour each *)
Theorem C92_view_decimated : forall L lttbc ycast lm, picks_points lttbc -> forall readers c max_pts s d td td' p dd, quick_read s readers d = Ok td ->
  run_all (l_rnd L) (l_drnd L) (l_orc L) (cf_time c) td = Ok td' -> dec_params_of L c (fs (meta td')) = Ok p -> run_decimation L c p td' = Ok dd ->
  dd_chans dd <> [] -> NoDup (dd_chans dd) -> (dd_n_levels dd <= 10)%Z -> (forall l, (0 <= l < dd_n_levels dd)%Z -> exists m x, decimated_level (Some max_pts) dd l m x) ->
  exists css, quick_view L b32 lttbc ycast lm readers c true max_pts s d = Ok (mkFigure (dd_chans dd) (concat css)) /\ Z.of_nat (length css) = Z.max 0 (dd_n_levels dd) /\
    forall l cs m x, nth_error css l = Some cs -> decimated_level (Some max_pts) dd (Z.of_nat l) m x -> length cs = length (dd_chans dd) /\
      forall i ch cv, nth_error cs i = Some cv -> nth_error (dd_chans dd) i = Some ch ->
        cv_row cv = (Z.of_nat i + 1)%Z /\ shows_level (l_rnd L) (l_ns_time L) (l_ns_delta L) ycast (Some max_pts) dd (Z.of_nat l) x ch cv.
Proof.
  intros L lttbc ycast lm P readers c max_pts s d td td' p dd H0 H1 H2 H3 NE ND NL HL.
  destruct (C90_decimated (l_rnd L) (l_ns_time L) (l_ns_delta L) lttbc ycast lm P dd (dtype td') (Some max_pts) NE ND NL HL) as (css & E & A & B).
  exists css. unfold quick_view. rewrite H0. cbv beta iota delta [bind]. rewrite H1. cbn [negb]. rewrite H2, H3. split; [exact E|]. split; [exact A|].
  intros l cs m x Hl Hm. destruct (B l cs m x Hl Hm) as [B1 B2]. split; [exact B1|]. intros i ch cv Hcv Hch. destruct (B2 i ch cv Hcv Hch) as (C1 & _ & _ & C4). split; assumption.
Qed.
Print Assumptions C92_view_decimated.
(** a directory no reader can read is an error of all three, whatever the configuration *)
Theorem C92_unreadable : forall L f32 lttbc ycast lm readers c cal decimate max_pts s d, all_fail readers (fun r => rd_run r s d) ->
  quick_spectra L readers c s d = Err TimeDataReadError /\ quick_tf_dir L readers c cal s d = Err TimeDataReadError /\
  quick_view L f32 lttbc ycast lm readers c decimate max_pts s d = Err TimeDataReadError.
Proof.
  intros L f32 lttbc ycast lm readers c cal decimate max_pts s d H. pose proof (quick_read_err s readers d H) as E. unfold quick_spectra, quick_tf_dir, quick_view. rewrite E. repeat split.
Qed.
Print Assumptions C92_unreadable.
(** ** A directory with a recording of 40 samples: two readers, the first cannot read it *)
Definition exReaders92 : list (reader tdata) :=
  [mkReader "other"%string (fun _ _ => Err ReadError) (fun _ _ => Err ReadError);
   mkReader "toy"%string (fun _ _ => Err ReadError) (fun _ _ => Ok (toyTd 100 40))].
Definition exC92 := toyC [] None.
Lemma ex92_usable : usable b64 (toyTd 100 40).
Proof.
  split; [|split; [reflexivity|vm_compute; discriminate]].
  split; [discriminate|]. split; [reflexivity|]. split; [reflexivity|]. split; [intros r [<-|[<-|[]]]; reflexivity|vm_compute; reflexivity].
Qed.
Example C92_ex : exists sd, quick_spectra toyDL exReaders92 exC92 (Dir []) ["d"]%string = Ok sd /\ sm_n_levels (sd_md sd) = 2%Z /\
  exists m y, sd_level_md sd 0 = Ok m /\ sd_get_level sd 0 = Ok y /\ sl_win_size m = 8%Z /\ sl_olap_size m = 2%Z /\ n_windows 40 8 6 = 6%Z /\
    holds_spectra toyDL 8 6 40 (rows (toyTd 100 40)) y.
Proof.
  destruct (quick_spectra toyDL exReaders92 exC92 (Dir []) ["d"]%string) as [sd|e] eqn:E; [|exfalso; vm_compute in E; discriminate E].
  exists sd. split; [reflexivity|].
  assert (NL : sm_n_levels (sd_md sd) = 2%Z) by (pose proof E as E'; vm_compute in E'; injection E' as <-; reflexivity). split; [exact NL|].
  destruct (dec_params_of toyDL exC92 8) as [p|e] eqn:EP; [|exfalso; vm_compute in EP; discriminate EP].
  assert (EI : dp_increments p = [1; 2; 2]%Z) by (pose proof EP as E'; vm_compute in E'; injection E' as <-; reflexivity).
  destruct (C92_first_level toyDL exReaders92 exC92 (Dir []) ["d"]%string sd 40 (toyTd 100 40) [2; 2]%Z p b64_good (proj1 toyD_good) ltac:(discriminate) (proj2 toyD_good)
    ltac:(discriminate) eq_refl eq_refl eq_refl ex92_usable ltac:(vm_compute; discriminate) ltac:(vm_compute; discriminate) EP EI) as (m & y & A1 & A2 & A3).
  - repeat constructor; discriminate.
  - discriminate.
  - exact E.
  - rewrite NL. reflexivity.
  - assert (M : sl_win_size m = 8%Z /\ sl_olap_size m = 2%Z) by (pose proof E as E'; vm_compute in E'; injection E' as <-; vm_compute in A1; injection A1 as <-; split; reflexivity).
    destruct M as [M1 M2]. exists m, y. split; [exact A1|]. split; [exact A2|]. split; [exact M1|]. split; [exact M2|]. split; [reflexivity|].
    rewrite M1, M2 in A3. change (8 - 2)%Z with 6%Z in A3. change (n_samples (meta (toyTd 100 40))) with 40%Z in A3.
    apply A3; lia.
Qed.
Example C92_tf_ex : exists sol, quick_tf_dir toyDL exReaders92 exC92 None (Dir []) ["d"]%string = Ok sol.
Proof. eexists. vm_compute. reflexivity. Qed.
Example C92_unreadable_ex : quick_spectra toyDL [mkReader "other"%string (fun _ _ => Err ReadError) (fun _ _ => Err ReadError)] exC92 (Dir []) ["d"]%string = Err TimeDataReadError.
Proof. refine (proj1 (C92_unreadable toyDL b32 first_points Qred no_lttb _ exC92 None true 10 _ _ _)). intros a b [<-|[]]. discriminate. Qed.
Example C92_view_ex : exists f, quick_view toyDL b32 first_points Qred no_lttb [mkReader "ex"%string (fun _ _ => Err ReadError) (fun _ _ => Ok ex_td)] exC92 false 3 (Dir []) ["d"]%string = Ok f /\
  fg_titles f = ["Ex"; "Hy"]%string.
Proof.
  destruct (C92_view toyDL first_points Qred no_lttb first_points_ok [mkReader "ex"%string (fun _ _ => Err ReadError) (fun _ _ => Ok ex_td)] exC92 3 (Dir []) ["d"]%string ex_td ex_td
    eq_refl eq_refl (proj1 ex_recording) (proj2 ex_recording)) as (f & E & T & _). exists f. split; [exact E|exact T].
Qed.
