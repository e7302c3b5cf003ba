(** The windows of two recordings processed with one configuration. *)
From Coq Require Import String.
From Verif Require Import Base.Prelude Base.Rounding Base.ListUtil Base.NdArray Base.Cplx
  Model.Sampling Model.Time Model.Decimate Model.Window Model.Spectra Model.Calibrate Model.Gather Model.Regression Model.Pipeline
  Spec.Pipeline
  Proofs.Sampling Proofs.TimeMeta Proofs.TimeProc Proofs.DecParams Proofs.WindowRun Proofs.WindowFinal Proofs.Spectra Proofs.SpectraFreqs Proofs.GatherQuick Proofs.PipelineShape.
Open Scope list_scope. Open Scope Z_scope.

Lemma arange_some n i x : nth_error (arange n) i = Some x -> x = Z.of_nat i /\ (i < Z.to_nat n)%nat.
Proof.
  intros H. assert (L : (i < Z.to_nat n)%nat) by (rewrite <- (arange_length n); apply nth_error_Some; congruence).
  rewrite arange_nth in H by exact L. injection H as <-. auto.
Qed.
Lemma fourier_levels_nth rnd nf tr wd d i m : fourier_run rnd nf tr wd = Ok d -> nth_error (sm_levels (sd_md d)) i = Some m ->
  exists wl freqs, nth_error (wd_levels wd) i = Some wl /\ m = fourier_level_md wl freqs.
Proof.
  intros H Hi. unfold fourier_run in H. apply bind_ok in H. destruct H as (r & Hr & H). apply make_spec_ok in H. subst d. cbn [sd_md sm_levels] in Hi.
  rewrite nth_error_map in Hi. destruct (nth_error r i) as [[kv m']|] eqn:E; [|discriminate]. cbn [option_map snd] in Hi. injection Hi as ->.
  apply mapM_ok in Hr. destruct (Forall2_nth_error_r _ _ _ _ _ Hr E) as (j & Hj & F). apply arange_some in Hj. destruct Hj as [-> _].
  unfold fourier_level in F. apply bind_ok in F. destruct F as (wl & Hw & F). cbv zeta in F. apply bind_ok in F. destruct F as (fr & _ & F). apply bind_ok in F. destruct F as (x & _ & F).
  apply bind_ok in F. destruct F as (y & _ & F). injection F as _ <-. exists wl, fr. split; [|reflexivity].
  unfold wd_level_md in Hw. rewrite py_nth_nat, Nat2Z.id in Hw by lia. destruct (nth_error (wd_levels wd) i); [congruence|discriminate].
Qed.
Lemma sprocs_levels L ps : forall d d', run_sprocs L ps d = Ok d' -> sm_levels (sd_md d') = sm_levels (sd_md d).
Proof.
  induction ps as [|p ps IH]; intros d d' H; cbn [run_sprocs] in H; [injection H as <-; reflexivity|].
  apply bind_ok in H. destruct H as (d1 & H1 & H). rewrite (IH _ _ H).
  destruct p; cbn [run_sproc] in H1; unfold smooth_uniform, smooth_gaussian, smooth_run in H1; apply bind_ok in H1; destruct H1 as (r & _ & H1); apply make_spec_ok in H1; subst d1; reflexivity.
Qed.
Lemma evals_levels_nth p d d' i m : evals_run p d = Ok d' -> nth_error (sm_levels (sd_md d')) i = Some m ->
  exists m0, nth_error (sm_levels (sd_md d)) i = Some m0 /\ sl_fs m = sl_fs m0 /\ sl_win_size m = sl_win_size m0 /\ sl_olap_size m = sl_olap_size m0 /\
    sl_offset m = sl_offset m0 /\ sl_n_wins m = sl_n_wins m0 /\ level_eval_freqs p (Z.of_nat i) = Ok (sl_freqs m).
Proof.
  intros H Hi. unfold evals_run in H. apply bind_ok in H. destruct H as (r & Hr & H). apply make_spec_ok in H. subst d'. cbn [sd_md sm_levels] in Hi.
  rewrite nth_error_map in Hi. destruct (nth_error r i) as [[kv m']|] eqn:E; [|discriminate]. cbn [option_map snd] in Hi. injection Hi as ->.
  apply mapM_ok in Hr. destruct (Forall2_nth_error_r _ _ _ _ _ Hr E) as (j & Hj & F). apply arange_some in Hj. destruct Hj as [-> _].
  unfold eval_level in F. apply bind_ok in F. destruct F as (m0 & Hm & F). apply bind_ok in F. destruct F as (ev & He & F). apply bind_ok in F. destruct F as (x & _ & F).
  apply bind_ok in F. destruct F as (y & _ & F). injection F as _ <-. exists m0. cbn [sl_fs sl_win_size sl_olap_size sl_offset sl_n_wins sl_freqs].
  split; [|repeat split; exact He]. unfold sd_level_md in Hm. rewrite py_nth_nat, Nat2Z.id in Hm by lia. destruct (nth_error (sm_levels (sd_md d)) i); [congruence|discriminate].
Qed.
Lemma windower_level_nth rnd nt ndl ref p d wd i wl : windower_run rnd nt ndl ref p d = Ok wd -> nth_error (wd_levels wd) i = Some wl ->
  exists lm w o last, nth_error (dd_levels_md d) i = Some lm /\ nth_error (wp_win_sizes p) i = Some w /\ nth_error (wp_olap_sizes p) i = Some o /\
    wl_fs wl = lm_fs lm /\ wl_win_size wl = w /\ wl_olap_size wl = o /\ get_first_and_last_win rnd ref lm w o = Ok (wl_offset wl, last) /\
    wl_n_wins wl = last - wl_offset wl + 1.
Proof.
  intros H Hi. destruct (windower_levels _ _ _ _ _ _ _ H) as (_ & _ & _ & xs & wls & HL & D & Lv & _).
  destruct (window_loop_spec _ _ _ _ _ _ _ _ _ _ _ HL) as (I1 & I2 & I3 & I4 & _). rewrite Lv in Hi.
  destruct (nth_error xs i) as [[lev x]|] eqn:Ex.
  2:{ apply nth_error_None in Ex. assert (i < length wls)%nat by (apply nth_error_Some; congruence). lia. }
  assert (lev = Z.of_nat i) as ->.
  { assert (N : nth_error (map fst xs) i = Some lev) by (rewrite nth_error_map, Ex; reflexivity). rewrite I3, nth_error_firstn in N.
    destruct (Nat.ltb _ _); [|discriminate]. apply arange_some in N. apply N. }
  destruct (I4 _ _ _ _ Ex Hi) as (m & w & o & table & ld & [l1 l2 l3 l4 l5 l6 l7 l8]).
  apply bind_ok in l2. destruct l2 as (w' & Hw' & l2). apply bind_ok in l2. destruct l2 as (o' & Ho' & l2). injection l2 as -> ->.
  apply wp_level_nth in Hw', Ho'. rewrite Nat2Z.id in l1, Hw', Ho'.
  destruct (level_metadata_spec _ _ _ _ _ _ _ _ _ l3 l8) as (f & la & E1 & _ & _ & -> & E2 & _).
  exists m, w, o, la. cbn [wl_fs wl_win_size wl_olap_size wl_offset wl_n_wins]. repeat split; try assumption; try apply Hw'; apply Ho'.
Qed.

Lemma to_evals_levels L c ref td p ed : cf_target c = None -> to_evals L c ref td = Ok (p, ed) ->
  exists td' dd wp, run_all (l_rnd L) (l_drnd L) (l_orc L) (cf_time c) td = Ok td' /\ dec_params_of L c (fs (meta td')) = Ok p /\
    run_decimation L c p td' = Ok dd /\ win_setup_run (l_rnd L) (cf_win c) (dd_n_levels dd) (dd_fs dd) = Ok wp /\
    forall i m, nth_error (sm_levels (sd_md ed)) i = Some m -> exists lm last,
      nth_error (dd_levels_md dd) i = Some lm /\ nth_error (wp_win_sizes wp) i = Some (sl_win_size m) /\ nth_error (wp_olap_sizes wp) i = Some (sl_olap_size m) /\
      sl_fs m = lm_fs lm /\ level_eval_freqs p (Z.of_nat i) = Ok (sl_freqs m) /\
      get_first_and_last_win (l_rnd L) ref lm (sl_win_size m) (sl_olap_size m) = Ok (sl_offset m, last) /\ sl_n_wins m = last - sl_offset m + 1.
Proof.
  intros HT H. unfold to_evals in H.
  apply bind_ok in H. destruct H as (td' & H1 & H). apply bind_ok in H. destruct H as (p' & H2 & H). apply bind_ok in H. destruct H as (dd & H3 & H).
  apply bind_ok in H. destruct H as (wd & H4 & H). apply bind_ok in H. destruct H as (sd & H5 & H). apply bind_ok in H. destruct H as (sd' & H6 & H).
  apply bind_ok in H. destruct H as (ed' & H7 & H). injection H as -> ->.
  unfold run_windowing in H4. rewrite HT in H4. apply bind_ok in H4. destruct H4 as (wp & Hwp & H4).
  exists td', dd, wp. split; [exact H1|]. split; [exact H2|]. split; [exact H3|]. split; [exact Hwp|]. intros i m Hm.
  destruct (evals_levels_nth _ _ _ _ _ H7 Hm) as (m0 & N0 & E1 & E2 & E3 & E4 & E5 & E6). rewrite (sprocs_levels _ _ _ _ H6) in N0.
  destruct (fourier_levels_nth _ _ _ _ _ _ _ H5 N0) as (wl & fr & Nw & ->). cbn [fourier_level_md sl_fs sl_win_size sl_olap_size sl_offset sl_n_wins] in *.
  destruct (windower_level_nth _ _ _ _ _ _ _ _ _ H4 Nw) as (lm & w & o & la & A1 & A2 & A3 & A4 & A5 & A6 & A7 & A8).
  exists lm, la. rewrite E1, E2, E3, E4, E5, A5, A6. repeat split; assumption.
Qed.

(** ** sampling frequencies and sizes do not depend on the data *)
Lemma dec_step_fs rnd orc b maxf td td2 f r r2 : dec_step rnd orc b maxf td f = Ok r -> dec_step rnd orc b maxf td2 f = Ok r2 -> fs (meta td) = fs (meta td2) -> fs (meta r) = fs (meta r2).
Proof.
  unfold dec_step. destruct (f =? 1); [intros [= <-] [= <-]; auto|]. destruct b.
  - destruct (f =? 0); [discriminate|]. unfold resample. intros H H2 E. apply bind_ok in H. destruct H as (x & _ & H). apply bind_ok in H2. destruct H2 as (y & _ & H2).
    injection H as <-. injection H2 as <-. cbn. rewrite E. reflexivity.
  - destruct (f <? 1); [discriminate|]. unfold decimate. intros H H2 E. apply bind_ok in H. destruct H as (x & _ & H). apply bind_ok in H2. destruct H2 as (y & _ & H2).
    injection H as <-. injection H2 as <-. cbn. rewrite E. reflexivity.
Qed.
Lemma dec_loop_fs rnd orc b maxf ms incs : forall il il2 td td2 d l d2 l2, dec_loop rnd orc b maxf ms incs il td = Ok (d, l) -> dec_loop rnd orc b maxf ms incs il2 td2 = Ok (d2, l2) ->
  fs (meta td) = fs (meta td2) -> forall i m m2, nth_error l i = Some m -> nth_error l2 i = Some m2 -> lm_fs m = lm_fs m2.
Proof.
  induction incs as [|f incs IH]; intros il il2 td td2 d l d2 l2 H H2 E i m m2 N N2; cbn [dec_loop] in H, H2.
  - injection H as <- <-. destruct i; discriminate.
  - apply bind_ok in H. destruct H as (r & R & H). apply bind_ok in H2. destruct H2 as (r2 & R2 & H2).
    pose proof (dec_step_fs _ _ _ _ _ _ _ _ _ R R2 E) as E'.
    destruct (n_samples (meta r) <? ms); [injection H as <- <-; destruct i; discriminate|].
    destruct (n_samples (meta r2) <? ms); [injection H2 as <- <-; destruct i; discriminate|].
    apply bind_ok in H. destruct H as ([d' l'] & H & K). injection K as <- <-. apply bind_ok in H2. destruct H2 as ([d2' l2'] & H2 & K2). injection K2 as <- <-.
    destruct i as [|i]; cbn [nth_error] in N, N2; [injection N as <-; injection N2 as <-; exact E'|]. exact (IH _ _ _ _ _ _ _ _ H H2 E' i m m2 N N2).
Qed.
Lemma decimation_fs L c p td td2 dd dd2 i m m2 : run_decimation L c p td = Ok dd -> run_decimation L c p td2 = Ok dd2 -> fs (meta td) = fs (meta td2) ->
  nth_error (dd_levels_md dd) i = Some m -> nth_error (dd_levels_md dd2) i = Some m2 -> lm_fs m = lm_fs m2.
Proof.
  unfold run_decimation, decimator_run. intros H H2 E. apply bind_ok in H. destruct H as ([d l] & H & K). apply bind_ok in H2. destruct H2 as ([d2 l2] & H2 & K2).
  destruct d as [|d0 d]; [discriminate|]. destruct d2 as [|d20 d2]; [discriminate|]. injection K as <-. injection K2 as <-. cbn [dd_levels_md].
  eapply dec_loop_fs; eassumption.
Qed.
Lemma dd_fs_levels L c p td dd : run_decimation L c p td = Ok dd -> dd_fs dd = map lm_fs (dd_levels_md dd) /\ dd_n_levels dd = Z.of_nat (length (dd_levels_md dd)).
Proof.
  unfold run_decimation, decimator_run. intros H. apply bind_ok in H. destruct H as ([d l] & H & K). destruct d as [|d0 d]; [discriminate|]. injection K as <-. auto.
Qed.
Lemma setup_nth rnd c n dfs p i w o : 0 <= n -> win_setup_run rnd c n dfs = Ok p -> nth_error (wp_win_sizes p) i = Some w -> nth_error (wp_olap_sizes p) i = Some o ->
  (match ws_win_sizes c with Some l => nth_error l i = Some w | None => exists q, nth_error dfs i = Some q /\ setup_win_size rnd c q = Ok w end) /\
  (match ws_olap_sizes c with Some l => nth_error l i = Some o | None => o = setup_olap_size rnd c w end).
Proof.
  intros Hn H Hw Ho. unfold win_setup_run in H. apply bind_ok in H. destruct H as (ws & H1 & H). apply bind_ok in H. destruct H as (ws' & H2 & H).
  apply bind_ok in H. destruct H as (os' & H3 & H). injection H as <-. cbn [wp_n_levels wp_min_n_wins wp_win_sizes wp_olap_sizes] in *.
  destruct (fit_levels_spec _ _ _ Hn H2) as [E2 L2]. destruct (fit_levels_spec _ _ _ Hn H3) as [E3 L3].
  assert (Hw' : nth_error ws i = Some w). { rewrite E2, nth_error_firstn in Hw. destruct (Nat.ltb _ _); [exact Hw|discriminate]. }
  rewrite E3, nth_error_firstn in Ho. destruct (Nat.ltb _ _); [|discriminate]. split.
  - destruct (ws_win_sizes c) as [l|]; [injection H1 as <-; exact Hw'|]. unfold setup_win_sizes in H1. apply mapM_ok in H1.
    destruct (Forall2_nth_error_r _ _ _ _ _ H1 Hw') as (j & Ej & Hj).
    assert (j = i). { assert (i < Z.to_nat n)%nat. { rewrite <- (seq_length (Z.to_nat n) 0). apply nth_error_Some. rewrite Ej. discriminate. }
      rewrite (nth_error_nth' _ 0%nat) in Ej by (rewrite seq_length; lia). rewrite seq_nth in Ej by lia. injection Ej as <-. reflexivity. }
    subst j. destruct (nth_error dfs i) as [q|]; [|discriminate]. exists q. auto.
  - destruct (ws_olap_sizes c) as [l|]; [exact Ho|]. rewrite nth_error_map, Hw in Ho. cbn [option_map] in Ho. congruence.
Qed.

Theorem c70 : forall L c ref ref2 td td2 p p2 ed ed2, cf_target c = None ->
  to_evals L c ref td = Ok (p, ed) -> to_evals L c ref2 td2 = Ok (p2, ed2) ->
  (forall td' td2', run_all (l_rnd L) (l_drnd L) (l_orc L) (cf_time c) td = Ok td' -> run_all (l_rnd L) (l_drnd L) (l_orc L) (cf_time c) td2 = Ok td2' -> fs (meta td') = fs (meta td2')) ->
  p = p2 /\ forall i m m2, nth_error (sm_levels (sd_md ed)) i = Some m -> nth_error (sm_levels (sd_md ed2)) i = Some m2 ->
    sl_fs m = sl_fs m2 /\ sl_win_size m = sl_win_size m2 /\ sl_olap_size m = sl_olap_size m2 /\ sl_freqs m = sl_freqs m2.
Proof.
  intros L c ref ref2 td td2 p p2 ed ed2 HT H H2 HF.
  destruct (to_evals_levels _ _ _ _ _ _ HT H) as (td' & dd & wp & A1 & A2 & A3 & A4 & A5).
  destruct (to_evals_levels _ _ _ _ _ _ HT H2) as (td2' & dd2 & wp2 & B1 & B2 & B3 & B4 & B5).
  pose proof (HF td' td2' A1 B1) as E. rewrite <- E, A2 in B2. injection B2 as <-. split; [reflexivity|].
  intros i m m2 Hm Hm2. destruct (A5 i m Hm) as (lm & la & C1 & C2 & C3 & C4 & C5 & _). destruct (B5 i m2 Hm2) as (lm2 & la2 & D1 & D2 & D3 & D4 & D5 & _).
  pose proof (decimation_fs _ _ _ _ _ _ _ _ _ _ A3 B3 E C1 D1) as EF.
  destruct (dd_fs_levels _ _ _ _ _ A3) as [F1 F2]. destruct (dd_fs_levels _ _ _ _ _ B3) as [G1 G2].
  assert (N1 : 0 <= dd_n_levels dd) by lia. assert (N2 : 0 <= dd_n_levels dd2) by lia.
  destruct (setup_nth _ _ _ _ _ _ _ _ N1 A4 C2 C3) as [S1 S2]. destruct (setup_nth _ _ _ _ _ _ _ _ N2 B4 D2 D3) as [T1 T2].
  assert (EW : sl_win_size m = sl_win_size m2).
  { destruct (ws_win_sizes (cf_win c)); [congruence|]. destruct S1 as (q & Q1 & Q2), T1 as (q2 & R1 & R2).
    rewrite F1, nth_error_map, C1 in Q1. cbn in Q1. rewrite G1, nth_error_map, D1 in R1. cbn in R1. congruence. }
  split; [congruence|]. split; [exact EW|]. split; [|congruence].
  destruct (ws_olap_sizes (cf_win c)); [congruence|]. rewrite S2, T2, EW. reflexivity.
Qed.

(** ** The history of a run *)
Lemma make_windowed_history d ref name data levels wd : make_windowed d ref name data levels = Ok wd -> wd_history wd = dd_history d ++ [COther name].
Proof. intros H. unfold make_windowed in H. destruct data; [discriminate H|]. injection H as <-. reflexivity. Qed.
Lemma sprocs_history L ps : forall d d', run_sprocs L ps d = Ok d' -> sm_history (sd_md d') = sm_history (sd_md d) ++ map sproc_record ps.
Proof.
  induction ps as [|p ps IH]; intros d d' H; cbn [run_sprocs] in H; [injection H as <-; cbn; rewrite app_nil_r; reflexivity|].
  apply bind_ok in H. destruct H as (d1 & H1 & H). rewrite (IH _ _ H). cbn [map].
  replace (sm_history (sd_md d1)) with (sm_history (sd_md d) ++ [sproc_record p]); [rewrite <- app_assoc; reflexivity|].
  destruct p; cbn [run_sproc] in H1; unfold smooth_uniform, smooth_gaussian, smooth_run in H1; apply bind_ok in H1; destruct H1 as (r & _ & H1); apply make_spec_ok in H1; subst d1; reflexivity.
Qed.
Lemma run_history L c ref td p ed : to_evals L c ref td = Ok (p, ed) -> sm_history (sd_md ed) = history (meta td) ++ run_records c.
Proof.
  intros H. unfold to_evals in H.
  apply bind_ok in H. destruct H as (td' & H1 & H). apply bind_ok in H. destruct H as (p' & H2 & H). apply bind_ok in H. destruct H as (dd & H3 & H).
  apply bind_ok in H. destruct H as (wd & H4 & H). apply bind_ok in H. destruct H as (sd & H5 & H). apply bind_ok in H. destruct H as (sd' & H6 & H).
  apply bind_ok in H. destruct H as (ed' & H7 & H). injection H as -> ->.
  assert (E1 : history (meta td') = history (meta td) ++ map CProc (cf_time c)) by exact (run_all_hist _ _ _ _ _ _ H1).
  assert (E2 : dd_history dd = history (meta td') ++ [COther "Decimator"]).
  { unfold run_decimation, decimator_run in H3. apply bind_ok in H3. destruct H3 as ([d l] & _ & H3). destruct d; [discriminate H3|]. injection H3 as <-. reflexivity. }
  assert (E3 : wd_history wd = dd_history dd ++ [COther (match cf_target c with None => "Windower" | Some _ => "WindowerTarget" end)]).
  { unfold run_windowing in H4. apply bind_ok in H4. destruct H4 as (wp & _ & H4). destruct (cf_target c) as [t|]; unfold windower_target_run, windower_run in H4;
    apply bind_ok in H4; destruct H4 as ([a b] & _ & H4); exact (make_windowed_history _ _ _ _ _ _ H4). }
  assert (E4 : sm_history (sd_md sd) = wd_history wd ++ [COther "FourierTransform"]).
  { unfold fourier_run in H5. apply bind_ok in H5. destruct H5 as (r & _ & H5). apply make_spec_ok in H5. subst sd. reflexivity. }
  assert (E5 : sm_history (sd_md ed) = sm_history (sd_md sd') ++ [COther "EvaluationFreqs"]).
  { unfold evals_run in H7. apply bind_ok in H7. destruct H7 as (r & _ & H7). apply make_spec_ok in H7. subst ed. reflexivity. }
  rewrite E5, (sprocs_history _ _ _ _ H6), E4, E3, E2, E1. unfold run_records. rewrite <- !app_assoc. reflexivity.
Qed.
Lemma calibration_history L c cal d d' : run_calibration L c cal d = Ok d' -> sm_history (sd_md d') = sm_history (sd_md d) ++ [COther "SensorCalibrator"].
Proof.
  intros H. unfold run_calibration, calibrator_run in H. repeat (apply bind_ok in H; destruct H as (? & _ & H)). apply make_spec_ok in H. subst d'. reflexivity.
Qed.
