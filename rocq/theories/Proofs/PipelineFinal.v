(** The project run and the quick run give the same transfer function. *)
From Coq Require Import String.
From Verif Require Import Base.Prelude Base.Rounding Base.ListUtil Base.NdArray Base.Cplx
  Model.Sampling Model.Time Model.Decimate Model.Window Model.Spectra Model.Calibrate Model.Gather Model.Regression Model.Pipeline
  Spec.Calibrate Spec.Gather Spec.Pipeline
  Proofs.Sampling Proofs.TimeMeta Proofs.DecParams Proofs.DecFinal Proofs.WindowRun Proofs.WindowFinal Proofs.Spectra Proofs.SpectraFreqs Proofs.Calibrate Proofs.CalibrateFinal
  Proofs.Gather Proofs.GatherQuick Proofs.PipelineShape.
From Verif Require Import Proofs.RegressionQuick.
Open Scope list_scope. Open Scope Z_scope.

Lemma level_freqs_len rnd pw fuel c fs p l x : 0 <= ds_per_level c -> setup_run rnd pw fuel c fs = Ok p -> level_eval_freqs p l = Ok x -> Z.of_nat (length x) = dp_per_level p.
Proof.
  intros HP H HL.
  assert (K : 0 <= l < dp_n_levels p).
  { unfold level_eval_freqs, check_level in HL. destruct ((l <? 0) || (l >=? dp_n_levels p)) eqn:E; [discriminate|]. lia. }
  destruct (setup_run_inv _ _ _ _ _ _ H) as (freqs & factors & _ & _ & _ & _ & Ep).
  assert (0 <= ds_n_levels c) by (rewrite Ep in K; cbn in K; lia).
  destruct (setup_size _ _ _ _ _ _ H0 HP H) as (E1 & _ & E3).
  destruct (c29_lookup p l 0 ltac:(lia) E1 K) as (y & E & Ly & _). congruence.
Qed.

(** the stages deliver evaluation data *)
Lemma to_evals_evaluated L c ref td p ed : processable L c td -> to_evals L c ref td = Ok (p, ed) ->
  exists td', run_all (l_rnd L) (l_drnd L) (l_orc L) (cf_time c) td = Ok td' /\ dec_params_of L c (fs (meta td')) = Ok p /\
    sm_chans (sd_md ed) = chans (meta td') /\ (2 <= length (chans (meta td')))%nat /\ has_channels (cf_tf c) (chans (meta td')) /\
    evaluated (length (sm_chans (sd_md ed))) p ed.
Proof.
  intros (HT & HM & HP & HK) H. unfold to_evals in H.
  apply bind_ok in H. destruct H as (td' & H1 & H). apply bind_ok in H. destruct H as (p' & H2 & H). apply bind_ok in H. destruct H as (dd & H3 & H).
  apply bind_ok in H. destruct H as (wd & H4 & H). apply bind_ok in H. destruct H as (sd & H5 & H). apply bind_ok in H. destruct H as (sd' & H6 & H).
  apply bind_ok in H. destruct H as (ed' & H7 & H). injection H as -> ->.
  unfold run_windowing in H4. rewrite HT in H4. apply bind_ok in H4. destruct H4 as (wp & Hwp & H4).
  destruct (HK td' p dd wp H1 H2 H3 Hwp) as (K1 & K2 & K3 & K4).
  assert (EC : dd_chans dd = chans (meta td')).
  { unfold run_decimation, decimator_run in H3. apply bind_ok in H3. destruct H3 as ([data lmd] & _ & H3). destruct data; [discriminate|]. injection H3 as <-. reflexivity. }
  assert (EM : wp_min_n_wins wp = ws_min_n_wins (cf_win c)).
  { unfold win_setup_run in Hwp. repeat (apply bind_ok in Hwp; destruct Hwp as (? & ? & Hwp)). injection Hwp as <-. reflexivity. }
  destruct (windower_cube _ _ _ _ _ _ _ H4) as (W1 & W2 & W3 & W4); [lia|rewrite EC; exact K1|exact K3|exact K4|].
  assert (HC : (0 < length (dd_chans dd))%nat) by (rewrite EC; lia).
  destruct (fourier_regular _ _ _ _ _ _ HC H5 W3 W2 W4) as [R1 C1].
  destruct (sprocs_regular _ _ _ HC _ _ H6 R1) as [R2 C2].
  destruct (evals_evaluated _ _ _ _ HC H7 R2) as [R3 C3].
  assert (E : sm_chans (sd_md ed) = chans (meta td')) by congruence.
  exists td'. split; [exact H1|]. split; [exact H2|]. split; [exact E|]. split; [exact K1|]. split; [exact K2|]. rewrite E, <- EC. exact R3.
Qed.

Lemma evaluated_good C rnd pw fuel c fs p d : 0 <= ds_per_level c -> setup_run rnd pw fuel c fs = Ok p -> C = length (sm_chans (sd_md d)) -> (0 < C)%nat ->
  evaluated C p d -> good_evals (dp_per_level p) d /\ quick_shape (dp_per_level p) d /\
    (forall l m, nth_error (sm_levels (sd_md d)) (Z.to_nat l) = Some m -> 0 <= l -> level_eval_freqs p l = Ok (sl_freqs m)).
Proof.
  intros HP HS EC HC (R1 & R2 & R3). unfold levels_ok in R1.
  assert (IN : forall l m, 0 <= l -> nth_error (sm_levels (sd_md d)) (Z.to_nat l) = Some m -> l < sm_n_levels (sd_md d)).
  { intros l m Hl Hm. assert (Z.to_nat l < length (sm_levels (sd_md d)))%nat by (apply nth_error_Some; congruence). lia. }
  split; [|split].
  - split; [intros E; rewrite E in EC; cbn in EC; lia|]. split; [exact R1|]. intros l Hl.
    destruct (R3 l Hl) as (m & y & A1 & A2 & A3 & A4 & A5 & A6 & A7). exists m, y. split; [exact A1|]. split; [exact A2|]. split; [exact A3|].
    split; [rewrite A6, Nat2Z.id, <- EC; exact A5|]. rewrite A6, (level_freqs_len _ _ _ _ _ _ _ _ HP HS A7). lia.
  - intros l m Hl Hm. destruct (R3 l Hl) as (m' & y & A1 & A2 & A3 & A4 & A5 & A6 & A7). rewrite Hm in A1. injection A1 as <-.
    split; [rewrite A6; exact (level_freqs_len _ _ _ _ _ _ _ _ HP HS A7)|exact A4].
  - intros l m Hm Hl. destruct (R3 l (conj Hl (IN l m Hl Hm))) as (m' & y & A1 & _ & _ & _ & _ & _ & A7). rewrite Hm in A1. injection A1 as <-. exact A7.
Qed.

(** records of processes do not matter to gathering *)
Lemma quick_gather_history meas p tf (d : spec_data cq) h : quick_gather meas p tf (mkSpec (with_spec_history (sd_md d) h) (sd_data d)) = quick_gather meas p tf d.
Proof.
  assert (K : forall chans, quick_combined meas p (mkSpec (with_spec_history (sd_md d) h) (sd_data d)) chans = quick_combined meas p d chans).
  { intros chans. unfold quick_combined. cbn [sd_md with_spec_history sm_n_levels].
    assert (Q : forall ls data, quick_levels (dp_per_level p) (mkSpec (with_spec_history (sd_md d) h) (sd_data d)) chans ls data = quick_levels (dp_per_level p) d chans ls data).
    { induction ls as [|l ls IH]; intros data; [reflexivity|]. cbn [quick_levels].
      change (sd_level_md (mkSpec (with_spec_history (sd_md d) h) (sd_data d)) l) with (sd_level_md d l).
      change (sd_get_chans (mkSpec (with_spec_history (sd_md d) h) (sd_data d)) l chans) with (sd_get_chans d l chans).
      destruct (sd_level_md d l); [|reflexivity]. cbn [bind]. destruct (sd_get_chans d l chans); [|reflexivity]. cbn [bind].
      destruct (quick_freqs _ _ _ _ _); [|reflexivity]. cbn [bind]. apply IH. }
    rewrite Q. reflexivity. }
  unfold quick_gather. rewrite !K. reflexivity.
Qed.

(** the same data at the evaluation frequencies give the same regression input *)
Lemma prepare_same cmul j1 j2 tf (g q : gathered cq) : cb_eval_freqs (g_out g) = cb_eval_freqs (g_out q) ->
  (forall k, 0 <= k < Z.of_nat (length (cb_eval_freqs (g_out q))) -> dict_get k (cb_data (g_out g)) = dict_get k (cb_data (g_out q)) /\
     dict_get k (cb_data (g_in g)) = dict_get k (cb_data (g_in q)) /\ dict_get k (cb_data (g_cross g)) = dict_get k (cb_data (g_cross q))) ->
  prepare_gathered cmul j1 j2 tf g = prepare_gathered cmul j1 j2 tf q.
Proof.
  intros E H. unfold prepare_gathered. rewrite E. f_equal. apply mapM_ext_in. intros [i f] Hin. cbn [fst snd].
  assert (i < length (cb_eval_freqs (g_out q)))%nat. { unfold enum in Hin. apply in_combine_l in Hin. apply in_seq in Hin. lia. }
  destruct (H (Z.of_nat i) ltac:(lia)) as (A & B & D). unfold cross_powers. rewrite A, B, D. reflexivity.
Qed.

Lemma concat_len {A} n (ls : list (list A)) : (forall l, In l ls -> length l = n) -> length (concat ls) = (length ls * n)%nat.
Proof. induction ls as [|l ls IH]; intros H; [reflexivity|]. cbn [concat]. rewrite app_length, (H l (or_introl eq_refl)), IH; [reflexivity|]. intros x Hx. apply H. right. exact Hx. Qed.

Lemma selector_single (proj : Gather.project cq) site meas fs d p : find (fun x => String.eqb (fst x) site) proj = Some (site, [(meas, (fs, Ok d))]) ->
  Qeq_bool fs (dp_fs p) = true -> levels_ok (sd_md d) -> exists s, selector_run proj [site] p = Ok s.
Proof.
  intros HF HQ HL. unfold selector_run.
  assert (EN : sorted_set [site] = [site]). { unfold sorted_set. cbn [nodup]. destruct (in_dec string_dec site []) as [[]|]. reflexivity. }
  assert (GS : get_site proj site = Ok [(meas, (fs, Ok d))]) by (unfold get_site; rewrite HF; reflexivity).
  assert (SW : exists w, site_wins proj site (dp_fs p) = Ok w).
  { unfold site_wins. rewrite GS. cbn [bind]. unfold evals_metadata. cbn [flat_map fst snd]. rewrite HQ. cbn [app length Z.of_nat].
    change (Z.pos (Pos.of_succ_nat 0) =? 0) with false. cbv iota. apply mapM_total. intros l Hl. apply arange_in in Hl.
    apply c46_total; [lia|]. intros n md [K|[]]. injection K as <- <-. exact HL. }
  destruct SW as [w EW]. rewrite EN. cbn [mapM]. rewrite EW. cbn [bind length]. change (Z.of_nat 1 =? 0) with false. cbv iota. rewrite GS. cbn [bind]. eexists. reflexivity.
Qed.

Lemma find_view cfg proj s site ms : find (fun x : string * raw_site => String.eqb (fst x) site) proj = Some (site, ms) ->
  find (fun x => String.eqb (fst x) site) (view cfg proj s) =
  Some (site, map (fun m : string * (Q * res tdata) => (fst m, (fst (snd m), match store_get (site, fst m, cfg) s with Some d => Ok d | None => Err ReadError end))) ms).
Proof.
  unfold view. induction proj as [|[n x] proj IH]; [discriminate|]. cbn [find map fst snd]. destruct (String.eqb_spec n site) as [->|N]; [|exact IH].
  intros [= ->]. reflexivity.
Qed.

Lemma key_refl k : key_eqb k k = true.
Proof. unfold key_eqb. rewrite !String.eqb_refl. reflexivity. Qed.

(** the gathered data of the two runs *)
Lemma same_regression L c p (pr : Gather.project cq) site meas fs ed sfs : junk_rows L -> 1 <= ds_per_level (cf_dec c) ->
  dec_params_of L c sfs = Ok p -> Qeq_bool fs sfs = true ->
  find (fun x => String.eqb (fst x) site) pr = Some (site, [(meas, (fs, Ok ed))]) ->
  (0 < length (sm_chans (sd_md ed)))%nat -> has_channels (cf_tf c) (sm_chans (sd_md ed)) -> evaluated (length (sm_chans (sd_md ed))) p ed ->
  (sel <- selector_run pr [site] p ;; g <- project_gather (l_junk L) pr sel (cf_tf c) site None None ;; run_regression L c g) =
  (g <- quick_gather meas p (cf_tf c) ed ;; run_regression L c g).
Proof.
  intros HJ HP HD HQ HF HC (T1 & T2 & T3 & I1 & I2 & I3) EV.
  assert (Ep : dp_fs p = sfs /\ dp_per_level p = ds_per_level (cf_dec c)).
  { destruct (setup_run_inv _ _ _ _ _ _ HD) as (? & ? & _ & _ & _ & _ & ->). split; reflexivity. }
  destruct Ep as [Efs EP].
  assert (HP0 : 0 <= ds_per_level (cf_dec c)) by lia.
  destruct (evaluated_good _ _ _ _ _ _ _ _ HP0 HD eq_refl HC EV) as (GE & QS & LF).
  destruct EV as (R1 & R2 & R3).
  destruct (selector_single pr site meas fs ed p HF) as [s Hs]; [rewrite Efs; exact HQ|exact R1|].
  rewrite Hs. cbn [bind].
  destruct (c49 (l_junk L) pr site meas fs ed p s (cf_tf c) HJ Hs HF) as (g & q & Eg & Eq & SD & SF & _); try assumption; try lia; [rewrite Efs; exact HQ|].
  rewrite Eg, Eq. cbn [bind]. unfold run_regression. erewrite prepare_same; [reflexivity|exact SF|].
  intros k Hk.
  assert (LEN : Z.of_nat (length (cb_eval_freqs (g_out q))) = sm_n_levels (sd_md ed) * dp_per_level p).
  { destruct (quick_combined_ok meas p ed (tf_out (cf_tf c)) ltac:(lia) GE QS T1 I1) as (qo & Eo & _ & _ & EFq).
    assert (g_out q = qo). { unfold quick_gather in Eq. rewrite Eo in Eq. cbn [bind] in Eq. destruct (quick_combined _ _ _ (tf_in _)); [|discriminate]. cbn [bind] in Eq.
      destruct (quick_combined _ _ _ (tf_cross _)); [|discriminate]. cbn [bind] in Eq. injection Eq as <-. reflexivity. }
    subst qo. rewrite EFq. rewrite (concat_len (Z.to_nat (dp_per_level p))).
    - rewrite map_length. unfold levels_ok in R1. nia.
    - intros x Hx. apply in_map_iff in Hx. destruct Hx as (m & <- & Hm). apply In_nth_error in Hm. destruct Hm as [i Hi].
      assert (i < length (sm_levels (sd_md ed)))%nat by (apply nth_error_Some; congruence). unfold levels_ok in R1.
      assert (HL : level_eval_freqs p (Z.of_nat i) = Ok (sl_freqs m)) by (apply LF; [rewrite Nat2Z.id; exact Hi|lia]).
      pose proof (level_freqs_len _ _ _ _ _ _ _ _ HP0 HD HL). lia. }
  rewrite LEN in Hk. set (P := dp_per_level p) in *.
  assert (DM : k = P * (k / P) + k mod P /\ 0 <= k mod P < P) by (split; [apply Z.div_mod; lia|apply Z.mod_pos_bound; lia]).
  destruct DM as [DM MB]. assert (0 <= k / P < sm_n_levels (sd_md ed)). { split; [apply Z.div_pos; lia|apply Z.div_lt_upper_bound; [lia|rewrite Z.mul_comm; lia]]. }
  destruct (SD (k / P) (k mod P) ltac:(assumption) MB) as ((r1 & A1 & A2) & (r2 & B1 & B2) & (r3 & D1 & D2)).
  rewrite DM, A1, A2, B1, B2, D1, D2. auto.
Qed.

Theorem c67 : forall L c cal quick_cal proj site meas td s s' r,
  find (fun x : string * raw_site => String.eqb (fst x) site) proj = Some (site, [(meas, (fs (meta td), Ok td))]) ->
  processable L c td -> keeps_fs L c td -> same_calibration quick_cal cal -> junk_rows L ->
  process_time_to_evals L c cal (first_time (meta td)) proj site meas s = (s', r) ->
  match r with
  | Err e => quick_tf L c quick_cal meas td = Err e
  | Ok _ => process_evals_to_tf L c proj s' (fs (meta td)) site None None = quick_tf L c quick_cal meas td
  end.
Proof.
  intros L c cal qc proj site meas td s s' r HF HPr HK HCal HJ H.
  unfold process_time_to_evals in H.
  assert (EV : evals_of L c cal (first_time (meta td)) proj site meas =
    ('(_, ed) <- to_evals L c (first_time (meta td)) td ;; run_calibration L c cal ed)).
  { unfold evals_of, find_meas. rewrite HF. cbn [find fst snd]. rewrite String.eqb_refl. reflexivity. }
  rewrite EV in H. clear EV. unfold quick_tf.
  destruct (to_evals L c (first_time (meta td)) td) as [[p ed]|e] eqn:ET.
  2:{ cbn [bind] in H. injection H as <- <-. reflexivity. }
  cbn [bind] in H |- *.
  destruct (to_evals_evaluated _ _ _ _ _ _ HPr ET) as (td' & T1 & T2 & T3 & T4 & T5 & T6).
  pose proof (HK td' T1) as Efs.
  assert (HP : 1 <= ds_per_level (cf_dec c)) by (apply HPr).
  (* the data with calibration [ec]: the stored one *)
  assert (STORED : forall ec, run_calibration L c cal ed = Ok ec ->
    process_evals_to_tf L c proj (((site, meas, cf_name c), saved ec) :: s) (fs (meta td)) site None None =
    (g <- quick_gather meas p (cf_tf c) ec ;; run_regression L c g)).
  { intros ec Hec. destruct (calibrated_evaluated _ _ _ _ _ _ _ Hec T6) as [V1 V2].
    unfold process_evals_to_tf. rewrite <- Efs, T2. cbn [bind app].
    pose proof (find_view (cf_name c) proj (((site, meas, cf_name c), saved ec) :: s) site _ HF) as FV. cbn [map fst snd store_get] in FV. rewrite key_refl in FV.
    assert (EC : sm_chans (sd_md (saved ec)) = sm_chans (sd_md ed)) by exact V2.
    rewrite (same_regression L c p _ site meas (fs (meta td)) (saved ec) (fs (meta td'))); try assumption.
    - unfold saved. rewrite quick_gather_history. reflexivity.
    - rewrite Efs. apply Qeq_bool_iff. reflexivity.
    - rewrite EC, T3. lia.
    - rewrite EC, T3. exact T5.
    - rewrite EC. exact V1. }
  destruct HCal as [->|[-> HN]].
  - destruct (run_calibration L c cal ed) as [ec|e]; injection H as <- <-; [|reflexivity]. cbn [bind]. apply STORED. reflexivity.
  - cbn [bind].
    assert (CN : run_calibration L c cal ed = Ok (mkSpec (with_spec_history (sd_md ed) (sm_history (sd_md ed) ++ [COther "SensorCalibrator"])) (sd_data ed))).
    { destruct T6 as (_ & R2 & R3). apply calibrate_none; [exact HN|exact R2|]. destruct (R3 0 ltac:(lia)) as (m & y & _ & A & _). eauto. }
    rewrite CN in H. injection H as <- <-. rewrite (STORED _ CN), quick_gather_history. reflexivity.
Qed.
