(** C104: the transfer function with another calibration gain. *)
From Coq Require Import String.
From Verif Require Import Base.Prelude Base.Rounding Base.ListUtil Base.NdArray Base.Cplx Model.Sampling Model.Time Model.Decimate Model.Window Model.Spectra
  Model.Calibrate Model.Gather Model.Regression Model.Pipeline Spec.Calibrate Spec.Gather Spec.Regression Spec.Pipeline Spec.Linear Spec.Solvers Spec.Units Spec.Gain
  Proofs.TimeMeta Proofs.DecParams Proofs.DecFinal Proofs.Spectra Proofs.Calibrate Proofs.Gather Proofs.GatherQuick Proofs.Regression Proofs.RegressionFinal Proofs.RegressionQuick
  Proofs.PipelineShape Proofs.PipelineUse Proofs.PipelineFinal Proofs.Linear Proofs.UnitsFit Proofs.Units Proofs.UnitsTf Proofs.UnitsRun Proofs.UnitsCal Proofs.UnitsCalRun Proofs.GainCal.
Open Scope list_scope. Open Scope Q_scope.

Lemma row_one s : (forall q, In q s -> q == 1) -> forall row row', cols s row row' -> Forall2 Qeq row row'.
Proof.
  induction s as [|q s IH]; intros H row row' [L F]; [destruct row; [inversion F; constructor|discriminate]|]. destruct row as [|x row]; [discriminate|]. cbn [combine] in F. inversion F as [|? y ? row2 E F']; subst.
  constructor; [cbn in E; rewrite E, (H q (or_introl eq_refl)); ring|]. apply IH; [intros p Hp; apply H; right; exact Hp|]. split; [cbn in L; lia|exact F'].
Qed.
Lemma cols_one s P P' : (forall q, In q s -> q == 1) -> Forall2 (cols s) P P' -> Forall2 (Forall2 Qeq) P P'.
Proof. intros H F. induction F as [|r r' P P' E F IH]; [constructor|]; constructor; [exact (row_one s H _ _ E)|exact IH]. Qed.
Lemma times_one c b b' : c == 1 -> times_c c b b' -> Forall2 Qeq b b'.
Proof. intros H F. induction F as [|x y b b' E F IH]; [constructor|]; constructor; [rewrite E, H; ring|exact IH]. Qed.
Lemma ones_coefs s c x x' : (forall q, In q s -> q == 1) -> c == 1 -> Forall2 Qeq x x' -> (length x <= length s)%nat -> Forall2 (fun qx y => fst qx * y == c * snd qx) (combine s x) x'.
Proof.
  intros H Hc F. revert s H. induction F as [|a b x x' E F IH]; intros s H L; [destruct s; constructor|]. destruct s as [|q s]; cbn in L; [lia|]. cbn [combine]. constructor; [cbn; rewrite Hc, (H q (or_introl eq_refl)), E; reflexivity|].
  apply IH; [intros p Hp; apply H; right; exact Hp|lia].
Qed.
(** a fit without preference for units does not see how the numbers are written *)
Lemma unit_free_respects fit : unit_free fit -> respects fit.
Proof.
  intros U n P P' b b' x x' W EP EB F F'. assert (N1 : forall q, In q (repeat 1 n) -> ~ q == 0) by (intros q Hq; apply repeat_spec in Hq; subst q; discriminate).
  assert (R : forall r r', length r = n -> Forall2 Qeq r r' -> length r = length (repeat 1 n) /\ Forall2 (fun qx y => y == fst qx * snd qx) (combine (repeat 1 n) r) r').
  { intros r r' <- FR. split; [symmetry; apply repeat_length|]. clear -FR. induction FR as [|u v r r' E FR IH]; cbn [length repeat combine]; [constructor|]. constructor; [cbn; rewrite E; ring|exact IH]. }
  assert (CC : Forall2 (fun row row' => length row = length (repeat 1 n) /\ Forall2 (fun qx y => y == fst qx * snd qx) (combine (repeat 1 n) row) row') P P').
  { clear F F'. induction EP as [|r r' P P' E EP IH]; [constructor|]. constructor; [apply R; [apply W; left; reflexivity|exact E]|apply IH; intros row Hr; apply W; right; exact Hr]. }
  assert (CC' : Forall2 (fun row row' => length row = length (repeat 1 n) /\ Forall2 (fun qx y => y == fst qx * snd qx) (combine (repeat 1 n) row) row') P P).
  { clear -R W. induction P as [|r P IH]; [constructor|]. constructor; [apply R; [apply W; left; reflexivity|]|apply IH; intros row Hr; apply W; right; exact Hr]. clear. induction r as [|u r IH]; [constructor|]. constructor; [reflexivity|exact IH]. }
  assert (TC : times_c 1 b b') by (clear -EB; induction EB as [|u v b b' E EB IH]; [constructor|]; constructor; [rewrite E; ring|exact IH]).
  assert (TC' : times_c 1 b b) by (clear; induction b as [|u b IH]; [constructor|]; constructor; [ring|exact IH]).
  pose proof (U (repeat 1 n) 1 _ _ _ _ _ _ N1 ltac:(discriminate) CC TC F F') as H. pose proof (U (repeat 1 n) 1 _ _ _ _ _ _ N1 ltac:(discriminate) CC' TC' F F) as H'.
  assert (LX : (length x <= n)%nat) by (pose proof (Forall2_length' _ _ _ H') as E; rewrite combine_length, repeat_length in E; lia). split; [exact LX|].
  clear -H LX. revert n H LX. induction x as [|u x IH] in x' |- *; intros n H LX; [destruct n; inversion H; constructor|]. destruct n as [|n]; cbn in LX; [lia|]. cbn [repeat combine] in H. inversion H as [|? v ? x2 E H']; subst. constructor; [cbn in E; rewrite <- (Qmult_1_l u), <- E; ring|].
  apply (IH x2 n); [exact H'|lia].
Qed.
Lemma cols_width s P P' : Forall2 (cols s) P P' -> forall row, In row P -> length row = length s.
Proof. intros F row Hr. induction F as [|r r' P P' [E _] F IH]; [destruct Hr|]. destruct Hr as [<-|Hr]; auto. Qed.
Lemma inv_nonzero q : ~ q == 0 -> ~ / q == 0.
Proof. intros H E. apply H. rewrite <- (Qinv_involutive q), E. reflexivity. Qed.
Lemma Forall2_imp {A B} (R S : A -> B -> Prop) l l' : (forall x y, R x y -> S x y) -> Forall2 R l l' -> Forall2 S l l'.
Proof. intros H F. induction F as [|x y l l' E F IH]; [constructor|]. constructor; [apply H; exact E|exact IH]. Qed.
Section Finish.
  Variables (L : library) (c : config) (k : chan -> Q) (kx : Q).
  Hypothesis HM : l_cmul L = ctimes.
  Hypothesis HJ : junk_shape (l_junk1 L) (l_junk2 L).
  Let tf := cf_tf c.
  Hypotheses (ND1 : NoDup (tf_out tf)) (ND2 : NoDup (tf_in tf)) (KD : keys_distinct tf).
  Hypothesis KX : forall x, In x (tf_cross tf) -> k x == kx.
  Hypothesis K0 : ~ kx == 0.
  Hypothesis KI : forall x, In x (tf_in tf) -> ~ k x == 0.
  Hypothesis KO : forall x, In x (tf_out tf) -> ~ k x == 0.
  Lemma finish_units name sfs p ea eb sa sb : dec_params_of L c sfs = Ok p -> (1 <= ds_per_level (cf_dec c))%Z ->
    evaluated (length (sm_chans (sd_md ea))) p ea -> evaluated (length (sm_chans (sd_md eb))) p eb -> has_channels tf (sm_chans (sd_md ea)) -> has_channels tf (sm_chans (sd_md eb)) ->
    sm_levels (sd_md eb) = sm_levels (sd_md ea) ->
    (forall cs level w f ra rb, (0 <= level < sm_n_levels (sd_md ea))%Z -> window_row ea cs level w f ra -> window_row eb cs level w f rb -> Forall2 (fun cx y => ceq y (cscale (k (fst cx)) (snd cx))) (combine cs ra) rb) ->
    (unit_free (l_fit L) \/ (minimises (l_fit L) /\ forall level f, (0 <= level < sm_n_levels (sd_md ea))%Z -> (0 <= f < dp_per_level p)%Z -> evals_determine ea tf level f) \/
      (respects (l_fit L) /\ (forall x, k x == 1) /\ kx == 1)) ->
    (g <- quick_gather name p (cf_tf c) ea ;; run_regression L c g) = Ok sa -> (g <- quick_gather name p (cf_tf c) eb ;; run_regression L c g) = Ok sb ->
    so_freqs sb = so_freqs sa /\ forall i, (i < length (so_freqs sa))%nat -> exists ta tb, sol_tensor sa (Z.of_nat i) = Ok ta /\ sol_tensor sb (Z.of_nat i) = Ok tb /\ tensor_in_units k tf ta tb.
  Proof.
    intros DA PL EVA EVB HCA HCB LEVELS RU FIT QA QB.
    destruct (gathered_rows L c name _ p ea HCA DA PL EVA) as (ga & GA & FA & GGA & DATA). destruct (gathered_rows L c name _ p eb HCB DA PL EVB) as (gb & GB & FB & GGB & DATB).
    rewrite GA in QA. rewrite GB in QB. cbn [bind] in QA, QB. unfold run_regression in QA, QB. rewrite HM in QA, QB. apply bind_ok in QA. destruct QA as (ra & PRA & SA). apply bind_ok in QB. destruct QB as (rb & PRB & SB).
    assert (EF : cb_eval_freqs (g_out gb) = cb_eval_freqs (g_out ga)).
    { rewrite FA, FB, LEVELS. reflexivity. }
    refine (regress_units _ _ _ k kx tf HJ KX K0 KI ND1 ND2 KD ga gb ra rb sa sb GGA GGB EF PRA PRB SA SB _).
    intros i outs ins crosses outs' ins' crosses' Hi FDA FDB. destruct (DATA i Hi) as (lv & f & outs2 & ins2 & crosses2 & El & Ef & Bl & Bf & FD2 & A1 & A2 & A3 & DET).
    destruct (DATB i ltac:(rewrite EF; exact Hi)) as (lv' & f' & outs2' & ins2' & crosses2' & El' & Ef' & Bl' & Bf' & FD2' & B1 & B2 & B3 & _). assert (lv' = lv) as -> by congruence. assert (f' = f) as -> by congruence.
    assert (outs2 = outs /\ ins2 = ins /\ crosses2 = crosses) as (-> & -> & ->) by (destruct FDA as (X1 & X2 & X3), FD2 as (Y1 & Y2 & Y3); split; [congruence|split; congruence]).
    assert (outs2' = outs' /\ ins2' = ins' /\ crosses2' = crosses') as (-> & -> & ->) by (destruct FDB as (X1 & X2 & X3), FD2' as (Y1 & Y2 & Y3); split; [congruence|split; congruence]).
    clear FD2 FD2' El' Ef' Bl' Bf'. 
    assert (UR : forall cs rows rows', all_rows ea cs lv f rows -> all_rows eb cs lv f rows' -> urows k cs rows rows').
    { intros cs rows rows' A B. pose proof (rows_wide' _ _ _ _ _ A) as W. destruct A as (m & M1 & M2 & M3), B as (m' & M1' & M2' & M3'). assert (m' = m) as -> by congruence. split; [lia|]. split; [exact W|].
      intros w r r' Hr Hr'. exact (RU cs lv (Z.of_nat w) f r r' Bl (M3 w r Hr) (M3' w r' Hr')). }
    split; [exact (UR _ _ _ A1 B1)|]. split; [exact (UR _ _ _ A2 B2)|]. split; [exact (UR _ _ _ A3 B3)|]. intros o oc x x' Ho Pm Pm' bm bm' CC TC LB Fx Fx'.
    assert (NZ : forall q, In q (dup (qs k kx tf)) -> ~ q == 0).
    { intros q Hq. apply dup_in in Hq. unfold qs in Hq. apply in_map_iff in Hq. destruct Hq as (ic & <- & Hic). intros E. apply Qmult_integral in E. destruct E as [E|E]; [exact (KI ic Hic E)|exact (K0 E)]. }
    assert (ONES : (forall x, k x == 1) /\ kx == 1 -> forall q, In q (dup (qs k kx tf)) -> q == 1).
    { intros [O1 O2] q Hq. apply dup_in in Hq. unfold qs in Hq. apply in_map_iff in Hq. destruct Hq as (ic & <- & Hic). rewrite O1, O2. reflexivity. }
    assert (ONEC : (forall x, k x == 1) /\ kx == 1 -> k oc * kx == 1) by (intros [O1 O2]; rewrite O1, O2; reflexivity).
    assert (NC : ~ k oc * kx == 0) by (intros E; apply Qmult_integral in E; destruct E as [E|E]; [exact (KO oc (nth_error_In _ _ Ho) E)|exact (K0 E)]).
    destruct FIT as [UF|[[MF HD]|[RF ONE]]]; [exact (UF _ _ _ _ _ _ _ _ NZ NC CC TC Fx Fx')| |].
    2:{ destruct (RF _ _ _ _ _ _ _ (cols_width _ _ _ CC) (cols_one _ _ _ (ONES ONE) CC) (times_one _ _ _ (ONEC ONE) TC) Fx Fx') as [LX EX]. exact (ones_coefs _ _ _ _ (ONES ONE) (ONEC ONE) EX LX). }
    assert (LW : length ins = length crosses) by (destruct A2 as (m & M1 & M2 & _), A3 as (m' & M1' & M2' & _); assert (m' = m) as -> by congruence; lia).
    assert (LQ : length (dup (qs k kx tf)) = (2 * length (tf_in tf))%nat) by (rewrite dup_length; unfold qs; rewrite map_length; reflexivity).
    refine (minimises_units _ _ _ _ _ _ _ _ _ MF _ NZ NC CC TC LB _ Fx Fx').
    - intros E. rewrite E in LQ. destruct HCA as (_ & C2 & _). fold tf in C2. destruct (tf_in tf); [congruence|cbn in LQ; lia].
    - rewrite LQ. exact (determined_injective _ _ _ LW (rows_wide' _ _ _ _ _ A2) (DET (HD _ _ Bl Bf))).
  Qed.
End Finish.

Open Scope Z_scope.
Section Rows.
  Variables (cis : Q -> cq) (cdiv : cq -> cq -> cq).
  Hypothesis DG : divides_gain cdiv.
  Lemma gains_gained g sel ra rb c : gains g sel ra rb -> is_selected sel c -> gained g ra rb c.
  Proof.
    intros H S. destruct (H c) as (G0 & [(cal & cal' & _ & A & B & W)|(G1 & [N|[A B]])]); (split; [exact G0|]).
    - left. exists cal, cal'. split; [apply get_cal_some; exact A|]. split; [apply get_cal_some; exact B|exact W].
    - contradiction.
    - right. split; [exact G1|]. split; apply get_cal_none; assumption.
  Qed.
  Lemma gained_rows g k sel ra rb p a b a' b' : let C := length (sm_chans (sd_md a)) in evaluated C p a -> evaluated C p b ->
    sm_levels (sd_md b) = sm_levels (sd_md a) -> sm_n_levels (sd_md b) = sm_n_levels (sd_md a) -> sm_chans (sd_md b) = sm_chans (sd_md a) -> NoDup (sm_chans (sd_md a)) -> (forall l, sel = Some l -> NoDup l) ->
    gains g sel ra rb -> (forall l x y, 0 <= l < sm_n_levels (sd_md a) -> sd_at a l = Ok (nd3 x) -> sd_at b l = Ok (nd3 y) -> rel3 (ru (unit_at k (sm_chans (sd_md a)))) x y) ->
    calibrator_run cis cdiv ra sel a = Ok a' -> calibrator_run cis cdiv rb sel b = Ok b' ->
    sm_levels (sd_md a') = sm_levels (sd_md a) /\ sm_n_levels (sd_md a') = sm_n_levels (sd_md a) /\ sm_chans (sd_md a') = sm_chans (sd_md a) /\
    sm_levels (sd_md b') = sm_levels (sd_md a) /\ sm_n_levels (sd_md b') = sm_n_levels (sd_md a) /\ sm_chans (sd_md b') = sm_chans (sd_md a) /\
    forall cs level w f x y, 0 <= level < sm_n_levels (sd_md a) -> window_row a' cs level w f x -> window_row b' cs level w f y -> Forall2 (fun cx y => ceq y (cscale (k (fst cx) / g (fst cx))%Q (snd cx))) (combine cs x) y.
  Proof.
    intros C EA EB S2 S1 S3 NM NS GS BASE A B. unfold calibrator_run in A, B. apply bind_ok in A. destruct A as (da & A1 & A). apply bind_ok in B. destruct B as (db & B1 & B). apply make_spec_ok in A. apply make_spec_ok in B. subst a' b'.
    cbn [sd_md with_spec_history sm_n_levels sm_levels sm_chans]. do 3 (split; [reflexivity|]). split; [exact S2|]. split; [exact S1|]. split; [exact S3|].
    rewrite S3, (calibrate_chans_md _ _ _ _ _ _ S2 S1 S3) in B1.
    assert (LV : forall d, evaluated C p d -> sm_levels (sd_md d) = sm_levels (sd_md a) -> sm_n_levels (sd_md d) = sm_n_levels (sd_md a) -> level_arrays (sd_md a) C (sd_data d)).
    { intros d (_ & _ & R3) E1 E2 j Hj. destruct (R3 j ltac:(lia)) as (m & y & Q1 & Q2 & Q3 & Q4 & Q5 & _). exists m, y. split; [congruence|]. split; [exact Q2|]. split; [exact Q3|]. split; assumption. }
    assert (D : krel (sd_md a) C (fun _ => unit_at k (sm_chans (sd_md a))) (sd_data a) (sd_data b)).
    { split; [exact (LV a EA eq_refl eq_refl)|]. split; [exact (LV b EB S2 S1)|]. intros l x y Hl X Y. exact (BASE l x y Hl X Y). }
    assert (CS : NoDup (get_cal_chans sel (sm_chans (sd_md a))) /\ forall c, In c (sm_chans (sd_md a)) -> (In c (get_cal_chans sel (sm_chans (sd_md a))) <-> is_selected sel c)).
    { destruct sel as [l|]; cbn [get_cal_chans is_selected]; [|split; [exact NM|tauto]]. split; [apply NoDup_filter; exact (NS l eq_refl)|]. intros c Hc. rewrite filter_In. split; [tauto|]. intros Hl. split; [exact Hl|]. unfold chan_in. apply existsb_exists. exists c. split; [exact Hc|apply String.eqb_refl]. }
    destruct CS as [CS1 CS2].
    assert (CS3 : forall c, In c (get_cal_chans sel (sm_chans (sd_md a))) -> is_selected sel c).
    { intros c Hc. destruct sel as [l|]; cbn [get_cal_chans is_selected] in *; [|exact I]. apply filter_In in Hc. tauto. }
    destruct (chans_gain cis cdiv DG _ g ra rb _ CS1 NM (fun c Hc => gains_gained g sel ra rb c GS (CS3 c Hc)) _ _ _ _ _ A1 B1 D) as (ks' & (_ & _ & K) & KS).
    intros cs level w f ra' rb' Hl (x & X & FA) (y & Y & FB). cbn [sd_md with_spec_history sm_chans] in FA, FB. rewrite S3 in FB. specialize (K level x y Hl X Y). clear X Y. revert rb' FB.
    induction FA as [|ch z cs ra' (i & I1 & I2 & I3) FA IH]; intros rb' FB; inversion FB as [|? z' ? rb2 (j & J1 & J2 & J3) FB']; subst; [constructor|]. cbn [combine].
    constructor; [|apply IH; exact FB']. cbn [fst snd]. assert (j = i) as -> by exact (nodup_index _ _ _ _ NM J1 I1). specialize (K (Z.to_nat w) i (Z.to_nat f)). rewrite I3, J3 in K. unfold ru in K.
    destruct (KS i ch I1) as [Y1 N1]. assert (E : (ks' i == k ch / g ch)%Q).
    { destruct (in_dec string_dec ch (get_cal_chans sel (sm_chans (sd_md a)))) as [IN|NI].
      - rewrite (Y1 IN). unfold unit_at. rewrite I1. reflexivity.
      - rewrite (N1 NI). unfold unit_at. rewrite I1. destruct (GS ch) as (G0 & [(cal & cal' & SEL & _)|(G1 & [N|[NA NB]])]).
        + exfalso. apply NI. apply CS2; [exact (nth_error_In _ _ I1)|exact SEL].
        + rewrite G1. field.
        + rewrite G1. field. }
    destruct K as [K1 K2]. split; cbn [cscale re im] in *; rewrite <- E; assumption.
  Qed.
End Rows.
Open Scope Q_scope.
Section Whole.
  Variables (L : library) (c : config) (g : chan -> Q) (ra rb : list (chan -> res cal_data)).
  Hypothesis HM : l_cmul L = ctimes.
  Hypothesis HJ : junk_shape (l_junk1 L) (l_junk2 L).
  Hypothesis DG : divides_gain (l_cdiv L).
  Let tf := cf_tf c.
  Hypotheses (ND1 : NoDup (tf_out tf)) (ND2 : NoDup (tf_in tf)) (KD : keys_distinct tf).
  Hypothesis NS : forall l, cf_cal_chans c = Some l -> NoDup l.
  Hypothesis GS : gains g (cf_cal_chans c) ra rb.
  (** the same recording, calibrated with other gains *)
  Lemma run_gain gx name td p e0 ea sa sb : NoDup (chans (meta td)) -> processable L c td -> (forall x, In x (tf_cross tf) -> g x == gx) -> ~ gx == 0 ->
    to_evals L c (first_time (meta td)) td = Ok (p, e0) -> run_calibration L c ra e0 = Ok ea ->
    unit_free (l_fit L) \/ (minimises (l_fit L) /\ forall level f, (0 <= level < sm_n_levels (sd_md ea))%Z -> (0 <= f < dp_per_level p)%Z -> evals_determine ea tf level f) ->
    quick_tf L c (Some ra) name td = Ok sa -> quick_tf L c (Some rb) name td = Ok sb ->
    so_freqs sb = so_freqs sa /\ forall i, (i < length (so_freqs sa))%nat -> exists ta tb, sol_tensor sa (Z.of_nat i) = Ok ta /\ sol_tensor sb (Z.of_nat i) = Ok tb /\ tensor_in_units (fun x => / g x) tf ta tb.
  Proof.
    intros NC PA GX G0 EA CA FIT QA QB. unfold quick_tf in QA, QB. rewrite EA in QA, QB. cbn [bind] in QA, QB. rewrite CA in QA. cbn [bind] in QA. apply bind_ok in QB. destruct QB as (eb & CB & QB).
    destruct (to_evals_evaluated _ _ _ _ _ _ PA EA) as (a' & RA & DA & CHA & _ & HCA & EV). assert (PL : (1 <= ds_per_level (cf_dec c))%Z) by exact (proj1 (proj2 (proj2 PA))).
    assert (NM : NoDup (sm_chans (sd_md e0))) by (rewrite CHA, (run_all_chans _ _ _ _ _ _ RA); exact NC).
    destruct (calibrated_evaluated _ _ _ _ _ _ _ CA EV) as [VA _]. destruct (calibrated_evaluated _ _ _ _ _ _ _ CB EV) as [VB _].
    assert (BASE : forall l x y, (0 <= l < sm_n_levels (sd_md e0))%Z -> sd_at e0 l = Ok (nd3 x) -> sd_at e0 l = Ok (nd3 y) -> rel3 (ru (unit_at (fun _ => 1) (sm_chans (sd_md e0)))) x y).
    { intros l x y _ X Y. assert (x = y) as -> by (apply nd3_inj; congruence). intros w i f. destruct (coef y w i f) as [[u v]|]; [|exact I]. unfold ru, unit_at. destruct (nth_error (sm_chans (sd_md e0)) i); split; cbn; ring. }
    destruct (gained_rows _ _ DG g (fun _ => 1) _ _ _ _ _ _ _ _ EV EV eq_refl eq_refl eq_refl NM NS GS BASE CA CB) as (T1 & T2 & T3 & T4 & T5 & T6 & RU).
    rewrite <- T3 in VA. rewrite <- T6 in VB.
    refine (finish_units L c (fun x => / g x) (/ gx) HM HJ ND1 ND2 KD _ _ _ _ name _ p ea eb sa sb DA PL VA VB _ _ _ _ _ QA QB).
    - intros x Hx. rewrite (GX x Hx). reflexivity.
    - apply inv_nonzero. exact G0.
    - intros x _. apply inv_nonzero. exact (proj1 (GS x)).
    - intros x _. apply inv_nonzero. exact (proj1 (GS x)).
    - rewrite T3, CHA. exact HCA.
    - rewrite T6, CHA. exact HCA.
    - congruence.
    - intros cs level w f x y Hl X Y. rewrite T2 in Hl. pose proof (RU cs level w f x y Hl X Y) as R. revert R. apply Forall2_imp. intros [ch u] v [R1 R2]. cbn [fst snd] in *. split; cbn [cscale re im] in *; [rewrite R1|rewrite R2]; unfold Qdiv; ring.
    - destruct FIT as [F|F]; [left; exact F|right; left; exact F].
  Qed.
  (** the recording in other units with the calibration in the same units *)
  Lemma run_same_units name a b p e0 ea sa sb : linear_library L -> (forall b k l, linear_routine (o_filter (l_orc L) b k l)) -> (forall x, l_drnd L x == x) -> Forall unit_proc (cf_time c) ->
    in_units g a b -> processable L c a -> processable L c b -> to_evals L c (first_time (meta a)) a = Ok (p, e0) -> run_calibration L c ra e0 = Ok ea ->
    respects (l_fit L) \/ (minimises (l_fit L) /\ forall level f, (0 <= level < sm_n_levels (sd_md ea))%Z -> (0 <= f < dp_per_level p)%Z -> evals_determine ea tf level f) ->
    quick_tf L c (Some ra) name a = Ok sa -> quick_tf L c (Some rb) name b = Ok sb ->
    so_freqs sb = so_freqs sa /\ forall i, (i < length (so_freqs sa))%nat -> exists ta tb, sol_tensor sa (Z.of_nat i) = Ok ta /\ sol_tensor sb (Z.of_nat i) = Ok tb /\ tensor_in_units (fun _ => 1) tf ta tb.
  Proof.
    intros HL HF ED HU U PA PB EA CA FIT QA QB. unfold quick_tf in QA, QB. rewrite EA in QA. cbn [bind] in QA. apply bind_ok in QB. destruct QB as ([pb f0] & EB & QB). cbn [bind] in QB.
    pose proof U as (_ & _ & FT & _). rewrite FT in EB. destruct (evals_units L c g HL HF ED HU _ _ _ _ _ _ _ U PA PB EA EB) as (-> & NM & ST).
    destruct (to_evals_evaluated _ _ _ _ _ _ PA EA) as (a' & RA & DA & CHA & _ & HCA & EVA). destruct (to_evals_evaluated _ _ _ _ _ _ PB EB) as (b' & RB & DB & CHB & _ & HCB & EVB).
    assert (PL : (1 <= ds_per_level (cf_dec c))%Z) by exact (proj1 (proj2 (proj2 PA))). rewrite CA in QA. cbn [bind] in QA. apply bind_ok in QB. destruct QB as (eb & CB & QB).
    pose proof ST as (SN & SL & SC & _). rewrite SC in EVB.
    assert (BASE : forall l x y, (0 <= l < sm_n_levels (sd_md e0))%Z -> sd_at e0 l = Ok (nd3 x) -> sd_at f0 l = Ok (nd3 y) -> rel3 (ru (unit_at g (sm_chans (sd_md e0)))) x y) by (intros l x y Hl X Y; exact (evaluated_rel _ _ _ _ _ _ _ _ EVA EVB ST Hl X Y)).
    destruct (gained_rows _ _ DG g g _ _ _ _ _ _ _ _ EVA EVB SL SN SC NM NS GS BASE CA CB) as (T1 & T2 & T3 & T4 & T5 & T6 & RU).
    destruct (calibrated_evaluated _ _ _ _ _ _ _ CA EVA) as [VA _]. rewrite <- SC in EVB. destruct (calibrated_evaluated _ _ _ _ _ _ _ CB EVB) as [VB _]. rewrite SC in VB.
    rewrite <- T3 in VA. rewrite <- T6 in VB.
    refine (finish_units L c (fun _ => 1) 1 HM HJ ND1 ND2 KD _ _ _ _ name _ p ea eb sa sb DA PL VA VB _ _ _ _ _ QA QB).
    - reflexivity.
    - discriminate.
    - discriminate.
    - discriminate.
    - rewrite T3, CHA. exact HCA.
    - rewrite T6, CHA. exact HCA.
    - congruence.
    - intros cs level w f x y Hl X Y. rewrite T2 in Hl. pose proof (RU cs level w f x y Hl X Y) as R. revert R. apply Forall2_imp. intros [ch u] v [R1 R2]. cbn [fst snd] in *. pose proof (proj1 (GS ch)) as G0. split; cbn [cscale re im] in *; [rewrite R1|rewrite R2]; field; exact G0.
    - destruct FIT as [F|F]; [right; right; split; [exact F|split; reflexivity]|right; left; exact F].
  Qed.
End Whole.
Lemma units_one_same tf ta tb : tensor_in_units (fun _ => 1) tf ta tb -> same_tensor tf ta tb.
Proof. intros T o i oc ic Ho Hi. destruct (T o i oc ic Ho Hi) as (za & zb & A & B & [E1 E2]). exists za, zb. split; [exact A|]. split; [exact B|]. split; cbn in *; [rewrite E1|rewrite E2]; field. Qed.
