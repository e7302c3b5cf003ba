(** C100: a calibrated run in other units. *)
From Coq Require Import String.
From Verif Require Import Base.Prelude Base.Rounding Base.ListUtil Base.NdArray Base.Cplx Model.Sampling Model.Time Model.Decimate Model.Window Model.Spectra
  Model.Calibrate Model.Gather Model.Regression Model.Pipeline Spec.Calibrate Spec.Gather Spec.Regression Spec.Pipeline Spec.Linear Spec.Solvers Spec.Units
  Proofs.TimeMeta Proofs.DecParams Proofs.DecFinal Proofs.Spectra Proofs.Calibrate Proofs.Gather Proofs.GatherQuick Proofs.Regression Proofs.RegressionFinal Proofs.RegressionQuick
  Proofs.PipelineShape Proofs.PipelineFinal Proofs.Linear Proofs.UnitsFit Proofs.Units Proofs.UnitsTf Proofs.UnitsRun Proofs.UnitsCal.
Open Scope list_scope. Open Scope Z_scope.

(** only the channels and the levels matter to the calibration *)
Lemma calibrate_levels_md cis cdiv ma mb idx cal ls : sm_levels mb = sm_levels ma -> forall d, calibrate_levels cis cdiv mb idx cal ls d = calibrate_levels cis cdiv ma idx cal ls d.
Proof. intros E. induction ls as [|l ls IH]; intros d; [reflexivity|]. cbn [calibrate_levels]. rewrite E. destruct (py_nth _ l) as [m|]; [|reflexivity]. cbn [bind]. destruct (dict_get l d) as [x|]; [|reflexivity]. cbn [bind]. destruct (calibrate_level _ _ _ _ _ _) as [y|]; [|reflexivity]. cbn [bind]. apply IH. Qed.
Lemma calibrate_chans_md cis cdiv ma mb readers cs : sm_levels mb = sm_levels ma -> sm_n_levels mb = sm_n_levels ma -> sm_chans mb = sm_chans ma -> forall d, calibrate_chans cis cdiv mb readers cs d = calibrate_chans cis cdiv ma readers cs d.
Proof.
  intros E1 E2 E3. induction cs as [|c cs IH]; intros d; [reflexivity|]. cbn [calibrate_chans]. rewrite E2, E3. destruct (get_cal_data readers c) as [cal|]; [|apply IH]. destruct (first_index c _) as [i|]; [|reflexivity].
  rewrite (calibrate_levels_md _ _ _ _ _ _ _ E1). destruct (calibrate_levels _ _ _ _ _ _ _) as [x|]; [|reflexivity]. cbn [bind]. apply IH.
Qed.
Section Calibrated.
  Variables (cis : Q -> cq) (cdiv : cq -> cq -> cq) (ks : nat -> Q).
  Hypothesis DU : divides_units cdiv.
  Definition ru (i : nat) (e e' : cq) : Prop := ceq e' (cscale (ks i) e).
  Lemma evaluated_rel C p a b l x y : evaluated C p a -> evaluated C p b -> sst ks a b -> 0 <= l < sm_n_levels (sd_md a) -> sd_at a l = Ok (nd3 x) -> sd_at b l = Ok (nd3 y) -> rel3 ru x y.
  Proof.
    intros (_ & _ & EA) (_ & _ & EB) S Hl X Y. pose proof S as (S1 & S2 & _). destruct (EA l Hl) as (m & x' & A1 & A2 & A3 & _ & A5 & _). destruct (EB l ltac:(lia)) as (m' & y' & B1 & B2 & B3 & _ & B5 & _).
    assert (m' = m) as -> by congruence. assert (x' = x) as -> by (apply nd3_inj; congruence). assert (y' = y) as -> by (apply nd3_inj; congruence).
    pose proof (at_rel _ _ _ _ _ _ S X Y) as V. intros w i f. unfold coef. specialize (V w i). rewrite !nd_vec_nd3 in V.
    destruct (nth_error x w) as [wx|] eqn:Ex, (nth_error y w) as [wy|] eqn:Ey; try exact I.
    2:{ apply nth_error_None in Ey. assert (w < length x)%nat by (apply nth_error_Some; congruence). lia. }
    2:{ apply nth_error_None in Ex. assert (w < length y)%nat by (apply nth_error_Some; congruence). lia. }
    destruct (A5 _ (nth_error_In _ _ Ex)) as [L1 F1]. destruct (B5 _ (nth_error_In _ _ Ey)) as [L2 F2].
    destruct (nth_error wx i) as [u|] eqn:Eu, (nth_error wy i) as [v|] eqn:Ev; try exact I.
    2:{ apply nth_error_None in Ev. assert (i < length wx)%nat by (apply nth_error_Some; congruence). lia. }
    2:{ apply nth_error_None in Eu. assert (i < length wy)%nat by (apply nth_error_Some; congruence). lia. }
    specialize (V u v eq_refl eq_refl). pose proof (F1 _ (nth_error_In _ _ Eu)) as G1. pose proof (F2 _ (nth_error_In _ _ Ev)) as G2.
    destruct (nth_error u f) as [e|] eqn:Ee, (nth_error v f) as [e'|] eqn:Ee'; try exact I.
    - destruct (Forall2_nth_error _ _ _ _ _ V Ee) as (z & E & R). assert (z = e') as -> by congruence. exact R.
    - apply nth_error_None in Ee'. assert (f < length u)%nat by (apply nth_error_Some; congruence). lia.
    - apply nth_error_None in Ee. assert (f < length v)%nat by (apply nth_error_Some; congruence). lia.
  Qed.
  Lemma calibrated_rel readers sel p a b a' b' : let C := length (sm_chans (sd_md a)) in evaluated C p a -> evaluated C p b -> sst ks a b -> calibrator_run cis cdiv readers sel a = Ok a' -> calibrator_run cis cdiv readers sel b = Ok b' ->
    sm_levels (sd_md a') = sm_levels (sd_md a) /\ sm_n_levels (sd_md a') = sm_n_levels (sd_md a) /\ sm_chans (sd_md a') = sm_chans (sd_md a) /\ sm_levels (sd_md b') = sm_levels (sd_md a) /\ sm_n_levels (sd_md b') = sm_n_levels (sd_md a) /\ sm_chans (sd_md b') = sm_chans (sd_md a) /\ forall l x y, 0 <= l < sm_n_levels (sd_md a) -> sd_at a' l = Ok (nd3 x) -> sd_at b' l = Ok (nd3 y) -> rel3 ru x y.
  Proof.
    intros C EA EB S A B. pose proof S as (S1 & S2 & S3 & _). unfold calibrator_run in A, B. apply bind_ok in A. destruct A as (da & A1 & A). apply bind_ok in B. destruct B as (db & B1 & B). apply make_spec_ok in A. apply make_spec_ok in B. subst a' b'.
    cbn [sd_md with_spec_history sm_n_levels sm_levels sm_chans]. do 3 (split; [reflexivity|]). split; [exact S2|]. split; [exact S1|]. split; [exact S3|].
    rewrite S3, (calibrate_chans_md _ _ _ _ _ _ S2 S1 S3) in B1.
    assert (LV : forall d, evaluated C p d -> sm_levels (sd_md d) = sm_levels (sd_md a) -> sm_n_levels (sd_md d) = sm_n_levels (sd_md a) -> level_arrays (sd_md a) C (sd_data d)).
    { intros d (_ & _ & R3) E1 E2 j Hj. destruct (R3 j ltac:(lia)) as (m & y & Q1 & Q2 & Q3 & Q4 & Q5 & _). exists m, y. split; [congruence|]. split; [exact Q2|]. split; [exact Q3|]. split; assumption. }
    assert (D : drel ru (sd_md a) C (sd_data a) (sd_data b)).
    { split; [exact (LV a EA eq_refl eq_refl)|]. split; [exact (LV b EB S2 S1)|]. intros l x y Hl X Y. exact (evaluated_rel _ _ _ _ _ _ _ EA EB S Hl X Y). }
    destruct (chans_rel cis cdiv ru (fun i e e' t H => DU _ _ _ _ H) _ _ _ _ _ _ _ A1 B1 D) as (_ & _ & K). intros l x y Hl X Y. exact (K l x y Hl X Y).
  Qed.
End Calibrated.

Section Run.
  Variables (L : library) (c : config) (k : chan -> Q) (kx : Q).
  Hypothesis HL : linear_library L.
  Hypothesis HF : forall b k l, linear_routine (o_filter (l_orc L) b k l).
  Hypothesis ED : forall x, l_drnd L x == x.
  Hypothesis HU : Forall unit_proc (cf_time c).
  Hypothesis HM : l_cmul L = ctimes.
  Hypothesis HJ : junk_shape (l_junk1 L) (l_junk2 L).
  Let tf := cf_tf c.
  Hypotheses (ND1 : NoDup (tf_out tf)) (ND2 : NoDup (tf_in tf)) (KD : keys_distinct tf).
  Hypothesis KX : forall x, In x (tf_cross tf) -> k x == kx.
  Hypothesis K0 : ~ kx == 0.
  Hypothesis KI : forall x, In x (tf_in tf) -> ~ k x == 0.
  Hypothesis KO : forall x, In x (tf_out tf) -> ~ k x == 0.
  (** the evaluation data with the calibration, if there is any *)
  Definition after_cal (cal : option (list (chan -> res cal_data))) (d : spec_data cq) : res (spec_data cq) := match cal with Some readers => run_calibration L c readers d | None => Ok d end.
  Lemma rows_units_cal cal ref a b p e0 f0 ea eb : cal = None \/ divides_units (l_cdiv L) -> in_units k a b -> processable L c a -> processable L c b ->
    to_evals L c ref a = Ok (p, e0) -> to_evals L c ref b = Ok (p, f0) -> evaluated (length (sm_chans (sd_md e0))) p e0 -> evaluated (length (sm_chans (sd_md e0))) p f0 -> after_cal cal e0 = Ok ea -> after_cal cal f0 = Ok eb ->
    sm_levels (sd_md ea) = sm_levels (sd_md e0) /\ sm_n_levels (sd_md ea) = sm_n_levels (sd_md e0) /\ sm_chans (sd_md ea) = sm_chans (sd_md e0) /\
    sm_levels (sd_md eb) = sm_levels (sd_md e0) /\ sm_n_levels (sd_md eb) = sm_n_levels (sd_md e0) /\ sm_chans (sd_md eb) = sm_chans (sd_md e0) /\
    forall cs level w f ra rb, 0 <= level < sm_n_levels (sd_md e0) -> window_row ea cs level w f ra -> window_row eb cs level w f rb -> Forall2 (fun cx y => ceq y (cscale (k (fst cx)) (snd cx))) (combine cs ra) rb.
  Proof.
    intros HC U PA PB A B EA EB CA CB. destruct (evals_units L c k HL HF ED HU _ _ _ _ _ _ _ U PA PB A B) as (_ & ND & ST). pose proof ST as (S1 & S2 & S3 & _).
    destruct cal as [readers|]; cbn [after_cal] in CA, CB.
    2:{ injection CA as <-. injection CB as <-. do 3 (split; [reflexivity|]). split; [exact S2|]. split; [exact S1|]. split; [exact S3|]. intros cs level w f ra rb _. exact (rows_units L c k HL HF ED HU _ _ _ _ _ _ _ U PA PB A B cs level w f ra rb). }
    destruct HC as [HC|HC]; [discriminate|]. unfold run_calibration in CA, CB. destruct (calibrated_rel _ _ _ HC _ _ _ _ _ _ _ EA EB ST CA CB) as (T1 & T2 & T3 & T4 & T5 & T6 & REL).
    do 6 (split; [assumption|]). intros cs level w f ra rb Hl (x & X & FA) (y & Y & FB). specialize (REL level x y Hl X Y). rewrite T3 in FA. rewrite T6 in FB. clear X Y. revert rb FB.
    induction FA as [|ch z cs ra (i & I1 & I2 & I3) FA IH]; intros rb FB; inversion FB as [|? z' ? rb' (j & J1 & J2 & J3) FB']; subst; [constructor|]. cbn [combine].
    constructor; [|apply IH; exact FB']. cbn [fst snd]. assert (j = i) as -> by exact (nodup_index _ _ _ _ ND J1 I1). specialize (REL (Z.to_nat w) i (Z.to_nat f)). rewrite I3, J3 in REL. unfold ru, unit_at in REL. rewrite I1 in REL. exact REL.
  Qed.
  Open Scope Q_scope.
  Lemma run_units_cal cal name a b p e0 ea sa sb : cal = None \/ divides_units (l_cdiv L) -> in_units k a b -> processable L c a -> processable L c b -> to_evals L c (first_time (meta a)) a = Ok (p, e0) ->
    after_cal cal e0 = Ok ea -> quick_tf L c cal name a = Ok sa -> quick_tf L c cal name b = Ok sb ->
    (unit_free (l_fit L) \/ minimises (l_fit L) /\ forall level f, (0 <= level < sm_n_levels (sd_md ea))%Z -> (0 <= f < dp_per_level p)%Z -> evals_determine ea tf level f) ->
    so_freqs sb = so_freqs sa /\ forall i, (i < length (so_freqs sa))%nat -> exists ta tb, sol_tensor sa (Z.of_nat i) = Ok ta /\ sol_tensor sb (Z.of_nat i) = Ok tb /\ tensor_in_units k tf ta tb.
  Proof.
    intros HCAL U PA PB EA CALA QA QB FIT. unfold quick_tf in QA, QB. rewrite EA in QA. cbn [bind] in QA. apply bind_ok in QB. destruct QB as ([pb f0] & EB & QB). cbn [bind] in QB.
    pose proof U as (_ & _ & FT & _). rewrite FT in EB. destruct (evals_units L c k HL HF ED HU _ _ _ _ _ _ _ U PA PB EA EB) as (-> & NDC & ST0).
    destruct (to_evals_evaluated _ _ _ _ _ _ PA EA) as (a' & RA & DA & CA & _ & HCA & EVA0). destruct (to_evals_evaluated _ _ _ _ _ _ PB EB) as (b' & RB & DB & CB & _ & HCB & EVB0).
    assert (PL : (1 <= ds_per_level (cf_dec c))%Z) by exact (proj1 (proj2 (proj2 PA))).
    fold (after_cal cal e0) in QA. fold (after_cal cal f0) in QB. rewrite CALA in QA. cbn [bind] in QA. apply bind_ok in QB. destruct QB as (eb & CALB & QB).
    pose proof ST0 as (SN & SL & SC & _). rewrite SC in EVB0.
    destruct (rows_units_cal cal _ _ _ _ _ _ _ _ HCAL U PA PB EA EB EVA0 EVB0 CALA CALB) as (T1 & T2 & T3 & T4 & T5 & T6 & RU).
    assert (EVC : forall d d', evaluated (length (sm_chans (sd_md d))) p d -> after_cal cal d = Ok d' -> evaluated (length (sm_chans (sd_md d'))) p d').
    { intros d d' V E. destruct cal as [readers|]; cbn [after_cal] in E; [|injection E as <-; exact V]. destruct (calibrated_evaluated _ _ _ _ _ _ _ E V) as [V1 V2]. rewrite V2. exact V1. }
    pose proof (EVC _ _ EVA0 CALA) as EVA. rewrite <- SC in EVB0. pose proof (EVC _ _ EVB0 CALB) as EVB. clear EVC.
    assert (CA' : sm_chans (sd_md ea) = chans (meta a')) by congruence. assert (CB' : sm_chans (sd_md eb) = chans (meta b')) by congruence.
    destruct (gathered_rows L c name _ p ea ltac:(rewrite CA'; exact HCA) DA PL EVA) as (ga & GA & FA & GGA & DATA). destruct (gathered_rows L c name _ p eb ltac:(rewrite CB'; exact HCB) DB PL EVB) as (gb & GB & FB & GGB & DATB).
    rewrite GA in QA. rewrite GB in QB. cbn [bind] in QA, QB. unfold run_regression in QA, QB. rewrite HM in QA, QB. apply bind_ok in QA. destruct QA as (ra & PRA & SA). apply bind_ok in QB. destruct QB as (rb & PRB & SB).
    assert (EF : cb_eval_freqs (g_out gb) = cb_eval_freqs (g_out ga)).
    { rewrite FA, FB, T1, T4. reflexivity. }
    refine (regress_units _ _ _ k kx tf HJ KX K0 KI ND1 ND2 KD ga gb ra rb sa sb GGA GGB EF PRA PRB SA SB _).
    intros i outs ins crosses outs' ins' crosses' Hi FDA FDB. destruct (DATA i Hi) as (lv & f & outs2 & ins2 & crosses2 & El & Ef & Bl & Bf & FD2 & A1 & A2 & A3 & DET).
    destruct (DATB i ltac:(rewrite EF; exact Hi)) as (lv' & f' & outs2' & ins2' & crosses2' & El' & Ef' & Bl' & Bf' & FD2' & B1 & B2 & B3 & _). assert (lv' = lv) as -> by congruence. assert (f' = f) as -> by congruence.
    assert (outs2 = outs /\ ins2 = ins /\ crosses2 = crosses) as (-> & -> & ->) by (destruct FDA as (X1 & X2 & X3), FD2 as (Y1 & Y2 & Y3); split; [congruence|split; congruence]).
    assert (outs2' = outs' /\ ins2' = ins' /\ crosses2' = crosses') as (-> & -> & ->) by (destruct FDB as (X1 & X2 & X3), FD2' as (Y1 & Y2 & Y3); split; [congruence|split; congruence]).
    clear FD2 FD2' El' Ef' Bl' Bf'. 
    assert (LEVELS : sm_levels (sd_md eb) = sm_levels (sd_md ea)) by congruence.
    assert (UR : forall cs rows rows', all_rows ea cs lv f rows -> all_rows eb cs lv f rows' -> urows k cs rows rows').
    { intros cs rows rows' A B. pose proof (rows_wide' _ _ _ _ _ A) as W. destruct A as (m & M1 & M2 & M3), B as (m' & M1' & M2' & M3'). assert (m' = m) as -> by congruence. split; [lia|]. split; [exact W|].
      intros w r r' Hr Hr'. exact (RU cs lv (Z.of_nat w) f r r' ltac:(rewrite <- T2; exact Bl) (M3 w r Hr) (M3' w r' Hr')). }
    split; [exact (UR _ _ _ A1 B1)|]. split; [exact (UR _ _ _ A2 B2)|]. split; [exact (UR _ _ _ A3 B3)|]. intros o oc x x' Ho Pm Pm' bm bm' CC TC LB Fx Fx'.
    assert (NZ : forall q, In q (dup (qs k kx tf)) -> ~ q == 0).
    { intros q Hq. apply dup_in in Hq. unfold qs in Hq. apply in_map_iff in Hq. destruct Hq as (ic & <- & Hic). intros E. apply Qmult_integral in E. destruct E as [E|E]; [exact (KI ic Hic E)|exact (K0 E)]. }
    assert (NC : ~ k oc * kx == 0) by (intros E; apply Qmult_integral in E; destruct E as [E|E]; [exact (KO oc (nth_error_In _ _ Ho) E)|exact (K0 E)]).
    destruct FIT as [UF|[MF HD]]; [exact (UF _ _ _ _ _ _ _ _ NZ NC CC TC Fx Fx')|].
    assert (LW : length ins = length crosses) by (destruct A2 as (m & M1 & M2 & _), A3 as (m' & M1' & M2' & _); assert (m' = m) as -> by congruence; lia).
    assert (LQ : length (dup (qs k kx tf)) = (2 * length (tf_in tf))%nat) by (rewrite dup_length; unfold qs; rewrite map_length; reflexivity).
    refine (minimises_units _ _ _ _ _ _ _ _ _ MF _ NZ NC CC TC LB _ Fx Fx').
    - intros E. rewrite E in LQ. destruct HCA as (_ & C2 & _). fold tf in C2. destruct (tf_in tf); [congruence|cbn in LQ; lia].
    - rewrite LQ. exact (determined_injective _ _ _ LW (rows_wide' _ _ _ _ _ A2) (DET (HD _ _ Bl Bf))).
  Qed.
End Run.
