(** C102: an output channel by itself. *)
From Coq Require Import String.
From Verif Require Import Base.Prelude Base.Rounding Base.ListUtil Base.NdArray Base.Cplx
  Model.Sampling Model.Time Model.Decimate Model.Window Model.Spectra Model.Calibrate Model.Gather Model.Regression Model.Pipeline
  Spec.Pipeline Spec.Gather Spec.Regression Spec.Alone
  Proofs.Regression Proofs.RegressionFinal Proofs.Spectra Proofs.TimeMeta Proofs.GatherQuick Proofs.PipelineShape Proofs.PipelineFinal Proofs.UnitsTf Proofs.UnitsRun.
Open Scope list_scope. Open Scope Q_scope.

Lemma list_ext {A} : forall l l' : list A, (forall i, nth_error l i = nth_error l' i) -> l = l'.
Proof. induction l as [|x l IH]; intros [|y l'] H; [reflexivity|discriminate (H 0%nat)|discriminate (H 0%nat)|]. pose proof (H 0%nat) as E. injection E as ->. f_equal. apply IH. intros i. exact (H (S i)). Qed.
Lemma all_rows_fun (ed : spec_data cq) cs l f r r' : all_rows ed cs l f r -> all_rows ed cs l f r' -> r = r'.
Proof.
  intros (m & E & L & H) (m' & E' & L' & H'). assert (m' = m) as -> by congruence. assert (length r = length r') by lia. apply list_ext. intros i. destruct (nth_error r i) as [x|] eqn:X, (nth_error r' i) as [y|] eqn:Y; try reflexivity.
  - f_equal. exact (window_row_fun _ _ _ _ _ _ _ (H _ _ X) (H' _ _ Y)).
  - apply nth_error_None in Y. assert (i < length r)%nat by (apply nth_error_Some; congruence). lia.
  - apply nth_error_None in X. assert (i < length r')%nat by (apply nth_error_Some; congruence). lia.
Qed.
(** the coefficients of a channel are the same whatever the list it is read with *)
Lemma row_entry (ed : spec_data cq) cs cs' l w f r r' o o' c : window_row ed cs l w f r -> window_row ed cs' l w f r' -> nth_error cs o = Some c -> nth_error cs' o' = Some c -> nth_error r o = nth_error r' o'.
Proof.
  intros (x & E & H) (x' & E' & H') O O'. assert (x' = x) as -> by (apply nd3_inj; congruence). destruct (Forall2_nth_error _ _ _ _ _ H O) as (z & Z & i & I1 & I2 & I3). destruct (Forall2_nth_error _ _ _ _ _ H' O') as (z' & Z' & i' & J1 & J2 & J3).
  assert (i = i') as <-. { destruct (Nat.lt_trichotomy i i') as [K|[K|K]]; [|exact K|]; exfalso; [exact (J2 _ K I1)|exact (I2 _ K J1)]. } congruence.
Qed.
Lemma opw_entry (ed : spec_data cq) csa csb l f ra rb o o' c crosses : all_rows ed csa l f ra -> all_rows ed csb l f rb -> nth_error csa o = Some c -> nth_error csb o' = Some c ->
  opw ctimes o ra crosses = opw ctimes o' rb crosses.
Proof.
  intros (m & E & L & H) (m' & E' & L' & H') O O'. assert (m' = m) as -> by congruence. assert (LL : length ra = length rb) by lia. unfold opw. f_equal.
  assert (K : forall i x y, nth_error ra i = Some x -> nth_error rb i = Some y -> nth_error x o = nth_error y o') by (intros i x y X Y; exact (row_entry _ _ _ _ _ _ _ _ _ _ _ (H _ _ X) (H' _ _ Y) O O')).
  clear -LL K. revert rb crosses LL K. induction ra as [|x ra IH]; intros [|y rb] crosses LL K; try discriminate LL; [reflexivity|]. destruct crosses as [|cr crosses]; [reflexivity|]. cbn [combine map fst snd]. f_equal.
  - rewrite (K 0%nat x y eq_refl eq_refl). reflexivity.
  - apply IH; [injection LL as LL; exact LL|]. intros i u v U V. exact (K (S i) u v U V).
Qed.
Section Run.
  Variables (L : library) (c : config) (outs : list chan).
  Hypothesis HM : l_cmul L = ctimes.
  Hypothesis HJ : junk_shape (l_junk1 L) (l_junk2 L).
  Let c' := with_outputs c outs.
  Hypotheses (N1 : NoDup (tf_out (cf_tf c))) (N2 : NoDup (tf_in (cf_tf c))) (N3 : NoDup outs) (K1 : keys_distinct (cf_tf c)) (K2 : keys_distinct (cf_tf c')).
  Lemma run_alone cal name td sa sb o : processable L c td -> processable L c' td -> In o (tf_out (cf_tf c)) -> In o outs ->
    quick_tf L c cal name td = Ok sa -> quick_tf L c' cal name td = Ok sb -> same_output o sa sb.
  Proof.
    intros PA PB OA OB QA QB. unfold quick_tf in QA, QB. apply bind_ok in QA. destruct QA as ([p e0] & EA & QA). assert (EB : to_evals L c' (first_time (meta td)) td = Ok (p, e0)) by exact EA. rewrite EB in QB. cbn [bind] in QB.
    destruct (to_evals_evaluated _ _ _ _ _ _ PA EA) as (a' & RA & DA & CA & _ & HCA & EV0). destruct (to_evals_evaluated _ _ _ _ _ _ PB EB) as (b' & RB & DB & CB & _ & HCB & _).
    assert (PL : (1 <= ds_per_level (cf_dec c))%Z) by exact (proj1 (proj2 (proj2 PA))).
    apply bind_ok in QA. destruct QA as (ed & CAL & QA). assert (CAL' : match cal with Some readers => run_calibration L c' readers e0 | None => Ok e0 end = Ok ed) by exact CAL. rewrite CAL' in QB. cbn [bind] in QB. clear CAL'.
    assert (EVC : evaluated (length (sm_chans (sd_md ed))) p ed /\ sm_chans (sd_md ed) = sm_chans (sd_md e0)).
    { destruct cal as [readers|]; [|injection CAL as <-; split; [exact EV0|reflexivity]]. destruct (calibrated_evaluated _ _ _ _ _ _ _ CAL EV0) as [V1 V2]. rewrite V2. split; [exact V1|reflexivity]. }
    destruct EVC as [EV CC]. rewrite <- CC in CA, CB.
    destruct (gathered_rows L c name _ p ed ltac:(rewrite CA; exact HCA) DA PL EV) as (ga & GA & FA & GGA & DATA). destruct (gathered_rows L c' name _ p ed ltac:(rewrite CB; exact HCB) DB PL EV) as (gb & GB & FB & GGB & DATB).
    rewrite GA in QA. rewrite GB in QB. cbn [bind] in QA, QB. unfold run_regression in QA, QB. rewrite HM in QA, QB. apply bind_ok in QA. destruct QA as (ra & PRA & SA). apply bind_ok in QB. destruct QB as (rb & PRB & SB).
    destruct (prepared _ _ HJ _ _ _ GGA N1 PRA) as (TA & FRA & IA). destruct (prepared _ _ HJ _ _ _ GGB N3 PRB) as (TB & FRB & IB).
    assert (SFA : so_freqs sa = ri_freqs ra /\ forall k, (k < length (ri_freqs ra))%nat -> exists t, sol_tensor sa (Z.of_nat k) = Ok t /\
      mapM (fun c => x <- get_inputs ra k c ;; coef <- l_fit L (snd x) (fst x) ;; get_tensor (ri_tf ra) coef) (tf_out (ri_tf ra)) = Ok t) by (apply solve_inv; [exact SA|rewrite TA; exact N1|rewrite TA; exact N2|rewrite TA; exact K1]).
    assert (SFB : so_freqs sb = ri_freqs rb /\ forall k, (k < length (ri_freqs rb))%nat -> exists t, sol_tensor sb (Z.of_nat k) = Ok t /\
      mapM (fun c => x <- get_inputs rb k c ;; coef <- l_fit L (snd x) (fst x) ;; get_tensor (ri_tf rb) coef) (tf_out (ri_tf rb)) = Ok t) by (apply solve_inv; [exact SB|rewrite TB; exact N3|rewrite TB; exact N2|rewrite TB; exact K2]).
    assert (TSA : so_tf sa = cf_tf c /\ so_tf sb = cf_tf c').
    { unfold solve in SA, SB. apply bind_ok in SA. destruct SA as (ta & _ & SA). apply bind_ok in SB. destruct SB as (tb & _ & SB). unfold get_solution in SA, SB. apply bind_ok in SA. destruct SA as (x & _ & SA). apply bind_ok in SB. destruct SB as (y & _ & SB). split; [rewrite <- TA; injection SA as <-; reflexivity|rewrite <- TB; injection SB as <-; reflexivity]. }
    destruct TSA as [TSA TSB]. destruct SFA as [SFA XA]. destruct SFB as [SFB XB]. split; [congruence|]. rewrite TSA, TSB. split; [reflexivity|]. intros i Hi.
    assert (LA : (i < length (ri_freqs ra))%nat) by congruence. assert (LB : (i < length (ri_freqs rb))%nat) by congruence. destruct (XA i LA) as (ta & SOA & MA). destruct (XB i LB) as (tb & SOB & MB). rewrite TA in MA. rewrite TB in MB.
    apply In_nth_error in OA. destruct OA as [oa OA]. apply In_nth_error in OB. destruct OB as [ob OB].
    destruct (mapM_nth _ _ _ _ _ MA OA) as (rowa & NA & EA'). destruct (mapM_nth _ _ _ _ _ MB OB) as (rowb & NB & EB').
    destruct (DATA i ltac:(congruence)) as (lv & f & oua & ina & cra & El & Ef & _ & _ & FDA & AOA & AIA & ACA & _). destruct (DATB i ltac:(congruence)) as (lv' & f' & oub & inb & crb & El' & Ef' & _ & _ & FDB & AOB & AIB & ACB & _).
    assert (lv' = lv) as -> by congruence. assert (f' = f) as -> by congruence. assert (inb = ina) as -> by exact (all_rows_fun _ _ _ _ _ _ AIB AIA). assert (crb = cra) as -> by exact (all_rows_fun _ _ _ _ _ _ ACB ACA).
    rewrite (IA i oua ina cra oa o LA FDA OA) in EA'. rewrite (IB i oub ina cra ob o LB FDB OB) in EB'. rewrite (opw_entry _ _ _ _ _ _ _ _ _ _ cra AOA AOB OA OB) in EA'.
    exists ta, tb, oa, ob, rowa. split; [exact SOA|]. split; [exact SOB|]. split; [exact OA|]. split; [exact OB|]. split; [exact NA|]. rewrite NB. f_equal. change (get_tensor (cf_tf c')) with (get_tensor (cf_tf c)) in EB'. congruence.
  Qed.
End Run.
