(** The frequencies a solution is labelled with. *)
From Coq Require Import String.
From Verif Require Import Base.Prelude Base.Rounding Base.ListUtil Base.NdArray Base.Cplx
  Model.Sampling Model.Time Model.Decimate Model.Window Model.Spectra Model.Calibrate Model.Gather Model.Regression Model.Pipeline
  Spec.Pipeline Proofs.Sampling Proofs.TimeMeta Proofs.DecParams Proofs.Spectra Proofs.Gather Proofs.PipelineSizes.
Open Scope list_scope. Open Scope Z_scope.

Lemma prepare_freqs cmul j1 j2 tf g r : prepare_gathered cmul j1 j2 tf g = Ok r -> ri_freqs r = cb_eval_freqs (g_out g).
Proof.
  unfold prepare_gathered. intros H. apply bind_ok in H. destruct H as (l & Hl & H). injection H as <-. cbn [ri_freqs].
  assert (K : forall (f : nat -> Q -> res (Q * (list (string * list Q) * list (list Q)))) k fr l0, (forall i q y, f i q = Ok y -> fst y = q) ->
    mapM (fun x : nat * Q => f (fst x) (snd x)) (combine (seq k (length fr)) fr) = Ok l0 -> map fst l0 = fr).
  { intros f k fr. revert k. induction fr as [|q fr IH]; intros k l0 Hf H; cbn [length seq combine mapM] in H; [injection H as <-; reflexivity|].
    apply bind_ok in H. destruct H as (y & Hy & H). apply bind_ok in H. destruct H as (ys & Hys & H). injection H as <-. cbn [map]. rewrite (Hf _ _ _ Hy), (IH _ _ Hf Hys). reflexivity. }
  refine (K (fun i q => pp <- cross_powers cmul g (Z.of_nat i) ;; r <- prepare_freq j1 j2 tf (fst pp) (snd pp) ;; Ok (q, r)) 0%nat _ l _ Hl).
  intros i q y E. apply bind_ok in E. destruct E as (pp & _ & E). apply bind_ok in E. destruct E as (r0 & _ & E). injection E as <-. reflexivity.
Qed.
Lemma regression_freqs L c g sol : run_regression L c g = Ok sol -> so_freqs sol = cb_eval_freqs (g_out g).
Proof.
  unfold run_regression. intros H. apply bind_ok in H. destruct H as (r & Hr & H). rewrite <- (prepare_freqs _ _ _ _ _ _ Hr).
  unfold solve in H. apply bind_ok in H. destruct H as (t & _ & H). unfold get_solution in H. apply bind_ok in H. destruct H as (k & _ & H). injection H as <-. reflexivity.
Qed.
Lemma gather_freqs junk (pr : Gather.project cq) s tf o i x g : project_gather junk pr s tf o i x = Ok g -> sel_eval_freqs s = Ok (cb_eval_freqs (g_out g)).
Proof.
  unfold project_gather. intros H. apply bind_ok in H. destruct H as (a & Ha & H). apply bind_ok in H. destruct H as (b & _ & H). apply bind_ok in H. destruct H as (d & _ & H).
  injection H as <-. cbn [g_out]. unfold get_site_data in Ha. apply bind_ok in Ha. destruct Ha as (st & _ & Ha). apply bind_ok in Ha. destruct Ha as (ms & _ & Ha). apply bind_ok in Ha. destruct Ha as (dt & _ & Ha).
  destruct ms; [discriminate|]. apply bind_ok in Ha. destruct Ha as (co & _ & Ha). apply bind_ok in Ha. destruct Ha as (d' & _ & Ha). apply bind_ok in Ha. destruct Ha as (fr & Hf & Ha). injection Ha as <-. exact Hf.
Qed.
Theorem c69_labels : forall L c proj s fs out_site in_site cross_site sol,
  process_evals_to_tf L c proj s fs out_site in_site cross_site = Ok sol ->
  exists p n ls, dec_params_of L c fs = Ok p /\ mapM (level_eval_freqs p) (arange n) = Ok ls /\ so_freqs sol = concat ls.
Proof.
  intros L c proj s fs o i x sol H. unfold process_evals_to_tf in H. cbv zeta in H. apply bind_ok in H. destruct H as (p & Hp & H). apply bind_ok in H. destruct H as (sel & Hs & H).
  apply bind_ok in H. destruct H as (g & Hg & H). apply gather_freqs in Hg. apply regression_freqs in H.
  destruct (c47 _ _ _ _ _ Hs) as (_ & _ & Ep & _). unfold sel_eval_freqs in Hg. rewrite Ep in Hg. apply bind_ok in Hg. destruct Hg as (ls & Hls & Hg).
  exists p, (sel_n_levels sel), ls. split; [exact Hp|]. split; [exact Hls|]. congruence.
Qed.
Theorem c69_evaluated : forall L c cal ref proj site meas fs0 td ed p i m, keeps_fs L c td ->
  find_meas proj site meas = Ok (fs0, Ok td) -> dec_params_of L c (fs (meta td)) = Ok p ->
  evals_of L c cal ref proj site meas = Ok ed -> nth_error (sm_levels (sd_md ed)) i = Some m ->
  level_eval_freqs p (Z.of_nat i) = Ok (sl_freqs m).
Proof.
  intros L c cal ref proj site meas fs0 td ed p i m HK HF HP H Hm. unfold evals_of in H. rewrite HF in H. cbn [bind] in H.
  apply bind_ok in H. destruct H as ([p' ed'] & H1 & H).
  unfold run_calibration, calibrator_run in H. apply bind_ok in H. destruct H as (data & _ & H). apply make_spec_ok in H. subst ed.
  unfold to_evals in H1. apply bind_ok in H1. destruct H1 as (td' & A1 & H1). apply bind_ok in H1. destruct H1 as (p'' & A2 & H1).
  do 4 (apply bind_ok in H1; destruct H1 as (? & _ & H1)). apply bind_ok in H1. destruct H1 as (e & He & H1). injection H1 as -> ->.
  rewrite (HK _ A1), HP in A2. injection A2 as <-. destruct (evals_levels_nth _ _ _ _ _ He Hm) as (m0 & _ & _ & _ & _ & _ & _ & E). exact E.
Qed.
