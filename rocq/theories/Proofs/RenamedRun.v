(** C103 through process_evals_to_tf. *)
From Coq Require Import String.
From Verif Require Import Base.Prelude Base.ListUtil Base.NdArray Base.Cplx
  Model.Sampling Model.Time Model.Decimate Model.Window Model.Spectra Model.Calibrate Model.Gather Model.Regression Model.Pipeline
  Spec.Calibrate Spec.Gather Spec.Pipeline
  Proofs.Sampling Proofs.TimeMeta Proofs.DecParams Proofs.Spectra Proofs.Gather Proofs.GatherData Proofs.GatherFinal Proofs.PipelineFinal Spec.Renamed Proofs.Renamed.
Open Scope list_scope. Open Scope Z_scope.

Lemma gather_same L c (pr pr' : Gather.project cq) names p s s' tf on inn cn g fs : junk_rows L -> 1 <= ds_per_level (cf_dec c) -> dec_params_of L c fs = Ok p ->
  let isite := or_else inn on in let csite := or_else cn isite in
  In on names -> In isite names -> In csite names -> (forall x, In x names -> x = on \/ x = isite \/ x = csite) ->
  tf_out tf <> [] -> tf_in tf <> [] -> tf_cross tf <> [] ->
  same_data (dp_fs p) names pr pr' -> separate (dp_fs p) names pr ->
  good_data (dp_per_level p) (dp_fs p) pr on (tf_out tf) -> good_data (dp_per_level p) (dp_fs p) pr isite (tf_in tf) -> good_data (dp_per_level p) (dp_fs p) pr csite (tf_cross tf) ->
  selector_run pr names p = Ok s -> selector_run pr' names p = Ok s' -> project_gather (l_junk L) pr s tf on inn cn = Ok g ->
  exists g', project_gather (l_junk L) pr' s' tf on inn cn = Ok g' /\ prepare_gathered (l_cmul L) (l_junk1 L) (l_junk2 L) tf g' = prepare_gathered (l_cmul L) (l_junk1 L) (l_junk2 L) tf g.
Proof.
  intros HJ HP HD isite csite I1 I2 I3 HN T1 T2 T3 SD SEP G1 G2 G3 HS HS' HG. set (P := dp_per_level p) in *.
  assert (GE : forall site d, In site names -> data_of pr site (dp_fs p) d -> good_evals P d).
  { intros site d Hs Hd. destruct (HN site Hs) as [-> | [-> | ->]]; [exact (proj1 (G1 d Hd))|exact (proj1 (G2 d Hd))|exact (proj1 (G3 d Hd))]. }
  assert (WIN : exists level t, 0 <= level < sel_n_levels s /\ sel_table s level = Ok t /\ t <> []).
  { unfold project_gather in HG. apply bind_ok in HG. destruct HG as (o & HO & _). exact (some_window _ _ _ _ _ _ HO). }
  assert (FR : exists freqs, sel_eval_freqs s = Ok freqs).
  { unfold project_gather in HG. apply bind_ok in HG. destruct HG as (o & HO & _). unfold get_site_data in HO. apply bind_ok in HO. destruct HO as (? & _ & HO). apply bind_ok in HO. destruct HO as (m & _ & HO).
    apply bind_ok in HO. destruct HO as (? & _ & HO). destruct m; [discriminate|]. apply bind_ok in HO. destruct HO as (? & _ & HO). apply bind_ok in HO. destruct HO as (? & _ & HO). apply bind_ok in HO. destruct HO as (fr & HF & _). eauto. }
  destruct FR as (freqs & FR).
  assert (GS : forall site cs, In site names -> good_data P (dp_fs p) pr site cs -> good_site pr p site cs /\ good_site pr' p site cs).
  { intros site cs Hs G. destruct (SD site Hs) as ((st & st' & F & F' & N & N') & E). split; [eapply (good_site_of P pr p site cs st); auto|].
    apply (good_site_of P pr' p site cs st'); auto. intros d Hd. apply G. apply E. exact Hd. }
  pose proof (eval_freqs_same pr pr' names p SD s s' HS HS') as EF.
  pose proof (nonempty_same pr pr' names p SD s s' HS HS' WIN) as WIN'.
  destruct (c48 (l_junk L) HJ pr names p s tf on inn cn freqs HS I1 I2 I3 T1 T2 T3 (proj1 (GS _ _ I1 G1)) (proj1 (GS _ _ I2 G2)) (proj1 (GS _ _ I3 G3)) FR WIN) as (g0 & Eg & A1 & A2 & A3 & F1 & _).
  assert (g0 = g) as -> by congruence.
  destruct (c48 (l_junk L) HJ pr' names p s' tf on inn cn freqs HS' I1 I2 I3 T1 T2 T3 (proj2 (GS _ _ I1 G1)) (proj2 (GS _ _ I2 G2)) (proj2 (GS _ _ I3 G3)) (eq_trans EF FR) WIN') as (g' & Eg' & B1 & B2 & B3 & F1' & _).
  exists g'. split; [exact Eg'|]. apply prepare_same; [congruence|]. intros k Hk. rewrite F1 in Hk.
  assert (HP0 : 0 <= ds_per_level (cf_dec c)) by lia.
  assert (EP : P = ds_per_level (cf_dec c)). { destruct (setup_run_inv _ _ _ _ _ _ HD) as (? & ? & _ & _ & _ & _ & Ep). unfold P. rewrite Ep. reflexivity. }
  assert (LEN : Z.of_nat (length freqs) = sel_n_levels s * P).
  { unfold sel_eval_freqs in FR. apply bind_ok in FR. destruct FR as (ls & Hls & FR). assert (freqs = concat ls) as -> by congruence. apply mapM_ok in Hls. pose proof (Forall2_length' _ _ _ Hls) as Ln. rewrite arange_length in Ln.
    rewrite (concat_len (Z.to_nat P)); [unfold sel_n_levels in *; nia|]. intros x Hx. apply In_nth_error in Hx. destruct Hx as [i Hi]. destruct (Forall2_nth_error_r _ _ _ _ _ Hls Hi) as (l & _ & Hl).
    destruct (sites_same pr pr' names p s s' HS HS') as (_ & ES & _). rewrite ES in Hl. pose proof (level_freqs_len _ _ _ _ _ _ _ _ HP0 HD Hl). unfold P. lia. }
  rewrite LEN in Hk.
  assert (DM : k = P * (k / P) + k mod P /\ 0 <= k mod P < P) by (split; [apply Z.div_mod; lia|apply Z.mod_pos_bound; lia]).
  destruct DM as [DM MB]. assert (KL : 0 <= k / P < sel_n_levels s). { split; [apply Z.div_pos; lia|apply Z.div_lt_upper_bound; [lia|rewrite Z.mul_comm; lia]]. }
  destruct (sel_tables_ok s (k / P) KL) as (t & Ht). destruct (sel_tables_ok s' (k / P)) as (t' & Ht'); [rewrite (levels_same pr pr' names p SD s s' HS HS'); exact KL|].
  rewrite DM. split; [|split]; symmetry;
  [exact (rows_same pr pr' names p SD SEP s s' HS HS' GE on _ _ _ _ _ t t' I1 A1 B1 KL MB Ht Ht')|exact (rows_same pr pr' names p SD SEP s s' HS HS' GE isite _ _ _ _ _ t t' I2 A2 B2 KL MB Ht Ht')
  |exact (rows_same pr pr' names p SD SEP s s' HS HS' GE csite _ _ _ _ _ t t' I3 A3 B3 KL MB Ht Ht')].
Qed.

Theorem renamed L c (proj proj' : raw_project) s s' fs on inn cn sa : junk_rows L -> 1 <= ds_per_level (cf_dec c) ->
  tf_out (cf_tf c) <> [] -> tf_in (cf_tf c) <> [] -> tf_cross (cf_tf c) <> [] ->
  let isite := or_else inn on in let csite := or_else cn isite in
  let P := ds_per_level (cf_dec c) in let pr := view (cf_name c) proj s in
  same_data fs [on; isite; csite] pr (view (cf_name c) proj' s') -> separate fs [on; isite; csite] pr ->
  good_data P fs pr on (tf_out (cf_tf c)) -> good_data P fs pr isite (tf_in (cf_tf c)) -> good_data P fs pr csite (tf_cross (cf_tf c)) ->
  process_evals_to_tf L c proj s fs on inn cn = Ok sa -> process_evals_to_tf L c proj' s' fs on inn cn = Ok sa.
Proof.
  intros HJ HP T1 T2 T3 isite csite P pr SD SEP G1 G2 G3 H. unfold process_evals_to_tf in *. cbv zeta in *. set (pr' := view (cf_name c) proj' s') in *. fold pr in H.
  apply bind_ok in H. destruct H as (p & HD & H). rewrite HD. cbn [bind]. apply bind_ok in H. destruct H as (sel & HS & H). apply bind_ok in H. destruct H as (g & HG & H).
  set (names := on :: match inn with Some x => [x] | None => [] end ++ match cn with Some x => [x] | None => [] end) in *.
  assert (Ep : dp_fs p = fs /\ dp_per_level p = P). { destruct (setup_run_inv _ _ _ _ _ _ HD) as (? & ? & _ & _ & _ & _ & ->). split; reflexivity. }
  destruct Ep as [Efs EP]. assert (NM : forall x, In x names <-> In x [on; isite; csite]).
  { intros x. unfold names, csite, isite. destruct inn as [i|], cn as [k|]; cbn; tauto. }
  rewrite (c47_names _ pr' names [on; isite; csite] p NM). rewrite (c47_names _ pr names [on; isite; csite] p NM) in HS.
  rewrite <- Efs in SD, SEP, G1, G2, G3. rewrite <- EP in G1, G2, G3.
  destruct (selector_ok pr pr' _ p sel SD) as (sel' & HS'); [|exact HS|].
  { intros site d [<-|[<-|[<-|[]]]] Hd; [destruct (G1 d Hd) as [(_ & K & _) _]|destruct (G2 d Hd) as [(_ & K & _) _]|destruct (G3 d Hd) as [(_ & K & _) _]]; exact K. }
  rewrite HS'. cbn [bind].
  destruct (gather_same L c pr pr' [on; isite; csite] p sel sel' (cf_tf c) on inn cn g fs HJ HP HD) as (g' & HG' & EQ); try assumption.
  - left; reflexivity.
  - right; left; reflexivity.
  - right; right; left; reflexivity.
  - intros x [<-|[<-|[<-|[]]]]; [left; reflexivity|right; left; reflexivity|right; right; reflexivity].
  - rewrite HG'. cbn [bind]. unfold run_regression in *. rewrite EQ. exact H.
Qed.
