(** When data are processable; sessions; the sampling frequency of the solution. *)
From Coq Require Import String.
From Verif Require Import Base.Prelude Base.Rounding Base.ListUtil Base.NdArray Base.Cplx
  Model.Sampling Model.Time Model.Decimate Model.Window Model.Spectra Model.Calibrate Model.Gather Model.Regression Model.Pipeline
  Spec.Sampling Spec.Time Spec.Decimate Spec.Calibrate Spec.Gather Spec.Pipeline
  Proofs.TimeMeta Proofs.TimeProc Proofs.TimeFinal Proofs.DecParams Proofs.DecRun Proofs.DecFinal Proofs.WindowFinal.
Open Scope list_scope. Open Scope Z_scope.

Lemma run_chans rnd drnd orc p td td' : run rnd drnd orc p td = Ok td' -> chans (meta td') = chans (meta td).
Proof.
  assert (FR : forall bt o cut q, filter_run orc bt o cut q td = Ok td' -> chans (meta td') = chans (meta td)).
  { unfold filter_run. intros bt o cut q H. inv_bind H. inv_bind H. injection H as <-. reflexivity. }
  destruct p; cbn [run]; intros H; try (eapply FR; exact H).
  - destruct (subsection_inv _ _ _ _ _ H) as (a & b & _ & _ & _ & ->). reflexivity.
  - unfold interpolate_nans in H. inv_bind H. injection H as <-. reflexivity.
  - unfold remove_mean in H. injection H as <-. reflexivity.
  - unfold add in H. inv_bind H. inv_bind H. injection H as <-. reflexivity.
  - unfold multiply in H. inv_bind H. inv_bind H. injection H as <-. reflexivity.
  - unfold resample in H. inv_bind H. injection H as <-. reflexivity.
  - unfold decimate in H. inv_bind H. injection H as <-. reflexivity.
  - unfold shift_timestamps in H. destruct (Qle_bool _ _); [discriminate|].
    destruct (_ <? _)%Z; [discriminate|]. injection H as <-. reflexivity.
  - unfold apply_function in H. inv_bind H. injection H as <-. reflexivity.
Qed.
Lemma run_all_chans rnd drnd orc ps td td' : run_all rnd drnd orc ps td = Ok td' -> chans (meta td') = chans (meta td).
Proof.
  revert td. induction ps as [|p t IH]; intros td H; cbn in H; [injection H as <-; reflexivity|].
  inv_bind H. rewrite (IH _ H). exact (run_chans _ _ _ _ _ _ B).
Qed.
Lemma run_fs rnd drnd orc p td td' : changes_fs p = false -> run rnd drnd orc p td = Ok td' -> fs (meta td') = fs (meta td).
Proof.
  assert (FR : forall bt o cut q, filter_run orc bt o cut q td = Ok td' -> fs (meta td') = fs (meta td)).
  { unfold filter_run. intros bt o cut q H. inv_bind H. inv_bind H. injection H as <-. reflexivity. }
  destruct p; cbn [run changes_fs]; intros C H; try discriminate; try (eapply FR; exact H).
  - destruct (subsection_inv _ _ _ _ _ H) as (a & b & _ & _ & _ & ->). reflexivity.
  - unfold interpolate_nans in H. inv_bind H. injection H as <-. reflexivity.
  - unfold remove_mean in H. injection H as <-. reflexivity.
  - unfold add in H. inv_bind H. inv_bind H. injection H as <-. reflexivity.
  - unfold multiply in H. inv_bind H. inv_bind H. injection H as <-. reflexivity.
  - unfold shift_timestamps in H. destruct (Qle_bool _ _); [discriminate|].
    destruct (_ <? _)%Z; [discriminate|]. injection H as <-. reflexivity.
  - unfold apply_function in H. inv_bind H. injection H as <-. reflexivity.
Qed.
Lemma run_all_fs rnd drnd orc ps td td' : forallb (fun p => negb (changes_fs p)) ps = true -> run_all rnd drnd orc ps td = Ok td' -> fs (meta td') = fs (meta td).
Proof.
  revert td. induction ps as [|p t IH]; intros td HP H; cbn in H; [injection H as <-; reflexivity|].
  cbn [forallb] in HP. apply andb_true_iff in HP. destruct HP as [P1 P2]. inv_bind H. rewrite (IH _ P2 H). apply (run_fs _ _ _ _ _ _) in B; [exact B|].
  destruct (changes_fs p); [discriminate|reflexivity].
Qed.
Lemma keeps_fs_ok L c td : forallb (fun p => negb (changes_fs p)) (cf_time c) = true -> keeps_fs L c td.
Proof. intros H td' HR. exact (run_all_fs _ _ _ _ _ _ H HR). Qed.

(** default evaluation frequencies and window sizes: everything but the channels and the coincidence of a
    window with its level follows *)
Lemma processable_ok L c td D : good_rnd (l_rnd L) -> good_oracles (l_orc L) -> good_pow2half (l_pw L) ->
  D <= 2 ^ 49 -> (forall x, best_approx D x (o_limit_denominator (l_orc L) x)) -> 3 <= cf_max_single c ->
  usable (l_rnd L) td -> Forall valid_proc (cf_time c) ->
  (forall qs rest mid, cf_time c = qs ++ rest -> run_all (l_rnd L) (l_drnd L) (l_orc L) qs td = Ok mid -> n_samples (meta mid) < 2 ^ 49) ->
  ds_eval_freqs (cf_dec c) = None -> 1 <= ds_div_factor (cf_dec c) -> 1 <= ds_per_level (cf_dec c) ->
  cf_target c = None -> ws_win_sizes (cf_win c) = None -> 2 <= ws_min_size (cf_win c) -> 1 <= ws_min_n_wins (cf_win c) ->
  (2 <= length (chans (meta td)))%nat -> has_channels (cf_tf c) (chans (meta td)) ->
  (forall td' p dd wp, run_all (l_rnd L) (l_drnd L) (l_orc L) (cf_time c) td = Ok td' ->
    dec_params_of L c (fs (meta td')) = Ok p -> run_decimation L c p td' = Ok dd ->
    win_setup_run (l_rnd L) (cf_win c) (dd_n_levels dd) (dd_fs dd) = Ok wp ->
    Forall (fun f => f <= 2 ^ 53) (dp_factors p) /\ Forall (fun f => cf_resample c = true -> f <= D) (dp_increments p) /\
    forall i m w, nth_error (dd_levels_md dd) i = Some m -> nth_error (wp_win_sizes wp) i = Some w -> w <> lm_n_samples m) ->
  processable L c td.
Proof.
  intros G GO GP HD HB HM HU HV HN E1 E2 E3 E4 E5 E6 E7 C2 CH HX.
  split; [exact E4|]. split; [exact E7|]. split; [exact E3|]. intros td' p dd wp R1 R2 R3 R4.
  destruct (HX td' p dd wp R1 R2 R3 R4) as (X1 & X2 & X3). pose proof (run_all_chans _ _ _ _ _ _ R1) as EC.
  pose proof (run_all_usable_good _ G _ _ _ _ _ GO HV HU HN R1) as U'.
  assert (MD : maxima_descend (dp_eval_freqs p) (ds_per_level (cf_dec c))).
  { eapply c27_default; try eassumption; try lia. apply U'. }
  assert (E3' : 0 <= ds_per_level (cf_dec c)) by lia.
  destruct (c27_increments _ _ _ _ _ _ G E2 E3' R2 MD X1) as [L1 L2].
  destruct (setup_run_inv _ _ _ _ _ _ R2) as (freqs & factors & _ & _ & _ & L3 & Ep).
  assert (LI : length (dp_increments p) = Z.to_nat (dp_n_levels p)). { rewrite L1, Ep. cbn [dp_factors dp_n_levels]. lia. }
  assert (FI : Forall (fun f => 1 <= f /\ (cf_resample c = true -> f <= D)) (dp_increments p)).
  { apply Forall_forall. intros f Hf. pose proof (proj1 (Forall_forall _ _) X2 f Hf) as F2. split; [|exact F2].
    apply In_nth_error in Hf. destruct Hf as [i Hi]. destruct (nth_error (dp_factors p) i) as [g|] eqn:Eg.
    - destruct (L2 i g Eg) as (_ & x & d & Ex & ->). rewrite Hi in Ex. injection Ex as ->. apply (Z.pow_le_mono_r (ds_div_factor (cf_dec c)) 0 (Z.of_nat d)); lia.
    - apply nth_error_None in Eg. assert (i < length (dp_increments p))%nat by (apply nth_error_Some; congruence). lia. }
  destruct (decimator_spec _ _ _ _ _ _ _ _ G GO HD HB HM U' LI FI R3) as (N1 & N2 & N3 & N4 & N5 & _ & _ & N8 & _).
  split; [rewrite EC; exact C2|]. split; [rewrite EC; exact CH|]. split.
  - intros i m Hm. assert (i < Z.to_nat (dd_n_levels dd))%nat by (rewrite <- N3; apply nth_error_Some; congruence).
    destruct (N8 i H) as (md & x & A1 & A2 & A3 & A4 & _). rewrite Hm in A1. injection A1 as <-.
    exists x. split; [exact A2|]. split; [rewrite N5; exact A3|exact A4].
  - intros i m w Hm Hw. split; [|exact (X3 i m w Hm Hw)].
    assert (N0 : 0 <= dd_n_levels dd) by lia.
    destruct (c35_sizes _ _ _ _ _ N0 R4) as (_ & _ & _ & _ & _ & _ & S7 & _). destruct (S7 E5 ltac:(lia) i w Hw) as [S _]. lia.
Qed.

(** ** Sessions *)
Lemma key_eqb_eq a b : key_eqb a b = true <-> a = b.
Proof.
  destruct a as [[a1 a2] a3], b as [[b1 b2] b3]. unfold key_eqb. cbn [fst snd]. rewrite !andb_true_iff, !String.eqb_eq. split; [intros [[-> ->] ->]; reflexivity|]. intros [= -> -> ->]. auto.
Qed.
Lemma run_session_app L proj a b s : run_session L proj (a ++ b) s = run_session L proj b (run_session L proj a s).
Proof. revert s. induction a as [|x a IH]; intros s; [reflexivity|]. cbn [app run_session]. apply IH. Qed.

(** what is stored under a key after a session *)
Lemma session_get L proj : forall cmds s k,
  (forall x y, In x cmds -> In y cmds -> cmd_key x = cmd_key y -> cm_config x = cm_config y /\ cm_cal x = cm_cal y /\ cm_ref x = cm_ref y) ->
  store_get k (run_session L proj cmds s) =
  match find (fun x => key_eqb (cmd_key x) k) cmds with
  | None => store_get k s
  | Some x => match evals_of L (cm_config x) (cm_cal x) (cm_ref x) proj (cm_site x) (cm_meas x) with
              | Ok ed => Some (saved ed)
              | Err _ => store_get k s
              end
  end.
Proof.
  induction cmds as [|x cmds IH]; intros s k HU; [reflexivity|]. cbn [run_session find].
  assert (HU' : forall a b, In a cmds -> In b cmds -> cmd_key a = cmd_key b -> cm_config a = cm_config b /\ cm_cal a = cm_cal b /\ cm_ref a = cm_ref b).
  { intros a b Ha Hb. apply HU; right; assumption. }
  rewrite IH by exact HU'. unfold run_cmd, process_time_to_evals.
  destruct (key_eqb (cmd_key x) k) eqn:EK.
  - apply key_eqb_eq in EK.
    destruct (find (fun y => key_eqb (cmd_key y) k) cmds) as [y|] eqn:EF.
    + apply find_some in EF. destruct EF as [Hy Ey]. apply key_eqb_eq in Ey.
      destruct (HU x y (or_introl eq_refl) (or_intror Hy) ltac:(congruence)) as (A & B & C).
      assert (cm_site x = cm_site y /\ cm_meas x = cm_meas y) as [D1 D2] by (unfold cmd_key in *; split; congruence).
      rewrite A, B, C, D1, D2. destruct (evals_of _ _ _ _ _ _ _); reflexivity.
    + destruct (evals_of _ _ _ _ _ _ _) as [ed|]; cbn [fst]; [|reflexivity]. cbn [store_get].
      change (cm_site x, cm_meas x, cf_name (cm_config x)) with (cmd_key x). rewrite EK, (proj2 (key_eqb_eq k k) eq_refl). reflexivity.
  - destruct (find _ cmds) as [y|].
    + destruct (evals_of L (cm_config y) _ _ _ _ _); [reflexivity|]. destruct (evals_of _ _ _ _ _ _ _); cbn [fst store_get]; [|reflexivity].
      change (cm_site x, cm_meas x, cf_name (cm_config x)) with (cmd_key x). rewrite EK. reflexivity.
    + destruct (evals_of _ _ _ _ _ _ _); cbn [fst store_get]; [|reflexivity]. change (cm_site x, cm_meas x, cf_name (cm_config x)) with (cmd_key x). rewrite EK. reflexivity.
Qed.

Lemma view_ext cfg proj s s' : (forall k, store_get k s = store_get k s') -> view cfg proj s = view cfg proj s'.
Proof.
  intros H. unfold view. apply map_ext. intros [n ms]. cbn [fst snd]. f_equal. apply map_ext. intros [m [q r]]. cbn [fst snd]. rewrite H. reflexivity.
Qed.

Theorem c68 : forall L proj cmds cmds' s, (forall x, In x cmds <-> In x cmds') ->
  (forall x y, In x cmds -> In y cmds -> cmd_key x = cmd_key y -> cm_config x = cm_config y /\ cm_cal x = cm_cal y /\ cm_ref x = cm_ref y) ->
  (forall k, store_get k (run_session L proj cmds s) = store_get k (run_session L proj cmds' s)) /\
  forall c fs out_site in_site cross_site,
    process_evals_to_tf L c proj (run_session L proj cmds s) fs out_site in_site cross_site =
    process_evals_to_tf L c proj (run_session L proj cmds' s) fs out_site in_site cross_site.
Proof.
  intros L proj cmds cmds' s HS HU.
  assert (K : forall k, store_get k (run_session L proj cmds s) = store_get k (run_session L proj cmds' s)).
  { intros k. rewrite !session_get; [|intros x y Hx Hy; apply HU; apply HS; assumption|exact HU].
    destruct (find (fun x => key_eqb (cmd_key x) k) cmds) as [x|] eqn:E1; destruct (find (fun x => key_eqb (cmd_key x) k) cmds') as [y|] eqn:E2.
    - apply find_some in E1. apply find_some in E2. destruct E1 as [I1 K1], E2 as [I2 K2]. apply key_eqb_eq in K1, K2.
      destruct (HU x y I1 (proj2 (HS y) I2) ltac:(congruence)) as (A & B & C).
      assert (cm_site x = cm_site y /\ cm_meas x = cm_meas y) as [D1 D2] by (unfold cmd_key in *; split; congruence).
      rewrite A, B, C, D1, D2. reflexivity.
    - exfalso. apply find_some in E1. destruct E1 as [I1 K1]. apply HS in I1. pose proof (find_none _ _ E2 x I1) as N. cbv beta in N. congruence.
    - exfalso. apply find_some in E2. destruct E2 as [I2 K2]. apply HS in I2. pose proof (find_none _ _ E1 y I2) as N. cbv beta in N. congruence.
    - reflexivity. }
  split; [exact K|]. intros c fs o i x. unfold process_evals_to_tf. rewrite (view_ext _ _ _ _ K). reflexivity.
Qed.

(** every command leaves what it would leave alone; other evaluation data are untouched *)
Theorem c68_alone : forall L proj cmds s,
  (forall x y, In x cmds -> In y cmds -> cmd_key x = cmd_key y -> cm_config x = cm_config y /\ cm_cal x = cm_cal y /\ cm_ref x = cm_ref y) ->
  (forall x, In x cmds -> store_get (cmd_key x) (run_session L proj cmds s) = store_get (cmd_key x) (fst (run_cmd L proj x s))) /\
  (forall k, (forall x, In x cmds -> cmd_key x <> k) -> store_get k (run_session L proj cmds s) = store_get k s) /\
  (forall x s' s'', snd (run_cmd L proj x s') = snd (run_cmd L proj x s'')) /\
  (forall x s' e, snd (run_cmd L proj x s') = Err e -> fst (run_cmd L proj x s') = s').
Proof.
  intros L proj cmds s HU. repeat apply conj.
  - intros x Hx. rewrite session_get by exact HU. destruct (find _ cmds) as [y|] eqn:EF.
    + apply find_some in EF. destruct EF as [Hy Ey]. apply key_eqb_eq in Ey.
      destruct (HU x y Hx Hy ltac:(congruence)) as (A & B & C).
      assert (cm_site x = cm_site y /\ cm_meas x = cm_meas y) as [D1 D2] by (unfold cmd_key in *; split; congruence).
      unfold run_cmd, process_time_to_evals. rewrite <- A, <- B, <- C, <- D1, <- D2. destruct (evals_of _ _ _ _ _ _ _); cbn [fst]; [|reflexivity].
      cbn [store_get]. change (cm_site x, cm_meas x, cf_name (cm_config x)) with (cmd_key x). rewrite (proj2 (key_eqb_eq _ _) eq_refl). reflexivity.
    + pose proof (find_none _ _ EF x Hx) as N. cbv beta in N. rewrite (proj2 (key_eqb_eq _ _) eq_refl) in N. discriminate N.
  - intros k Hk. rewrite session_get by exact HU. destruct (find _ cmds) as [y|] eqn:EF; [|reflexivity].
    apply find_some in EF. destruct EF as [Hy Ey]. apply key_eqb_eq in Ey. exfalso. exact (Hk y Hy Ey).
  - intros x s' s''. unfold run_cmd, process_time_to_evals. destruct (evals_of _ _ _ _ _ _ _); reflexivity.
  - intros x s' e. unfold run_cmd, process_time_to_evals. destruct (evals_of _ _ _ _ _ _ _); cbn [fst snd]; [discriminate|reflexivity].
Qed.
