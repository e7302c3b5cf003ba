(** C97: only elapsed times matter.

    Times are numbers of seconds (Model/Sampling.v); [l_rnd] may be any rounding of floats that is a
    function of the value. The libraries and the calibration readers are parameters. *)
From Coq Require Import String.
From Verif Require Import Base.Prelude Base.Rounding Base.NdArray Base.Cplx Model.Sampling Model.Time Model.Decimate Model.Window Model.Spectra
  Model.Calibrate Model.Gather Model.Regression Model.Pipeline Spec.Later.
From Verif Require Import Proofs.Later.
From Verif Require Props.Pipeline.
Open Scope list_scope. Open Scope Q_scope.

(** from time data to evaluation frequencies *)
Theorem C97_evals : forall L d c ref ref' td td', (forall x y, x == y -> l_rnd L x == l_rnd L y) -> later_time d ref ref' -> later d td td' ->
  alike (fun a b => fst b = fst a /\ later_spec d (snd a) (snd b)) (to_evals L c ref td) (to_evals L (later_config d c) ref' td').
Proof. intros L d c ref ref' td td' RC. apply to_evals_later, RC. Qed.
Print Assumptions C97_evals.

(** quick_tf: the same transfer function, or the same exception *)
Theorem C97_quick : forall L d c cal name td td', (forall x y, x == y -> l_rnd L x == l_rnd L y) -> later d td td' ->
  quick_tf L (later_config d c) cal name td' = quick_tf L c cal name td.
Proof. intros L d c cal name td td' RC. apply quick_tf_later, RC. Qed.
Print Assumptions C97_quick.

(** a project processed by any commands *)
Theorem C97_project : forall L d c pr pr' cmds cmds' fs out in_ cross, (forall x y, x == y -> l_rnd L x == l_rnd L y) ->
  later_project d pr pr' -> Forall2 (later_command d) cmds cmds' ->
  process_evals_to_tf L (later_config d c) pr' (run_session L pr' cmds' []) fs out in_ cross =
  process_evals_to_tf L c pr (run_session L pr cmds []) fs out in_ cross.
Proof. intros L d c pr pr' cmds cmds' fs out in_ cross RC. apply project_later, RC. Qed.
Print Assumptions C97_project.

(** the times of the windows move along, here by [k] nanoseconds *)
Theorem C97_timestamps : forall L d k (a b : spec_data cq) level, (forall t t', t' == t + d -> l_ns_time L t' = (l_ns_time L t + k)%Z) -> later_spec d a b ->
  alike (fun x y => y = map (fun t => (t + k)%Z) x) (sd_get_timestamps (l_rnd L) (l_ns_time L) (l_ns_delta L) a level)
    (sd_get_timestamps (l_rnd L) (l_ns_time L) (l_ns_delta L) b level).
Proof. intros L d k a b level. apply timestamps_later. Qed.
Print Assumptions C97_timestamps.

(** moving the recording but not the reference time is another matter: other windows *)
Theorem C97_reference_refuted : exists L d c ref td td', (forall x y, x == y -> l_rnd L x == l_rnd L y) /\ later d td td' /\
  exists p e p' e', to_evals L c ref td = Ok (p, e) /\ to_evals L (later_config d c) ref td' = Ok (p', e') /\ sd_data e <> sd_data e'.
Proof.
  exists Props.Pipeline.toyL, (1#2), (Props.Pipeline.toyC [] None), 100, (Props.Pipeline.toyTd 100 40), (Props.Pipeline.toyTd (201#2) 40).
  split; [exact (gr_comp _ b64_good)|]. split; [unfold later, later_time; repeat match goal with |- _ /\ _ => apply conj end; vm_compute; reflexivity|].
  eexists. eexists. eexists. eexists. split; [vm_compute; reflexivity|]. split; [vm_compute; reflexivity|]. intros H. vm_compute in H. discriminate H.
Qed.
Print Assumptions C97_reference_refuted.

(** a day and a third of a second later, with a subsection and two sites *)
Definition d97 : Q := 259201 # 3.
Definition p97 : raw_project := [("A"%string, [("m"%string, (8, Ok (Props.Pipeline.toyTd (100 + d97) 40)))]);
  ("B"%string, [("n"%string, (8, Ok (Props.Pipeline.toyTd (100 + d97) 64))); ("o"%string, (4, Err ReadError))])].
Definition c97 : list command := [mkCmd (Props.Pipeline.toyC [PSubsection 100 104] None) Props.Pipeline.toyCal 100 "A" "m"; mkCmd (Props.Pipeline.toyC [PSubsection 100 104] None) Props.Pipeline.toyCal 100 "B" "n"].
Definition c97' : list command := map (fun x => mkCmd (later_config d97 (cm_config x)) (cm_cal x) (cm_ref x + d97) (cm_site x) (cm_meas x)) c97.
Example C97_ex : later_project d97 Props.Pipeline.toyProj2 p97 /\ Forall2 (later_command d97) c97 c97' /\
  exists sol, process_evals_to_tf Props.Pipeline.toyL (Props.Pipeline.toyC [PSubsection 100 104] None) Props.Pipeline.toyProj2
    (run_session Props.Pipeline.toyL Props.Pipeline.toyProj2 c97 []) 8 "A" None (Some "B"%string) = Ok sol /\ length (so_freqs sol) = 4%nat.
Proof.
  assert (T : forall n, later d97 (Props.Pipeline.toyTd 100 n) (Props.Pipeline.toyTd (100 + d97) n)).
  { intros n. unfold later, later_time, Props.Pipeline.toyTd. cbn [meta rows dtype fs chans n_chans n_samples info chans_md first_time last_time].
    repeat (split; [reflexivity|]). ring. }
  split; [|split].
  - repeat constructor; cbn [fst snd]; apply T.
  - repeat constructor.
  - eexists. split; [vm_compute; reflexivity|]. vm_compute. reflexivity.
Qed.
Example C97_timestamps_ex : forall t t', t' == t + 86400 -> l_ns_time Props.Pipeline.toyL t' = (l_ns_time Props.Pipeline.toyL t + 86400000000000)%Z.
Proof.
  intros t t' H. cbn [l_ns_time Props.Pipeline.toyL]. rewrite (qfloor_comp _ (t * 1000000000 + inject_Z 86400000000000)); [|rewrite H; change (inject_Z 86400000000000) with (86400 * 1000000000); ring].
  pose proof (qfloor_spec (t * 1000000000)) as [A B]. pose proof (qfloor_spec (t * 1000000000 + inject_Z 86400000000000)) as [C D].
  assert (X1 : inject_Z (qfloor (t * 1000000000 + inject_Z 86400000000000)) < inject_Z (qfloor (t * 1000000000) + 86400000000000 + 1)) by (rewrite !inject_Z_plus; change (inject_Z 1) with 1; lra).
  assert (X2 : inject_Z (qfloor (t * 1000000000) + 86400000000000) < inject_Z (qfloor (t * 1000000000 + inject_Z 86400000000000) + 1)) by (rewrite !inject_Z_plus; change (inject_Z 1) with 1; lra).
  rewrite <- Zlt_Qlt in X1, X2. lia.
Qed.
