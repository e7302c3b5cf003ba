(** Property C102: an output channel has the same transfer function whatever other outputs are asked for. *)
From Coq Require Import String.
From Verif Require Import Base.Prelude Base.Rounding Base.ListUtil Base.NdArray Base.Cplx
  Model.Sampling Model.Time Model.Decimate Model.Window Model.Spectra Model.Calibrate Model.Gather Model.Regression Model.Pipeline
  Spec.Pipeline Spec.Gather Spec.Regression Spec.Alone Proofs.CalibrateFinal Proofs.Alone.
From Verif Require Import Props.Pipeline Props.Linear.
Open Scope list_scope. Open Scope Q_scope.

(** ** C102 *)
(** two runs of quick_tf on one recording, with the same inputs and cross channels: an output that both ask for has the
    same entries, number for number, at every evaluation frequency; with any solver, calibrated or not *)
Theorem C102_quick : forall (L : library) (c : config) (outs : list chan) cal name td sa sb o,
  l_cmul L = ctimes -> junk_shape (l_junk1 L) (l_junk2 L) ->
  NoDup (tf_out (cf_tf c)) -> NoDup (tf_in (cf_tf c)) -> NoDup outs -> keys_distinct (cf_tf c) -> keys_distinct (cf_tf (with_outputs c outs)) ->
  processable L c td -> processable L (with_outputs c outs) td -> In o (tf_out (cf_tf c)) -> In o outs ->
  quick_tf L c cal name td = Ok sa -> quick_tf L (with_outputs c outs) cal name td = Ok sb -> same_output o sa sb.
Proof. intros. eapply (run_alone L c outs); eassumption. Qed.
Print Assumptions C102_quick.
(** two transfer functions from the evaluation data of one measurement of a project *)
Theorem C102_project : forall (L : library) (c : config) (outs : list chan) cal proj site meas td s s' sa sb o,
  l_cmul L = ctimes -> junk_shape (l_junk1 L) (l_junk2 L) -> junk_rows L ->
  NoDup (tf_out (cf_tf c)) -> NoDup (tf_in (cf_tf c)) -> NoDup outs -> keys_distinct (cf_tf c) -> keys_distinct (cf_tf (with_outputs c outs)) ->
  find (fun x : string * raw_site => String.eqb (fst x) site) proj = Some (site, [(meas, (fs (meta td), Ok td))]) ->
  processable L c td -> processable L (with_outputs c outs) td -> keeps_fs L c td -> In o (tf_out (cf_tf c)) -> In o outs ->
  process_time_to_evals L c cal (first_time (meta td)) proj site meas s = (s', Ok tt) ->
  process_evals_to_tf L c proj s' (fs (meta td)) site None None = Ok sa ->
  process_evals_to_tf L (with_outputs c outs) proj s' (fs (meta td)) site None None = Ok sb -> same_output o sa sb.
Proof.
  intros L c outs cal proj site meas td s s' sa sb o HM HJ HR N1 N2 N3 K1 K2 HF PA PB KF OA OB HT QA QB.
  assert (SC : same_calibration (Some cal) cal) by (left; reflexivity).
  pose proof (C67_project_equals_quick L c cal (Some cal) proj site meas td s s' (Ok tt) HF PA KF SC HR HT) as EA. cbn beta iota in EA.
  pose proof (C67_project_equals_quick L (with_outputs c outs) cal (Some cal) proj site meas td s s' (Ok tt) HF PB KF SC HR HT) as EB. cbn beta iota in EB.
  apply (C102_quick L c outs (Some cal) meas td); try assumption; congruence.
Qed.
Print Assumptions C102_project.

(** ** both electric channels, and one of them, calibrated *)
Definition aloneC : config :=
  mkConfig "toy" [PRemoveMean] (mkDecSetup 2 2 8 2 (Some [3; 2; 1; 1#2])) false 13 (mkWinSetup 8 2 4 (1#4) 2 None None) None [] None (mkTf ["Ex"; "Ey"]%string ["Hy"%string] ["Hy"%string]).
Definition aloneCal : list (chan -> res cal_data) := [fun c => if String.eqb c "Hy" then Ok (mkCal [1; 3; 5] [2; 4; 4] [0; 0; 0]) else Err ReadError].
Lemma alone_processable outs : outs = ["Ex"; "Ey"]%string \/ outs = ["Ey"%string] -> processable linL (with_outputs aloneC outs) linTd.
Proof.
  intros HO. split; [reflexivity|]. split; [cbn; lia|]. split; [cbn; lia|]. intros td' p dd wp H1 H2 H3 H4.
  destruct HO as [-> | ->]; vm_compute in H1; injection H1 as <-; vm_compute in H2; injection H2 as <-; vm_compute in H3; injection H3 as <-; vm_compute in H4; injection H4 as <-;
  (split; [cbn; lia|]; split; [repeat split; try discriminate; intros x; cbn; intuition (subst; auto)|]; split;
  [intros [|[|[|i]]] m Hm; cbn in Hm; try discriminate; try (destruct i; discriminate); injection Hm as <-; eexists; (split; [vm_compute; reflexivity|]); (split; [reflexivity|]); intros r [<-|[<-|[<-|[]]]]; reflexivity
  |intros [|[|[|i]]] m w Hm Hw; cbn in Hm, Hw; try discriminate; try (destruct i; discriminate); injection Hm as <-; injection Hw as <-; cbn; lia]).
Qed.
Definition aloneSol (outs : list chan) : solution := match quick_tf linL (with_outputs aloneC outs) (Some aloneCal) "m" linTd with Ok s => s | Err _ => mkSol (mkTf [] [] []) [] [] end.
Example C102_ex : same_output "Ey"%string (aloneSol ["Ex"; "Ey"]%string) (aloneSol ["Ey"%string]) /\ length (so_freqs (aloneSol ["Ey"%string])) = 4%nat /\
  exists t row z, sol_tensor (aloneSol ["Ey"%string]) 0 = Ok t /\ nth_error t 0 = Some row /\ nth_error row 0 = Some z /\ ~ im z == 0.
Proof.
  split; [|split; [vm_compute; reflexivity|]].
  - refine (C102_quick linL aloneC ["Ey"%string] (Some aloneCal) "m" linTd (aloneSol ["Ex"; "Ey"]%string) (aloneSol ["Ey"%string]) "Ey"%string eq_refl _ _ _ _ _ _ (alone_processable ["Ex"; "Ey"]%string (or_introl eq_refl)) (alone_processable ["Ey"%string] (or_intror eq_refl)) _ _ _ _).
    + split; intros; [apply repeat_length|]. split; [apply repeat_length|]. intros r Hr. apply repeat_spec in Hr. subst r. apply repeat_length.
    + constructor; [intros [F|[]]; discriminate F|constructor; [intros []|constructor]].
    + constructor; [intros []|constructor].
    + constructor; [intros []|constructor].
    + intros o i o' i' [<-|[<-|[]]] [<-|[]] [<-|[<-|[]]] [<-|[]] E; first [split; reflexivity|exfalso; vm_compute in E; discriminate E].
    + intros o i o' i' [<-|[]] [<-|[]] [<-|[]] [<-|[]] E. split; reflexivity.
    + right. left. reflexivity.
    + left. reflexivity.
    + vm_compute. reflexivity.
    + vm_compute. reflexivity.
  - assert (X : exists t row z, sol_tensor (aloneSol ["Ey"%string]) 0 = Ok t /\ nth_error t 0 = Some row /\ nth_error row 0 = Some z).
    { eexists _, _, _. split; [vm_compute; reflexivity|]. split; reflexivity. }
    destruct X as (t & row & z & A & B & C). exists t, row, z. repeat match goal with |- _ /\ _ => apply conj end; try assumption. vm_compute in A. injection A as <-. injection B as <-. injection C as <-. vm_compute. discriminate.
Qed.
