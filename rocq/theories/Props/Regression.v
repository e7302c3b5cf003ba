(** Properties C50-C53: regression preparation, solution lookup and robust weights.
    [junk1], [junk2] are the contents of np.empty; [cmul] is numpy's complex product. *)
From Coq Require Import String.
From Verif Require Import Base.Prelude Base.Rounding Base.ListUtil Base.NdArray Base.Cplx
  Model.Sampling Model.Time Model.Decimate Model.Window Model.Spectra Model.Calibrate Model.Gather Model.Regression
  Spec.Calibrate Spec.Gather Spec.Regression Proofs.Regression Proofs.RegressionFinal Proofs.RegressionQuick Proofs.SolversMore Proofs.SolversEx.
Open Scope list_scope. Open Scope Q_scope.

(** ** C50 *)
Theorem C50_equivalent_systems : forall cmul junk1 junk2, junk_shape junk1 junk2 -> forall tf g, good_gathered tf g -> NoDup (tf_out tf) ->
  exists r, prepare_gathered cmul junk1 junk2 tf g = Ok r /\ ri_freqs r = cb_eval_freqs (g_out g) /\ ri_tf r = tf /\
    forall k outs ins crosses o chan, (k < length (ri_freqs r))%nat -> freq_data g k outs ins crosses -> nth_error (tf_out tf) o = Some chan ->
    exists obs preds, get_inputs r k chan = Ok (obs, preds) /\
      (forall row, In row preds -> length row = (2 * length (tf_in tf))%nat) /\ length obs = length preds /\
      forall coef, length coef = (2 * length (tf_in tf))%nat ->
      exists Z, get_tensor tf coef = Ok Z /\ length Z = length (tf_in tf) /\ interleaved Z = coef /\
        (real_system preds coef obs <-> complex_system cmul Z o outs ins crosses).
Proof. exact c50_prepare. Qed.
Print Assumptions C50_equivalent_systems.
Theorem C50_generated_data : forall junk1 junk2 tf g, junk_shape junk1 junk2 -> good_gathered tf g -> NoDup (tf_out tf) ->
  forall r, prepare_gathered ctimes junk1 junk2 tf g = Ok r ->
  forall k outs ins crosses o chan Zt Zo, (k < length (ri_freqs r))%nat -> freq_data g k outs ins crosses -> nth_error (tf_out tf) o = Some chan ->
    generated_by Zt outs ins -> nth_error Zt o = Some Zo -> length Zo = length (tf_in tf) ->
    exists obs preds, get_inputs r k chan = Ok (obs, preds) /\ real_system preds (interleaved Zo) obs /\ get_tensor tf (interleaved Zo) = Ok Zo.
Proof. exact c50_generated. Qed.
Print Assumptions C50_generated_data.
(** preparation and solving together: the solution is the generating tensor at every frequency *)
Theorem C50_end_to_end : forall junk1 junk2 fit tf g Zt, junk_shape junk1 junk2 -> least_squares fit -> good_gathered tf g ->
  NoDup (tf_out tf) -> NoDup (tf_in tf) -> tf_in tf <> [] -> keys_distinct tf ->
  (forall k, (k < length (cb_eval_freqs (g_out g)))%nat -> length (Zt k) = length (tf_out tf) /\ wide (length (tf_in tf)) (Zt k)) ->
  (forall k outs ins crosses, (k < length (cb_eval_freqs (g_out g)))%nat -> freq_data g k outs ins crosses ->
     generated_by (Zt k) outs ins /\ determined (length (tf_in tf)) ins crosses) ->
  exists r s, prepare_gathered ctimes junk1 junk2 tf g = Ok r /\ solve fit r = Ok s /\ so_freqs s = cb_eval_freqs (g_out g) /\
    forall k, (k < length (cb_eval_freqs (g_out g)))%nat -> exists t, sol_tensor s (Z.of_nat k) = Ok t /\ Forall2 (Forall2 ceq) t (Zt k).
Proof. exact c50_end. Qed.
Print Assumptions C50_end_to_end.

(** two windows, outputs Ex = (1 + 2i) Hx - i Hy, Ey = 3 Hy *)
Definition exIn : list (list cq) := [[mkC 1 1; mkC 0 2]; [mkC 2 0; mkC 1 (-1)]].
Definition exOut : list (list cq) := [[mkC 1 3; mkC 0 6]; [mkC 1 3; mkC 3 (-3)]].
Definition exZ : list (list cq) := [[mkC 1 2; mkC 0 (-1)]; [mkC 0 0; mkC 3 0]].
Definition exTf : tf_chans := mkTf ["Ex"; "Ey"]%string ["Hx"; "Hy"]%string ["Hx"; "Hy"]%string.
Definition exComb (chans : list chan) (x : list (list cq)) : combined cq := mkComb chans [10] 1 ["m"]%string [(0%Z, x)].
Definition exG : gathered cq := mkGathered (exComb ["Ex"; "Ey"]%string exOut) (exComb ["Hx"; "Hy"]%string exIn) (exComb ["Hx"; "Hy"]%string exIn).
Definition exJ1 (n : nat) : list Q := repeat 666 n.
Definition exJ2 (n m : nat) : list (list Q) := repeat (repeat 666 m) n.
Example C50_ex_junk : junk_shape exJ1 exJ2.
Proof.
  split; [intros; apply repeat_length|]. intros n m. split; [apply repeat_length|]. intros row K. apply repeat_spec in K. subst row. apply repeat_length.
Qed.
Example C50_ex_good : good_gathered exTf exG /\ generated_by exZ exOut exIn /\ keys_distinct exTf.
Proof.
  split; [|split].
  - intros k Hk. cbn in Hk. assert (k = 0%nat) as -> by lia. exists exOut, exIn, exIn. split; [split; [reflexivity|split; reflexivity]|].
    split; [reflexivity|]. split; [reflexivity|]. split; [|split]; intros row [<-|[<-|[]]]; reflexivity.
  - intros [|[|w]] orow irow H1 H2; cbn in H1, H2; try (injection H1 as <-; injection H2 as <-; constructor; [vm_compute; split; reflexivity|constructor; [vm_compute; split; reflexivity|constructor]]).
    destruct w; discriminate.
  - apply (c52_same_length exTf 2). intros o [<-|[<-|[]]]; reflexivity.
Qed.
(** the inputs determine the tensor *)
Example C50_ex_determined : determined 2 exIn exIn.
Proof.
  intros D L H. destruct D as [|[a b] [|[c e] [|? ?]]]; try discriminate.
  pose proof (H 0%nat _ _ _ eq_refl eq_refl (or_introl eq_refl)) as [A1 A2].
  pose proof (H 1%nat _ _ _ eq_refl eq_refl (or_introl eq_refl)) as [B1 B2].
  cbn in A1, A2, B1, B2.
  constructor; [|constructor; [|constructor]]; split; cbn; lra.
Qed.
(** a fit meeting the contract: Gaussian elimination *)
Example C50_ex_fit : least_squares elim_fit.
Proof. exact ls_elim. Qed.
Example C50_ex_end : exists r s t, prepare_gathered ctimes exJ1 exJ2 exTf exG = Ok r /\ solve elim_fit r = Ok s /\
  sol_tensor s 0 = Ok t /\ map (map (fun z => (Qred (re z), Qred (im z)))) t = map (map (fun z => (re z, im z))) exZ.
Proof. eexists _, _, _. repeat match goal with |- _ /\ _ => apply conj end; vm_compute; reflexivity. Qed.
Example C50_ex : exists r obs preds, prepare_gathered ctimes exJ1 exJ2 exTf exG = Ok r /\ get_inputs r 0 "Ex"%string = Ok (obs, preds) /\
  map Qred obs = [4; 2; 6; -2; 2; 6; -2; 4] /\
  map (map Qred) preds = [[2; 0; 2; -2]; [0; 2; 2; 2]; [2; 2; 4; 0]; [-2; 2; 0; 4]; [4; 0; 2; 2]; [0; 4; -2; 2]; [2; -2; 2; 0]; [2; 2; 0; 2]] /\
  map (fun row => Qred (dot row (interleaved [mkC 1 2; mkC 0 (-1)]))) preds = [4; 2; 6; -2; 2; 6; -2; 4].
Proof. eexists _, _, _. split; [reflexivity|]. split; [reflexivity|]. vm_compute. split; [reflexivity|]. split; reflexivity. Qed.

(** ** C51 *)
Theorem C51_preparers_agree : forall cmul junk1 junk2 meas p tf d, (1 <= dp_per_level p)%Z -> good_evals 0 d -> level_counts (dp_per_level p) d ->
  tf_out tf <> [] -> tf_in tf <> [] -> tf_cross tf <> [] ->
  incl (tf_out tf) (sm_chans (sd_md d)) -> incl (tf_in tf) (sm_chans (sd_md d)) -> incl (tf_cross tf) (sm_chans (sd_md d)) ->
  exists q, quick_gather meas p tf d = Ok q /\
    prepare_gathered cmul junk1 junk2 tf q = prepare_spectra cmul junk1 junk2 tf d.
Proof. exact c51. Qed.
Print Assumptions C51_preparers_agree.
(** two levels with two and one frequencies *)
Definition exD (f0 : list Q) (x0 : list (list (list cq))) : spec_data cq :=
  mkSpec (mkSpecMd [16; 8] ["Ex"; "Hy"]%string 2 0 100 "" [mkSpecLevel 16 1 16 4 0 (Z.of_nat (length f0)) f0; mkSpecLevel 8 1 16 4 0 1 [1]] 0 [])
         [(0%Z, nd3 x0); (1%Z, nd3 [[[mkC 5 1]; [mkC 0 2]]])].
Definition exP : dec_params := mkDecParams 16 2 2 10 [6; 4; 1] [1; 2]%Z [1; 2]%Z [16; 8].
Definition exTf2 : tf_chans := mkTf ["Ex"]%string ["Hy"]%string ["Hy"]%string.
Example C51_ex : level_counts 2 (exD [6; 4] [[[mkC 1 0; mkC 2 0]; [mkC 3 0; mkC 4 1]]]) /\
  exists q r, quick_gather "m"%string exP exTf2 (exD [6; 4] [[[mkC 1 0; mkC 2 0]; [mkC 3 0; mkC 4 1]]]) = Ok q /\
    prepare_gathered ctimes exJ1 exJ2 exTf2 q = Ok r /\ prepare_spectra ctimes exJ1 exJ2 exTf2 (exD [6; 4] [[[mkC 1 0; mkC 2 0]; [mkC 3 0; mkC 4 1]]]) = Ok r /\
    ri_freqs r = [6; 4; 1] /\ map (map (fun x => (fst x, map Qred (snd x)))) (ri_obs r) = [[("Ex", [3; 0])]; [("Ex", [8; -2])]; [("Ex", [2; -10])]]%string.
Proof.
  split.
  - intros [|[|l]] m H; cbn in H; [injection H as <-; cbn; lia|injection H as <-; cbn; lia|destruct l; discriminate].
  - eexists _, _. split; [reflexivity|]. split; [vm_compute; reflexivity|]. split; [vm_compute; reflexivity|]. vm_compute. split; reflexivity.
Qed.
(** a level other than the last with fewer than per_level frequencies: the gathered data cannot be prepared *)
Theorem C51_short_level_refuted : exists d q r, quick_gather "m"%string exP exTf2 d = Ok q /\
  prepare_spectra ctimes exJ1 exJ2 exTf2 d = Ok r /\ ri_freqs r = [6; 1] /\ prepare_gathered ctimes exJ1 exJ2 exTf2 q = Err KeyError.
Proof.
  exists (exD [6] [[[mkC 1 0]; [mkC 3 0]]]). eexists _, _. split; [reflexivity|]. split; [vm_compute; reflexivity|]. split; vm_compute; reflexivity.
Qed.
Print Assumptions C51_short_level_refuted.

(** ** C52 *)
Theorem C52_lookup : forall tf freqs tensors, tensor_shape tf (length freqs) tensors -> NoDup (tf_out tf) -> NoDup (tf_in tf) -> keys_distinct tf ->
  exists s, get_solution tf freqs tensors = Ok s /\ so_freqs s = freqs /\ so_tf s = tf /\
    (forall k, (k < length freqs)%nat -> exists t, sol_tensor s (Z.of_nat k) = Ok t /\ nth_error tensors k = Some t) /\
    forall o i oc ic, nth_error (tf_out tf) o = Some oc -> nth_error (tf_in tf) i = Some ic ->
      exists comp, get_component s (component_key oc ic) = Ok comp /\ length comp = length freqs /\
        forall k, (k < length freqs)%nat -> exists z, nth_error comp k = Some z /\ entry3 tensors k o i = Some z.
Proof. exact c52. Qed.
Print Assumptions C52_lookup.
(** output channels of equal length (such as Ex, Ey) never collide *)
Theorem C52_equal_lengths : forall tf n, (forall o, In o (tf_out tf) -> String.length o = n) -> keys_distinct tf.
Proof. exact c52_same_length. Qed.
Print Assumptions C52_equal_lengths.
(** "a" + "bc" = "ab" + "c": the tensor of the solution is not the solved one *)
Theorem C52_collision_refuted : exists tf t s t', tensor_shape tf 1 [t] /\ NoDup (tf_out tf) /\ NoDup (tf_in tf) /\
  get_solution tf [10] [t] = Ok s /\ sol_tensor s 0 = Ok t' /\ entry2 t 0 0 = Some (mkC 1 0) /\ entry2 t' 0 0 = Some (mkC 4 0).
Proof.
  exists (mkTf ["a"; "ab"]%string ["bc"; "c"]%string ["bc"]%string), [[mkC 1 0; mkC 2 0]; [mkC 3 0; mkC 4 0]]. eexists _, _.
  split; [split; [reflexivity|]; intros t [<-|[]]; split; [reflexivity|]; intros row [<-|[<-|[]]]; reflexivity|].
  split; [repeat constructor; cbn; intuition congruence|]. split; [repeat constructor; cbn; intuition congruence|].
  split; [vm_compute; reflexivity|]. split; [vm_compute; reflexivity|]. split; reflexivity.
Qed.
Print Assumptions C52_collision_refuted.
Example C52_ex : exists s, get_solution exTf [10] [exZ] = Ok s /\ sol_tensor s 0 = Ok exZ /\ get_component s "EyHy"%string = Ok [mkC 3 0] /\
  get_component s "HzHx"%string = Err ValueError.
Proof. eexists. split; [reflexivity|]. split; [reflexivity|]. split; reflexivity. Qed.

(** ** C53: for every rounding; the residuals in their order as signed numbers (by absolute value: Props/Weights.v) *)
Theorem C53_bisquare_partial : forall rnd k, good_rnd rnd -> 0 < k -> robust_weights (fun x => 0 <= x) (bisquare rnd k).
Proof. exact c53_bisquare. Qed.
Print Assumptions C53_bisquare_partial.
Theorem C53_huber : forall rnd k, good_rnd rnd -> 0 < k -> robust_weights (fun _ => True) (huber rnd k).
Proof. exact c53_huber. Qed.
Print Assumptions C53_huber.
Theorem C53_trimmed_mean : forall k, 0 <= k -> robust_weights (fun _ => True) (trimmed_mean k).
Proof. exact c53_trimmed. Qed.
Print Assumptions C53_trimmed_mean.
(** scaled residuals are centred and may be negative: the weight of -10 is larger than 1 *)
Theorem C53_bisquare_refuted : exists w, bisquare b64 (b64 (4685 # 1000)) [-10] = [w] /\ 12 < w.
Proof. eexists. split; [reflexivity|]. vm_compute. reflexivity. Qed.
Print Assumptions C53_bisquare_refuted.
Example C53_ex : map Qred (bisquare exact 4 [0; 2; 4; 9]) = [1; 9 # 16; 0; 0] /\ map Qred (huber exact 2 [-1; 2; 4]) = [1; 1; 1 # 2] /\ trimmed_mean 2 [0; 2; 3] = [1; 1; 0].
Proof. vm_compute. split; [reflexivity|]. split; reflexivity. Qed.
