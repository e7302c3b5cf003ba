(** C98: a transfer function depends on its own channels only.

    Two recordings of the same time that agree on the channels [cs], in any order and beside any other
    channels: the same spectra of these channels and the same transfer function between them. *)
From Coq Require Import String.
From Verif Require Import Base.Prelude Base.Rounding Base.NdArray Base.Cplx Model.Sampling Model.Time Model.Decimate Model.Window Model.Spectra
  Model.Calibrate Model.Gather Model.Regression Model.Pipeline Spec.Time Spec.Calibrate Spec.Pipeline Spec.OwnChans.
From Verif Require Import Proofs.OwnChans Proofs.OwnChansCal Proofs.Toy.
From Verif Require Props.Pipeline.
Open Scope list_scope. Open Scope Q_scope.

(** one time process *)
Theorem C98_processor : forall rnd drnd orc cs p a b a' b', good_oracles orc -> defines cs p -> agree_on cs a b ->
  run rnd drnd orc p a = Ok a' -> run rnd drnd orc p b = Ok b' -> agree_on cs a' b'.
Proof.
  intros rnd drnd orc cs p a b a' b' GO D H A B. apply twin_agree in H. destruct H as [N T]. apply twin_agree. exact (run_twin rnd drnd orc GO cs p a b N a' b' D T A B).
Qed.
Print Assumptions C98_processor.

(** the spectra at the evaluation frequencies *)
Theorem C98_spectra : forall L c cs ref a b p ea eb level ds, good_oracles (l_orc L) -> Forall (defines cs) (cf_time c) -> agree_on cs a b ->
  processable L c a -> processable L c b -> to_evals L c ref a = Ok (p, ea) -> to_evals L c ref b = Ok (p, eb) ->
  incl ds cs -> (0 <= level < sm_n_levels (sd_md ea))%Z -> sd_get_chans eb level ds = sd_get_chans ea level ds.
Proof. intros; eapply chans_agree; eassumption. Qed.
Print Assumptions C98_spectra.
(** the parameters, the number of levels and the metadata of the levels do not depend on the other channels *)
Theorem C98_levels : forall L c cs ref a b pa pb ea eb, good_oracles (l_orc L) -> Forall (defines cs) (cf_time c) -> agree_on cs a b ->
  processable L c a -> processable L c b -> to_evals L c ref a = Ok (pa, ea) -> to_evals L c ref b = Ok (pb, eb) ->
  pb = pa /\ sm_n_levels (sd_md eb) = sm_n_levels (sd_md ea) /\ sm_levels (sd_md eb) = sm_levels (sd_md ea).
Proof.
  intros L c cs ref a b pa pb ea eb GO HD HA PA PB A B. destruct (evals_agree L c cs GO _ _ _ _ _ _ _ HD HA PA PB A B) as (<- & _ & _ & _ & S1 & S2 & _). auto.
Qed.
Print Assumptions C98_levels.

(** quick_tf *)
Theorem C98_quick : forall L c name a b, good_oracles (l_orc L) -> Forall (defines (tf_names (cf_tf c))) (cf_time c) -> agree_on (tf_names (cf_tf c)) a b ->
  processable L c a -> processable L c b -> (exists r, to_evals L c (first_time (meta a)) a = Ok r) -> (exists r, to_evals L c (first_time (meta b)) b = Ok r) ->
  quick_tf L c None name b = quick_tf L c None name a.
Proof. intros L c name a b GO HD HA PA PB EA EB. exact (c98 L c (tf_names (cf_tf c)) GO name a b HD HA PA PB (fun x H => H) EA EB). Qed.
Print Assumptions C98_quick.
(** commands on a project without calibration data: one site with one measurement *)
Theorem C98_project : forall L c readers proj proj' site meas a b s s1 s' s2, good_oracles (l_orc L) -> Forall (defines (tf_names (cf_tf c))) (cf_time c) -> agree_on (tf_names (cf_tf c)) a b ->
  processable L c a -> processable L c b -> keeps_fs L c a -> keeps_fs L c b -> junk_rows L -> (forall x, no_success readers x) ->
  find (fun x : string * raw_site => String.eqb (fst x) site) proj = Some (site, [(meas, (fs (meta a), Ok a))]) ->
  find (fun x : string * raw_site => String.eqb (fst x) site) proj' = Some (site, [(meas, (fs (meta b), Ok b))]) ->
  (exists r, to_evals L c (first_time (meta a)) a = Ok r) -> (exists r, to_evals L c (first_time (meta b)) b = Ok r) ->
  process_time_to_evals L c readers (first_time (meta a)) proj site meas s = (s1, Ok tt) -> process_time_to_evals L c readers (first_time (meta b)) proj' site meas s' = (s2, Ok tt) ->
  process_evals_to_tf L c proj' s2 (fs (meta b)) site None None = process_evals_to_tf L c proj s1 (fs (meta a)) site None None.
Proof.
  intros L c readers proj proj' site meas a b s s1 s' s2 GO HD HA PA PB KA KB HR NS F1 F2 EA EB T1 T2.
  pose proof (Props.Pipeline.C67_project_equals_quick L c readers None proj site meas a s s1 (Ok tt) F1 PA KA (or_intror (conj eq_refl NS)) HR T1) as E1. cbn beta iota in E1.
  pose proof (Props.Pipeline.C67_project_equals_quick L c readers None proj' site meas b s' s2 (Ok tt) F2 PB KB (or_intror (conj eq_refl NS)) HR T2) as E2. cbn beta iota in E2.
  rewrite E1, E2. apply C98_quick; assumption.
Qed.
Print Assumptions C98_project.

(** the same with calibration data: [readers] are arbitrary; a channel outside [cs] may have any calibration data, or none *)
Theorem C98_spectra_calibrated : forall L c cs readers ref a b p ea eb ra rb level ds, good_oracles (l_orc L) -> Forall (defines cs) (cf_time c) -> agree_on cs a b ->
  processable L c a -> processable L c b -> (forall l, cf_cal_chans c = Some l -> NoDup l) ->
  to_evals L c ref a = Ok (p, ea) -> to_evals L c ref b = Ok (p, eb) -> run_calibration L c readers ea = Ok ra -> run_calibration L c readers eb = Ok rb ->
  incl ds cs -> (0 <= level < sm_n_levels (sd_md ra))%Z -> sd_get_chans rb level ds = sd_get_chans ra level ds.
Proof. intros L c cs readers ref a b p ea eb ra rb level ds GO HD HA PA PB NS A B CA CB I Hl. exact (chans_cal L c cs GO readers ref a b p ea eb ra rb level ds HD HA PA PB NS A B CA CB I Hl). Qed.
Print Assumptions C98_spectra_calibrated.
Theorem C98_calibrated : forall L c readers name a b, good_oracles (l_orc L) -> Forall (defines (tf_names (cf_tf c))) (cf_time c) -> agree_on (tf_names (cf_tf c)) a b ->
  processable L c a -> processable L c b -> (forall l, cf_cal_chans c = Some l -> NoDup l) ->
  (exists p e r, to_evals L c (first_time (meta a)) a = Ok (p, e) /\ run_calibration L c readers e = Ok r) ->
  (exists p e r, to_evals L c (first_time (meta b)) b = Ok (p, e) /\ run_calibration L c readers e = Ok r) ->
  quick_tf L c (Some readers) name b = quick_tf L c (Some readers) name a.
Proof. intros L c readers name a b GO HD HA PA PB NS EA EB. exact (c98_cal L c (tf_names (cf_tf c)) GO readers name a b HD HA PA PB (fun x H => H) NS EA EB). Qed.
Print Assumptions C98_calibrated.
Theorem C98_calibrated_project : forall L c readers proj proj' site meas a b s s1 s' s2, good_oracles (l_orc L) -> Forall (defines (tf_names (cf_tf c))) (cf_time c) -> agree_on (tf_names (cf_tf c)) a b ->
  processable L c a -> processable L c b -> keeps_fs L c a -> keeps_fs L c b -> junk_rows L -> (forall l, cf_cal_chans c = Some l -> NoDup l) ->
  find (fun x : string * raw_site => String.eqb (fst x) site) proj = Some (site, [(meas, (fs (meta a), Ok a))]) ->
  find (fun x : string * raw_site => String.eqb (fst x) site) proj' = Some (site, [(meas, (fs (meta b), Ok b))]) ->
  (exists p e r, to_evals L c (first_time (meta a)) a = Ok (p, e) /\ run_calibration L c readers e = Ok r) ->
  (exists p e r, to_evals L c (first_time (meta b)) b = Ok (p, e) /\ run_calibration L c readers e = Ok r) ->
  process_time_to_evals L c readers (first_time (meta a)) proj site meas s = (s1, Ok tt) -> process_time_to_evals L c readers (first_time (meta b)) proj' site meas s' = (s2, Ok tt) ->
  process_evals_to_tf L c proj' s2 (fs (meta b)) site None None = process_evals_to_tf L c proj s1 (fs (meta a)) site None None.
Proof.
  intros L c readers proj proj' site meas a b s s1 s' s2 GO HD HA PA PB KA KB HR NS F1 F2 EA EB T1 T2.
  pose proof (Props.Pipeline.C67_project_equals_quick L c readers (Some readers) proj site meas a s s1 (Ok tt) F1 PA KA (or_introl eq_refl) HR T1) as E1. cbn beta iota in E1.
  pose proof (Props.Pipeline.C67_project_equals_quick L c readers (Some readers) proj' site meas b s' s2 (Ok tt) F2 PB KB (or_introl eq_refl) HR T2) as E2. cbn beta iota in E2.
  rewrite E1, E2. apply C98_calibrated; assumption.
Qed.
Print Assumptions C98_calibrated_project.

(** a recording of the channel alone is refused (the windowed array loses its channel axis, C36), beside another channel it is accepted *)
Definition one98 : tdata := mkData (mkMeta 8 ["Hy"]%string 1 40 100 (100 + inject_Z 39 * (1#8)) "" [] []) "float64" [map (fun k => Some (inject_Z (k mod 5))) (arange 40)].
Definition cfg98 : config := let c := Props.Pipeline.toyC [] None in mkConfig "toy" [] (cf_dec c) false 13 (cf_win c) None [] None (mkTf ["Hy"%string] ["Hy"%string] ["Hy"%string]).
Theorem C98_one_channel_refuted : exists L c name a b, good_oracles (l_orc L) /\ Forall (defines (tf_names (cf_tf c))) (cf_time c) /\ agree_on (tf_names (cf_tf c)) a b /\
  chans (meta a) = tf_in (cf_tf c) /\ (exists r, to_evals L c (first_time (meta a)) a = Ok r) /\
  quick_tf L c None name a = Err ValueError /\ exists sol, quick_tf L c None name b = Ok sol.
Proof.
  exists Props.Pipeline.toyL, cfg98, "m"%string, one98, (Props.Pipeline.toyTd 100 40). split; [exact toy_good|]. split; [constructor|]. split.
  { apply conj; [reflexivity|]. apply conj; [reflexivity|]. apply conj; [reflexivity|]. apply conj; [reflexivity|]. split.
    - exists 40%nat. split; (split; [repeat constructor; cbn; intuition discriminate|]); (split; [reflexivity|]); (split; [discriminate|]).
      + intros r [<-|[]]; reflexivity.
      + intros r [<-|[<-|[]]]; reflexivity.
    - intros c Hc. assert (c = "Hy"%string) as -> by (cbn in Hc; intuition). exists 0%nat, 1%nat. eexists. do 3 (split; [reflexivity|]). reflexivity. }
  split; [reflexivity|]. split; [eexists; vm_compute; reflexivity|]. split; [vm_compute; reflexivity|]. eexists. vm_compute. reflexivity.
Qed.
Print Assumptions C98_one_channel_refuted.

(** the toy recording with its channels swapped and a third one in front *)
Definition more98 : tdata := mkData (mkMeta 8 ["Hz"; "Hy"; "Ex"]%string 3 40 100 (100 + inject_Z (40 - 1) * (1#8)) "" [] []) "float64"
  [map (fun k => Some (inject_Z (7 * k mod 11))) (arange 40); map (fun k => Some (inject_Z (k mod 5))) (arange 40); map (fun k => Some (inject_Z (k * k))) (arange 40)].
Definition c98 : config := Props.Pipeline.toyC [PRemoveMean; PMultiply (ADict [("Ex"%string, 3)]); PSubsection 100 104] None.
Example C98_ex : good_oracles (l_orc Props.Pipeline.toyL) /\ Forall (defines (tf_names (cf_tf c98))) (cf_time c98) /\ agree_on (tf_names (cf_tf c98)) (Props.Pipeline.toyTd 100 40) more98 /\
  processable Props.Pipeline.toyL c98 (Props.Pipeline.toyTd 100 40) /\ processable Props.Pipeline.toyL c98 more98 /\
  (exists r, to_evals Props.Pipeline.toyL c98 100 (Props.Pipeline.toyTd 100 40) = Ok r) /\ (exists r, to_evals Props.Pipeline.toyL c98 100 more98 = Ok r) /\
  exists sol, quick_tf Props.Pipeline.toyL c98 None "m" more98 = Ok sol /\ quick_tf Props.Pipeline.toyL c98 None "m" (Props.Pipeline.toyTd 100 40) = Ok sol /\ length (so_freqs sol) = 4%nat.
Proof.
  split; [exact toy_good|]. split; [repeat constructor|]. split.
  { apply conj; [reflexivity|]. apply conj; [reflexivity|]. apply conj; [reflexivity|]. apply conj; [reflexivity|]. split.
    - exists 40%nat. split; (split; [repeat constructor; cbn; intuition discriminate|]); (split; [reflexivity|]); (split; [discriminate|]).
      + intros r [<-|[<-|[]]]; reflexivity.
      + intros r [<-|[<-|[<-|[]]]]; reflexivity.
    - intros c Hc. assert (c = "Ex"%string \/ c = "Hy"%string) as [-> | ->] by (cbn in Hc; intuition).
      + exists 0%nat, 2%nat. eexists. do 3 (split; [reflexivity|]). reflexivity.
      + exists 1%nat, 1%nat. eexists. do 3 (split; [reflexivity|]). reflexivity. }
  assert (P : forall td, (td = Props.Pipeline.toyTd 100 40 \/ td = more98) -> processable Props.Pipeline.toyL c98 td).
  { intros td Htd. split; [reflexivity|]. split; [cbn; lia|]. split; [cbn; lia|]. intros td' p dd wp H1 H2 H3 H4.
    destruct Htd as [-> | ->]; vm_compute in H1; injection H1 as <-; vm_compute in H2; injection H2 as <-; vm_compute in H3; injection H3 as <-; vm_compute in H4; injection H4 as <-.
    - split; [cbn; lia|]. split; [repeat split; try discriminate; intros x [<-|[]]; cbn; auto|]. split.
      + intros [|[|[|i]]] m Hm; cbn in Hm; try discriminate; try (destruct i; discriminate); injection Hm as <-; eexists; (split; [vm_compute; reflexivity|]); (split; [reflexivity|]); intros r [<-|[<-|[]]]; reflexivity.
      + intros [|[|[|i]]] m w Hm Hw; cbn in Hm, Hw; try discriminate; try (destruct i; discriminate); injection Hm as <-; injection Hw as <-; cbn; lia.
    - split; [cbn; lia|]. split; [repeat split; try discriminate; intros x [<-|[]]; cbn; auto|]. split.
      + intros [|[|[|i]]] m Hm; cbn in Hm; try discriminate; try (destruct i; discriminate); injection Hm as <-; eexists; (split; [vm_compute; reflexivity|]); (split; [reflexivity|]); intros r [<-|[<-|[<-|[]]]]; reflexivity.
      + intros [|[|[|i]]] m w Hm Hw; cbn in Hm, Hw; try discriminate; try (destruct i; discriminate); injection Hm as <-; injection Hw as <-; cbn; lia. }
  split; [apply P; auto|]. split; [apply P; auto|]. split; [eexists; vm_compute; reflexivity|]. split; [eexists; vm_compute; reflexivity|].
  eexists. repeat match goal with |- _ /\ _ => apply conj end; vm_compute; reflexivity.
Qed.

(** the same two recordings as the only measurement of a project each; no calibration data *)
Definition proj98 (td : tdata) : raw_project := [("A"%string, [("m"%string, (8, Ok td))])].
Example C98_ex_project : let L := Props.Pipeline.toyL in let a := Props.Pipeline.toyTd 100 40 in
  keeps_fs L c98 a /\ keeps_fs L c98 more98 /\ junk_rows L /\
  find (fun x : string * raw_site => String.eqb (fst x) "A") (proj98 more98) = Some ("A"%string, [("m"%string, (fs (meta more98), Ok more98))]) /\
  exists s1 s2 sol, process_time_to_evals L c98 [] (first_time (meta a)) (proj98 a) "A" "m" [] = (s1, Ok tt) /\
    process_time_to_evals L c98 [] (first_time (meta more98)) (proj98 more98) "A" "m" [] = (s2, Ok tt) /\
    process_evals_to_tf L c98 (proj98 a) s1 8 "A" None None = Ok sol /\ process_evals_to_tf L c98 (proj98 more98) s2 8 "A" None None = Ok sol /\ length (so_freqs sol) = 4%nat.
Proof.
  split; [intros td' H; vm_compute in H; injection H as <-; reflexivity|]. split; [intros td' H; vm_compute in H; injection H as <-; reflexivity|].
  split; [intros k r c; apply repeat_length|]. split; [reflexivity|]. eexists _, _, _.
  split; [vm_compute; reflexivity|]. split; [vm_compute; reflexivity|]. split; [vm_compute; reflexivity|]. split; vm_compute; reflexivity.
Qed.

(** calibration data of Hy and of the third channel, none of Ex: the conditions of C98_calibrated beside those of C98_ex *)
Definition readers98 : list (chan -> res cal_data) := [fun c => if String.eqb c "Ex" then Err ReadError else if String.eqb c "Hy" then Ok (mkCal [1; 3] [2; 4] [0; 1]) else Ok (mkCal [1; 2] [5; 5] [0; 0])].
Example C98_ex_calibrated : let L := Props.Pipeline.toyL in let a := Props.Pipeline.toyTd 100 40 in
  (forall l, cf_cal_chans c98 = Some l -> NoDup l) /\
  (exists p e r, to_evals L c98 (first_time (meta a)) a = Ok (p, e) /\ run_calibration L c98 readers98 e = Ok r) /\
  (exists p e r, to_evals L c98 (first_time (meta more98)) more98 = Ok (p, e) /\ run_calibration L c98 readers98 e = Ok r) /\
  exists sol, quick_tf L c98 (Some readers98) "m" more98 = Ok sol /\ length (so_freqs sol) = 4%nat.
Proof.
  split; [discriminate|]. split; [eexists _, _, _; split; vm_compute; reflexivity|]. split; [eexists _, _, _; split; vm_compute; reflexivity|].
  eexists. split; vm_compute; reflexivity.
Qed.
