(** Property C104: a gain in the calibration data. *)
From Coq Require Import String.
From Verif Require Import Base.Prelude Base.Rounding Base.ListUtil Base.NdArray Base.Cplx
  Model.Sampling Model.Time Model.Decimate Model.Window Model.Spectra Model.Calibrate Model.Gather Model.Regression Model.Pipeline
  Spec.Calibrate Spec.Gather Spec.Regression Spec.Pipeline Spec.Linear Spec.Solvers Spec.Units Spec.Gain
  Proofs.Linear Proofs.Units Proofs.UnitsEx Proofs.GainRun Props.Pipeline Props.Linear Props.Units.
Open Scope list_scope. Open Scope Q_scope.

(** ** C104 *)
(** the same recording with calibration data of other gains: the transfer function entry from input i to output o is
    multiplied by g(i)/g(o), when the cross channels share one gain *)
Theorem C104_gain : forall (L : library) (c : config) (g : chan -> Q) (gx : Q) ra rb name td p e0 ea sa sb, let tf := cf_tf c in
  l_cmul L = ctimes -> junk_shape (l_junk1 L) (l_junk2 L) -> divides_gain (l_cdiv L) -> NoDup (tf_out tf) -> NoDup (tf_in tf) -> keys_distinct tf ->
  (forall l, cf_cal_chans c = Some l -> NoDup l) -> gains g (cf_cal_chans c) ra rb ->
  NoDup (chans (meta td)) -> processable L c td -> (forall x, In x (tf_cross tf) -> g x == gx) -> ~ gx == 0 ->
  to_evals L c (first_time (meta td)) td = Ok (p, e0) -> run_calibration L c ra e0 = Ok ea ->
  unit_free (l_fit L) \/
    (minimises (l_fit L) /\ forall level f, (0 <= level < sm_n_levels (sd_md ea))%Z -> (0 <= f < dp_per_level p)%Z -> evals_determine ea tf level f) ->
  quick_tf L c (Some ra) name td = Ok sa -> quick_tf L c (Some rb) name td = Ok sb ->
  so_freqs sb = so_freqs sa /\ forall i, (i < length (so_freqs sa))%nat ->
    exists ta tb, sol_tensor sa (Z.of_nat i) = Ok ta /\ sol_tensor sb (Z.of_nat i) = Ok tb /\ tensor_in_units (fun x => / g x) tf ta tb.
Proof.
  intros L c g gx ra rb name td p e0 ea sa sb tf HM HJ DG N1 N2 KD NS GS NC PA GX G0 EA CA FIT QA QB.
  exact (run_gain L c g ra rb HM HJ DG N1 N2 KD NS GS gx name td p e0 ea sa sb NC PA GX G0 EA CA FIT QA QB).
Qed.
Print Assumptions C104_gain.
(** two recordings in different units, each with calibration data in its own units, have the same transfer function;
    here the cross channels need not share a unit *)
Theorem C104_same_units : forall (L : library) (c : config) (g : chan -> Q) ra rb name a b p e0 ea sa sb, let tf := cf_tf c in
  l_cmul L = ctimes -> junk_shape (l_junk1 L) (l_junk2 L) -> divides_gain (l_cdiv L) -> NoDup (tf_out tf) -> NoDup (tf_in tf) -> keys_distinct tf ->
  (forall l, cf_cal_chans c = Some l -> NoDup l) -> gains g (cf_cal_chans c) ra rb ->
  linear_library L -> (forall b k l, linear_routine (o_filter (l_orc L) b k l)) -> (forall x, l_drnd L x == x) -> Forall unit_proc (cf_time c) ->
  in_units g a b -> processable L c a -> processable L c b -> to_evals L c (first_time (meta a)) a = Ok (p, e0) -> run_calibration L c ra e0 = Ok ea ->
  respects (l_fit L) \/
    (minimises (l_fit L) /\ forall level f, (0 <= level < sm_n_levels (sd_md ea))%Z -> (0 <= f < dp_per_level p)%Z -> evals_determine ea tf level f) ->
  quick_tf L c (Some ra) name a = Ok sa -> quick_tf L c (Some rb) name b = Ok sb ->
  so_freqs sb = so_freqs sa /\ forall i, (i < length (so_freqs sa))%nat ->
    exists ta tb, sol_tensor sa (Z.of_nat i) = Ok ta /\ sol_tensor sb (Z.of_nat i) = Ok tb /\ same_tensor tf ta tb.
Proof.
  intros L c g ra rb name a b p e0 ea sa sb tf HM HJ DG N1 N2 KD NS GS HL HF ED HU U PA PB EA CA FIT QA QB.
  destruct (run_same_units L c g ra rb HM HJ DG N1 N2 KD NS GS name a b p e0 ea sa sb HL HF ED HU U PA PB EA CA FIT QA QB) as (E & H). split; [exact E|]. intros i Hi. destruct (H i Hi) as (ta & tb & T1 & T2 & T).
  exists ta, tb. split; [exact T1|]. split; [exact T2|]. exact (units_one_same _ _ _ T).
Qed.
Print Assumptions C104_same_units.

(** the same claims for commands on a project: one site with one measurement *)
Theorem C104_gain_project : forall (L : library) (c : config) (g : chan -> Q) (gx : Q) ra rb proj site meas td s s1 s2 p e0 ea sa sb, let tf := cf_tf c in
  l_cmul L = ctimes -> junk_shape (l_junk1 L) (l_junk2 L) -> junk_rows L -> divides_gain (l_cdiv L) -> NoDup (tf_out tf) -> NoDup (tf_in tf) -> keys_distinct tf ->
  (forall l, cf_cal_chans c = Some l -> NoDup l) -> gains g (cf_cal_chans c) ra rb ->
  find (fun x : string * raw_site => String.eqb (fst x) site) proj = Some (site, [(meas, (fs (meta td), Ok td))]) ->
  NoDup (chans (meta td)) -> processable L c td -> keeps_fs L c td -> (forall x, In x (tf_cross tf) -> g x == gx) -> ~ gx == 0 ->
  to_evals L c (first_time (meta td)) td = Ok (p, e0) -> run_calibration L c ra e0 = Ok ea ->
  unit_free (l_fit L) \/
    (minimises (l_fit L) /\ forall level f, (0 <= level < sm_n_levels (sd_md ea))%Z -> (0 <= f < dp_per_level p)%Z -> evals_determine ea tf level f) ->
  process_time_to_evals L c ra (first_time (meta td)) proj site meas s = (s1, Ok tt) -> process_evals_to_tf L c proj s1 (fs (meta td)) site None None = Ok sa ->
  process_time_to_evals L c rb (first_time (meta td)) proj site meas s = (s2, Ok tt) -> process_evals_to_tf L c proj s2 (fs (meta td)) site None None = Ok sb ->
  so_freqs sb = so_freqs sa /\ forall i, (i < length (so_freqs sa))%nat ->
    exists ta tb, sol_tensor sa (Z.of_nat i) = Ok ta /\ sol_tensor sb (Z.of_nat i) = Ok tb /\ tensor_in_units (fun x => / g x) tf ta tb.
Proof.
  intros L c g gx ra rb proj site meas td s s1 s2 p e0 ea sa sb tf HM HJ HR DG N1 N2 KD NS GS HF NC PA KF GX G0 EA CA FIT T1 QA T2 QB.
  pose proof (C67_project_equals_quick L c ra (Some ra) proj site meas td s s1 (Ok tt) HF PA KF (or_introl eq_refl) HR T1) as E1. cbn beta iota in E1.
  pose proof (C67_project_equals_quick L c rb (Some rb) proj site meas td s s2 (Ok tt) HF PA KF (or_introl eq_refl) HR T2) as E2. cbn beta iota in E2.
  apply (C104_gain L c g gx ra rb meas td p e0 ea sa sb); try assumption; congruence.
Qed.
Print Assumptions C104_gain_project.
Theorem C104_same_units_project : forall (L : library) (c : config) (g : chan -> Q) ra rb proj proj' site meas a b s s1 s' s2 p e0 ea sa sb, let tf := cf_tf c in
  l_cmul L = ctimes -> junk_shape (l_junk1 L) (l_junk2 L) -> junk_rows L -> divides_gain (l_cdiv L) -> NoDup (tf_out tf) -> NoDup (tf_in tf) -> keys_distinct tf ->
  (forall l, cf_cal_chans c = Some l -> NoDup l) -> gains g (cf_cal_chans c) ra rb ->
  linear_library L -> (forall b k l, linear_routine (o_filter (l_orc L) b k l)) -> (forall x, l_drnd L x == x) -> Forall unit_proc (cf_time c) ->
  find (fun x : string * raw_site => String.eqb (fst x) site) proj = Some (site, [(meas, (fs (meta a), Ok a))]) ->
  find (fun x : string * raw_site => String.eqb (fst x) site) proj' = Some (site, [(meas, (fs (meta b), Ok b))]) ->
  in_units g a b -> processable L c a -> processable L c b -> keeps_fs L c a -> keeps_fs L c b -> to_evals L c (first_time (meta a)) a = Ok (p, e0) -> run_calibration L c ra e0 = Ok ea ->
  respects (l_fit L) \/
    (minimises (l_fit L) /\ forall level f, (0 <= level < sm_n_levels (sd_md ea))%Z -> (0 <= f < dp_per_level p)%Z -> evals_determine ea tf level f) ->
  process_time_to_evals L c ra (first_time (meta a)) proj site meas s = (s1, Ok tt) -> process_evals_to_tf L c proj s1 (fs (meta a)) site None None = Ok sa ->
  process_time_to_evals L c rb (first_time (meta b)) proj' site meas s' = (s2, Ok tt) -> process_evals_to_tf L c proj' s2 (fs (meta b)) site None None = Ok sb ->
  so_freqs sb = so_freqs sa /\ forall i, (i < length (so_freqs sa))%nat ->
    exists ta tb, sol_tensor sa (Z.of_nat i) = Ok ta /\ sol_tensor sb (Z.of_nat i) = Ok tb /\ same_tensor tf ta tb.
Proof.
  intros L c g ra rb proj proj' site meas a b s s1 s' s2 p e0 ea sa sb tf HM HJ HR DG N1 N2 KD NS GS HL HF ED HU HF1 HF2 U PA PB K1 K2 EA CA FIT T1 QA T2 QB.
  pose proof (C67_project_equals_quick L c ra (Some ra) proj site meas a s s1 (Ok tt) HF1 PA K1 (or_introl eq_refl) HR T1) as E1. cbn beta iota in E1.
  pose proof (C67_project_equals_quick L c rb (Some rb) proj' site meas b s' s2 (Ok tt) HF2 PB K2 (or_introl eq_refl) HR T2) as E2. cbn beta iota in E2.
  apply (C104_same_units L c g ra rb meas a b p e0 ea sa sb); try assumption; congruence.
Qed.
Print Assumptions C104_same_units_project.

(** ** every channel calibrated, with the gains of the other units *)
Definition gainL : library := mkLib (l_rnd linL) (l_drnd linL) (l_orc linL) (l_pw linL) (l_fuel linL) (l_ns_time linL) (l_ns_delta linL) (l_next_fast_len linL) (l_transform linL)
  (l_uniform linL) (l_gaussian linL) (l_cis linL) quotient (l_cmul linL) (l_junk linL) (l_junk1 linL) (l_junk2 linL) cramer.
Definition gainR (g : chan -> Q) : list (chan -> res cal_data) := [fun c => Ok (mkCal [1; 3] [g c * 2; g c * 4] [0; 1])].
Lemma quotient_gain : divides_gain quotient.
Proof.
  intros q g [a b] [a' b'] [x y] [x' y'] G0 [E1 E2] [F1 F2]. cbn [re im cscale] in E1, E2, F1, F2. unfold quotient, normsq. cbn [re im cscale ctimes conj_].
  assert (I : / (x' * x' + y' * y') == / g * / g * / (x * x + y * y)).
  { transitivity (/ (g * g * (x * x + y * y))); [apply Qinv_comp; setoid_rewrite F1; setoid_rewrite F2; ring|]. setoid_rewrite Qinv_mult_distr. setoid_rewrite Qinv_mult_distr. reflexivity. }
  assert (H : g * / g == 1) by (apply Qmult_inv_r; exact G0). set (v := / (x * x + y * y)) in *. set (w := / (x' * x' + y' * y')) in *. set (h := / g) in *. clearbody v w.
  split; cbn [re im cscale ctimes conj_]; setoid_rewrite I; setoid_rewrite E1; setoid_rewrite E2; setoid_rewrite F1; setoid_rewrite F2; unfold Qdiv; fold h.
  - transitivity (q * h * (g * h) * (v * (a * x - b * - y))); [ring|]. setoid_rewrite H. ring.
  - transitivity (q * h * (g * h) * (v * (a * - y + b * x))); [ring|]. setoid_rewrite H. ring.
Qed.
Lemma gain_gains : gains uniK None (gainR one) (gainR uniK).
Proof.
  intros c. split; [unfold uniK; destruct (String.eqb c "Ex"); discriminate|]. left. eexists _, _. split; [exact I|]. split; [exists [], (fun c => Ok (mkCal [1; 3] [one c * 2; one c * 4] [0; 1])), []; split; [reflexivity|split; [reflexivity|intros r []]]|].
  split; [exists [], (fun c => Ok (mkCal [1; 3] [uniK c * 2; uniK c * 4] [0; 1])), []; split; [reflexivity|split; [reflexivity|intros r []]]|]. split; [reflexivity|]. split; [reflexivity|]. unfold one. constructor; [ring|]. constructor; [ring|]. constructor.
Qed.
Definition gainSol (g k : chan -> Q) : solution := match quick_tf gainL calC (Some (gainR g)) "m" (uniTd k) with Ok s => s | Err _ => mkSol (mkTf [] [] []) [] [] end.
Lemma gain_runs : quick_tf gainL calC (Some (gainR one)) "m" (uniTd one) = Ok (gainSol one one) /\ quick_tf gainL calC (Some (gainR uniK)) "m" (uniTd one) = Ok (gainSol uniK one) /\
  quick_tf gainL calC (Some (gainR uniK)) "m" (uniTd uniK) = Ok (gainSol uniK uniK).
Proof. repeat match goal with |- _ /\ _ => apply conj end; vm_compute; reflexivity. Qed.
Definition gainE : spec_data cq := match run_calibration gainL calC (gainR one) (snd calPE) with Ok d => d | Err _ => snd calPE end.
Lemma gain_evals : to_evals gainL calC (first_time (meta (uniTd one))) (uniTd one) = Ok calPE /\ run_calibration gainL calC (gainR one) (snd calPE) = Ok gainE.
Proof. apply conj; vm_compute; reflexivity. Qed.
Lemma gain_keys : NoDup (tf_out (cf_tf calC)) /\ NoDup (tf_in (cf_tf calC)) /\ keys_distinct (cf_tf calC) /\ forall l, cf_cal_chans calC = Some l -> NoDup l.
Proof.
  split; [constructor; [intros []|constructor]|]. split; [constructor; [intros []|constructor]|]. split; [|intros l E; discriminate E].
  intros o i o' i' [<-|[]] [<-|[]] [<-|[]] [<-|[]] _. split; reflexivity.
Qed.
Lemma gain_processable k : k = one \/ k = uniK -> processable gainL calC (uniTd k).
Proof. exact (cal_processable k). Qed.
Example C104_ex_gain : so_freqs (gainSol uniK one) = so_freqs (gainSol one one) /\ length (so_freqs (gainSol one one)) = 2%nat /\
  (forall i, (i < length (so_freqs (gainSol one one)))%nat -> exists ta tb, sol_tensor (gainSol one one) (Z.of_nat i) = Ok ta /\ sol_tensor (gainSol uniK one) (Z.of_nat i) = Ok tb /\ tensor_in_units (fun x => / uniK x) (cf_tf calC) ta tb) /\
  exists z z', entry_at (gainSol one one) 0 0 0 = Some z /\ entry_at (gainSol uniK one) 0 0 0 = Some z' /\ ~ re z == 0 /\ re z' == (1 # 2000) * re z.
Proof.
  destruct uni_library as (_ & _ & _ & A4 & A5 & _). destruct gain_keys as (N1 & N2 & N3 & N4). destruct gain_runs as (R1 & R2 & _). destruct gain_evals as (E1 & E2).
  destruct (C104_gain gainL calC uniK (1 # 2) (gainR one) (gainR uniK) "m" (uniTd one) (fst calPE) (snd calPE) gainE (gainSol one one) (gainSol uniK one) A4 A5 quotient_gain N1 N2 N3 N4 gain_gains) as (E & H).
  - exact (proj2 (units_st uniK _ _ (uni_in_units uniK))).
  - apply gain_processable. left. reflexivity.
  - intros x [<-|[]]; vm_compute; reflexivity.
  - discriminate.
  - rewrite E1. destruct calPE. reflexivity.
  - exact E2.
  - left. exact cramer_unit_free.
  - exact R1.
  - exact R2.
  - split; [exact E|]. split; [vm_compute; reflexivity|]. split; [exact H|]. eexists _, _. split; [vm_compute; reflexivity|]. split; [vm_compute; reflexivity|]. split; [vm_compute; discriminate|vm_compute; reflexivity].
Qed.
Example C104_ex_same_units : so_freqs (gainSol uniK uniK) = so_freqs (gainSol one one) /\
  (forall i, (i < length (so_freqs (gainSol one one)))%nat -> exists ta tb, sol_tensor (gainSol one one) (Z.of_nat i) = Ok ta /\ sol_tensor (gainSol uniK uniK) (Z.of_nat i) = Ok tb /\ same_tensor (cf_tf calC) ta tb) /\ rows (uniTd uniK) <> rows (uniTd one).
Proof.
  destruct uni_library as (A1 & A2 & A3 & A4 & A5 & _). destruct gain_keys as (N1 & N2 & N3 & N4). destruct gain_runs as (R1 & _ & R2). destruct gain_evals as (E1 & E2).
  destruct (C104_same_units gainL calC uniK (gainR one) (gainR uniK) "m" (uniTd one) (uniTd uniK) (fst calPE) (snd calPE) gainE (gainSol one one) (gainSol uniK uniK) A4 A5 quotient_gain N1 N2 N3 N4 gain_gains A1 A2 A3 uni_procs (uni_in_units uniK)) as (E & H).
  - apply gain_processable. left. reflexivity.
  - apply gain_processable. right. reflexivity.
  - rewrite E1. destruct calPE. reflexivity.
  - exact E2.
  - left. exact (unit_free_respects _ cramer_unit_free).
  - exact R1.
  - exact R2.
  - split; [exact E|]. split; [exact H|]. vm_compute. discriminate.
Qed.
Example C104_ex_project : find (fun x : string * raw_site => String.eqb (fst x) "A") [("A"%string, [("m"%string, (8, Ok (uniTd one)))])] = Some ("A"%string, [("m"%string, (fs (meta (uniTd one)), Ok (uniTd one)))]) /\
  keeps_fs gainL calC (uniTd one) /\ junk_rows gainL /\ exists s1 s2,
  process_time_to_evals gainL calC (gainR one) 100 [("A"%string, [("m"%string, (8, Ok (uniTd one)))])] "A" "m" [] = (s1, Ok tt) /\ process_evals_to_tf gainL calC [("A"%string, [("m"%string, (8, Ok (uniTd one)))])] s1 8 "A" None None = Ok (gainSol one one) /\
  process_time_to_evals gainL calC (gainR uniK) 100 [("A"%string, [("m"%string, (8, Ok (uniTd one)))])] "A" "m" [] = (s2, Ok tt) /\ process_evals_to_tf gainL calC [("A"%string, [("m"%string, (8, Ok (uniTd one)))])] s2 8 "A" None None = Ok (gainSol uniK one).
Proof.
  split; [reflexivity|]. split; [intros td' H; vm_compute in H; injection H as <-; reflexivity|]. split; [intros k r c; apply repeat_length|].
  eexists _, _. split; [vm_compute; reflexivity|]. split; [vm_compute; reflexivity|]. split; [vm_compute; reflexivity|]. vm_compute. reflexivity.
Qed.
