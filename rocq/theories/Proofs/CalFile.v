(** Names of calibration files. *)
From Coq Require Import String Ascii.
From Verif Require Import Base.Prelude Base.ListUtil Base.PyString Base.FileSys Spec.Project Model.Time Model.Window Model.Spectra Model.Calibrate Model.Project Model.CalFile
  Spec.Calibrate Spec.CalFile Proofs.ProjectNames Proofs.Calibrate.
Open Scope list_scope.

Lemma str_assoc a b c : ((a ++ b) ++ c = a ++ (b ++ c))%string.
Proof. induction a as [|x a IH]; cbn; [reflexivity|rewrite IH; reflexivity]. Qed.
Lemma str_nil a : (a ++ "" = a)%string.
Proof. induction a as [|x a IH]; cbn; [reflexivity|rewrite IH; reflexivity]. Qed.
Lemma skip_all old new a s : replace_from old new (String.length a) (a ++ s) = replace_from old new 0 s.
Proof. induction a as [|x a IH]; cbn [String.length append replace_from]; [destruct s; reflexivity|exact IH]. Qed.
Lemma prefix_app a s : prefix a (a ++ s) = true.
Proof. induction a as [|x a IH]; [destruct s; reflexivity|]. cbn. destruct (ascii_dec x x) as [_|]; [exact IH|congruence]. Qed.
Lemma replace_here x old new s : py_replace (String x old) new (String x old ++ s) = (new ++ py_replace (String x old) new s)%string.
Proof.
  unfold py_replace at 1. cbn [append replace_from]. change (String x (old ++ s)%string) with (String x old ++ s)%string. rewrite prefix_app.
  cbn [String.length]. replace (S (String.length old) - 1)%nat with (String.length old) by lia. rewrite skip_all. reflexivity.
Qed.
Lemma replace_plain old new a s : no_char "$"%char a -> py_replace (String "$"%char old) new (a ++ s) = (a ++ py_replace (String "$"%char old) new s)%string.
Proof.
  unfold py_replace. induction a as [|x a IH]; intros H; [reflexivity|]. destruct H as [Hx H]. cbn [append replace_from].
  assert (E : prefix (String "$"%char old) (String x (a ++ s)) = false). { cbn [prefix]. destruct (ascii_dec "$"%char x) as [K|K]; [congruence|reflexivity]. }
  rewrite E, (IH H). reflexivity.
Qed.
Lemma replace_other old new b s : no_char "$"%char b -> (forall t, prefix (String "$"%char old) (String "$"%char b ++ t) = false) ->
  py_replace (String "$"%char old) new (String "$"%char b ++ s) = (String "$"%char b ++ py_replace (String "$"%char old) new s)%string.
Proof.
  intros H E. unfold py_replace at 1. cbn [append replace_from]. specialize (E s). cbn [append] in E. rewrite E.
  pose proof (replace_plain old new b s H) as K. unfold py_replace in K. rewrite K. reflexivity.
Qed.
Lemma replace_nil old new : py_replace old new "" = ""%string.
Proof. reflexivity. Qed.

(** the pattern after each of the three replacements *)
Fixpoint part (vals : piece -> string) (ps : list piece) : string := match ps with [] => ""%string | p :: t => (vals p ++ part vals t)%string end.
Definition v0 (p : piece) := spelled p.
Definition v1 (sensor : string) (p : piece) := match p with Sensor => sensor | _ => spelled p end.
Definition v2 (sensor serial : string) (p : piece) := match p with Sensor => sensor | Serial => serial | _ => spelled p end.
Definition v3 (sensor serial ext : string) (p : piece) := match p with Sensor => sensor | Serial => serial | Extension => ext | Text s => s end.
Lemma part_pattern ps : pattern ps = part v0 ps.
Proof. induction ps as [|p ps IH]; [reflexivity|]. cbn [pattern part]. rewrite IH. reflexivity. Qed.
Lemma part_filled a b c ps : filled a b c ps = part (v3 a b c) ps.
Proof. induction ps as [|p ps IH]; [reflexivity|]. cbn [filled part]. rewrite IH. destruct p; reflexivity. Qed.
Lemma step_replace old new v w ps : plain_pattern ps ->
  (forall p s, In p ps -> py_replace old new (v p ++ s) = (w p ++ py_replace old new s)%string) -> py_replace old new (part v ps) = part w ps.
Proof.
  intros _ H. induction ps as [|p ps IH]; [reflexivity|]. cbn [part]. rewrite H by (left; reflexivity). f_equal. apply IH. intros q s Hq. apply H. right. exact Hq.
Qed.
Ltac nochar := cbn; repeat split; discriminate.
Lemma step1 sensor ps : plain_pattern ps -> py_replace "$sensor" sensor (part v0 ps) = part (v1 sensor) ps.
Proof.
  intros HP. apply step_replace; [exact HP|]. intros [t| | |] s Hp; cbn [v0 v1 spelled].
  - apply replace_plain. apply HP. exact Hp.
  - apply replace_here.
  - apply replace_other; [nochar|intros t; reflexivity].
  - apply replace_other; [nochar|intros t; reflexivity].
Qed.
Lemma step2 sensor serial ps : plain_pattern ps -> no_char "$"%char sensor -> py_replace "$serial" serial (part (v1 sensor) ps) = part (v2 sensor serial) ps.
Proof.
  intros HP HS. apply step_replace; [exact HP|]. intros [t| | |] s Hp; cbn [v1 v2 spelled].
  - apply replace_plain. apply HP. exact Hp.
  - apply replace_plain. exact HS.
  - apply replace_here.
  - apply replace_other; [nochar|intros t; reflexivity].
Qed.
Lemma step3 sensor serial ext ps : plain_pattern ps -> no_char "$"%char sensor -> no_char "$"%char serial ->
  py_replace "$extension" ext (part (v2 sensor serial) ps) = part (v3 sensor serial ext) ps.
Proof.
  intros HP HS HR. apply step_replace; [exact HP|]. intros [t| | |] s Hp; cbn [v2 v3 spelled].
  - apply replace_plain. apply HP. exact Hp.
  - apply replace_plain. exact HS.
  - apply replace_plain. exact HR.
  - apply replace_here.
Qed.
Lemma c81_name ps sensor serial ext : plain_pattern ps -> no_char "$"%char sensor -> no_char "$"%char serial ->
  file_name (pattern ps) (Some ext) sensor serial = filled sensor serial ext ps.
Proof. intros HP HS HR. unfold file_name. rewrite part_pattern, (step1 _ _ HP), (step2 _ _ _ HP HS), (step3 _ _ _ _ HP HS HR), part_filled. reflexivity. Qed.
(** a reader without an extension leaves the place as it is *)
Lemma c81_no_extension ps sensor serial : plain_pattern ps -> no_char "$"%char sensor ->
  file_name (pattern ps) None sensor serial = filled sensor serial "$extension" ps.
Proof.
  intros HP HS. unfold file_name. rewrite part_pattern, (step1 _ _ HP), (step2 _ _ _ HP HS), part_filled. clear.
  induction ps as [|p ps IH]; [reflexivity|]. cbn [part]. rewrite IH. destruct p; reflexivity.
Qed.

(** the file that is read *)
Lemma c81_file s dir md ps ext parse c cal : plain_pattern ps ->
  (forall a b, assoc c md = Some (a, b) -> no_char "$"%char a /\ no_char "$"%char b /\ component (filled a b ext ps)) ->
  sreader_run s dir md (mkReader (pattern ps) (Some ext) parse) c = Ok cal <->
  exists sensor serial content, assoc c md = Some (sensor, serial) /\ kind_at s (dir ++ [filled sensor serial ext ps]) = Some (KFile content) /\ parse content = Ok cal.
Proof.
  intros HP HC. unfold sreader_run, get_path. cbn [sr_file_str sr_extension sr_parse]. destruct (assoc c md) as [[a b]|] eqn:E; cbn [bind].
  - destruct (HC a b eq_refl) as (HA & HB & HF). rewrite (c81_name ps a b ext HP HA HB), (pjoin_component _ _ HF). split.
    + intros H. destruct (kind_at s _) as [[content|]|] eqn:K; try discriminate. exists a, b, content. auto.
    + intros (a' & b' & content & E' & K & H). assert (a' = a) as -> by congruence. assert (b' = b) as -> by congruence. rewrite K. exact H.
  - split; [discriminate|]. intros (? & ? & ? & K & _). congruence.
Qed.
Lemma c81_only_named s s' dir md rs c : (forall r p, In r rs -> get_path r dir md c = Ok p -> same_at s s' p) ->
  get_cal_data (calibration_readers s dir md rs) c = get_cal_data (calibration_readers s' dir md rs) c.
Proof.
  induction rs as [|r rs IH]; intros H; [reflexivity|]. unfold calibration_readers in *. cbn [map get_cal_data].
  assert (E : sreader_run s dir md r c = sreader_run s' dir md r c).
  { unfold sreader_run. destruct (get_path r dir md c) as [p|e] eqn:E; [|reflexivity]. cbn [bind]. rewrite (H r p (or_introl eq_refl) E). reflexivity. }
  rewrite E, IH; [reflexivity|]. intros r' p Hr. apply H. right. exact Hr.
Qed.
Lemma cal_chans_ext cis cdiv md R R' : forall cs data, (forall c, In c cs -> get_cal_data R c = get_cal_data R' c) ->
  calibrate_chans cis cdiv md R cs data = calibrate_chans cis cdiv md R' cs data.
Proof.
  induction cs as [|c cs IH]; intros data H; [reflexivity|]. cbn [calibrate_chans]. rewrite (H c (or_introl eq_refl)).
  assert (K : forall d, calibrate_chans cis cdiv md R cs d = calibrate_chans cis cdiv md R' cs d) by (intros d; apply IH; intros x Hx; apply H; right; exact Hx).
  destruct (get_cal_data R' c); [|apply K]. destruct (first_index c (Spectra.sm_chans md)); [|reflexivity].
  destruct (calibrate_levels _ _ _ _ _ _ _); [|reflexivity]. cbn [bind]. apply K.
Qed.
Lemma c81_isolated cis cdiv s s' dir md rs sel d :
  (forall c r p, In c (Spectra.sm_chans (Spectra.sd_md d)) -> (forall l, sel = Some l -> In c l) -> In r rs -> get_path r dir md c = Ok p -> same_at s s' p) ->
  calibrator_run cis cdiv (calibration_readers s dir md rs) sel d = calibrator_run cis cdiv (calibration_readers s' dir md rs) sel d.
Proof.
  intros H. unfold calibrator_run. rewrite (cal_chans_ext cis cdiv _ (calibration_readers s dir md rs) (calibration_readers s' dir md rs)); [reflexivity|].
  intros c Hc. apply c81_only_named. intros r p Hr Hp. apply (H c r p); [| |exact Hr|exact Hp].
  - unfold get_cal_chans in Hc. destruct sel as [l|]; [|exact Hc]. apply filter_In in Hc. destruct Hc as [_ Hc]. unfold chan_in in Hc.
    apply existsb_exists in Hc. destruct Hc as (x & Hx & Ex). apply String.eqb_eq in Ex. subst. exact Hx.
  - intros l E. unfold get_cal_chans in Hc. rewrite E in Hc. apply filter_In in Hc. exact (proj1 Hc).
Qed.

(** different sensors, different files *)
Lemma c81_default sensor serial sensor' serial' ext : no_char "$"%char sensor -> no_char "$"%char serial -> no_char "$"%char sensor' -> no_char "$"%char serial' ->
  file_name default_file_str (Some ext) sensor serial = file_name default_file_str (Some ext) sensor' serial' <-> sensor = sensor'.
Proof.
  intros H1 H2 H3 H4. assert (HP : plain_pattern [Text "IC_"; Sensor; Extension]). { intros s [K|[K|[K|[]]]]; try discriminate. injection K as <-. nochar. }
  change default_file_str with (pattern [Text "IC_"; Sensor; Extension]). rewrite !c81_name by assumption. cbn [filled]. split; [|intros ->; reflexivity].
  rewrite !str_nil. intros E. apply app_cancel_l in E. apply app_cancel_r in E. exact E.
Qed.
Lemma c81_serial sensor serial sensor' serial' ext : let ps := [Sensor; Text "_"; Serial; Extension] in
  no_char "$"%char sensor -> no_char "$"%char serial -> no_char "$"%char sensor' -> no_char "$"%char serial' -> no_char "_"%char sensor -> no_char "_"%char sensor' ->
  file_name (pattern ps) (Some ext) sensor serial = file_name (pattern ps) (Some ext) sensor' serial' -> sensor = sensor' /\ serial = serial'.
Proof.
  intros ps H1 H2 H3 H4 U1 U2. assert (HP : plain_pattern ps). { intros s [K|[K|[K|[K|[]]]]]; try discriminate. injection K as <-. nochar. }
  rewrite !c81_name by assumption. cbn [ps filled]. rewrite !str_nil. intros E.
  destruct (no_char_split "_"%char sensor sensor' (serial ++ ext) (serial' ++ ext) U1 U2 E) as [-> E2]. split; [reflexivity|]. apply app_cancel_r in E2. exact E2.
Qed.
