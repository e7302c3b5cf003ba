(** Property C81: which calibration file belongs to a channel. *)
From Coq Require Import String Ascii.
From Verif Require Import Base.Prelude Base.PyString Base.FileSys Spec.Project Model.Time Model.Window Model.Spectra Model.Calibrate Model.Project Model.CalFile
  Spec.Calibrate Spec.CalFile Proofs.CalFile.
Open Scope list_scope.

(** ** C81 *)
(** the name is the pattern with the values in place *)
Theorem C81_file_name_partial : forall ps sensor serial ext, plain_pattern ps -> no_char "$"%char sensor -> no_char "$"%char serial ->
  file_name (pattern ps) (Some ext) sensor serial = filled sensor serial ext ps.
Proof. exact c81_name. Qed.
Print Assumptions C81_file_name_partial.
Theorem C81_no_extension : forall ps sensor serial, plain_pattern ps -> no_char "$"%char sensor ->
  file_name (pattern ps) None sensor serial = filled sensor serial "$extension" ps.
Proof. exact c81_no_extension. Qed.
Print Assumptions C81_no_extension.
(** values are substituted into values *)
Theorem C81_dollar_refuted : exists ps sensor serial ext, plain_pattern ps /\ no_char "$"%char serial /\
  file_name (pattern ps) (Some ext) sensor serial <> filled sensor serial ext ps.
Proof.
  exists [Text "IC_"; Sensor; Extension], "coil$serial"%string, "7"%string, ".json"%string. split; [|split; [cbn; repeat split; discriminate|vm_compute; discriminate]].
  intros s [K|[K|[K|[]]]]; try discriminate. injection K as <-. cbn. repeat split; discriminate.
Qed.
Print Assumptions C81_dollar_refuted.
(** the file read is the one of that name in the calibration directory *)
Theorem C81_file : forall s dir md ps ext parse c cal, plain_pattern ps ->
  (forall a b, assoc c md = Some (a, b) -> no_char "$"%char a /\ no_char "$"%char b /\ component (filled a b ext ps)) ->
  sreader_run s dir md (mkReader (pattern ps) (Some ext) parse) c = Ok cal <->
  exists sensor serial content, assoc c md = Some (sensor, serial) /\ kind_at s (dir ++ [filled sensor serial ext ps]) = Some (KFile content) /\ parse content = Ok cal.
Proof. exact c81_file. Qed.
Print Assumptions C81_file.
(** a channel without metadata, and a sensor without a file, are reported as such *)
Theorem C81_missing : forall s dir md r c,
  (assoc c md = None -> sreader_run s dir md r c = Err KeyError) /\
  (forall p, get_path r dir md c = Ok p -> kind_at s p = None -> sreader_run s dir md r c = Err CalibrationFileNotFound).
Proof.
  intros s dir md r c. split; [intros H; unfold sreader_run, get_path; rewrite H; reflexivity|].
  intros p H K. unfold sreader_run. rewrite H. cbn [bind]. rewrite K. reflexivity.
Qed.
Print Assumptions C81_missing.
(** no other file has an influence on the calibrated data *)
Theorem C81_other_files : forall cis cdiv s s' dir md rs sel d,
  (forall c r p, In c (sm_chans (sd_md d)) -> (forall l, sel = Some l -> In c l) -> In r rs -> get_path r dir md c = Ok p -> same_at s s' p) ->
  calibrator_run cis cdiv (calibration_readers s dir md rs) sel d = calibrator_run cis cdiv (calibration_readers s' dir md rs) sel d.
Proof. exact c81_isolated. Qed.
Print Assumptions C81_other_files.
(** with the default pattern, sensors of different type have different files *)
Theorem C81_sensor_types : forall sensor serial sensor' serial' ext,
  no_char "$"%char sensor -> no_char "$"%char serial -> no_char "$"%char sensor' -> no_char "$"%char serial' ->
  file_name default_file_str (Some ext) sensor serial = file_name default_file_str (Some ext) sensor' serial' <-> sensor = sensor'.
Proof. exact c81_default. Qed.
Print Assumptions C81_sensor_types.
(** and two coils of one type share a file *)
Theorem C81_coils_refuted : exists sensor serial serial', serial <> serial' /\
  file_name default_file_str (Some ".json"%string) sensor serial = file_name default_file_str (Some ".json"%string) sensor serial'.
Proof. exists "MFS06"%string, "210"%string, "211"%string. split; [discriminate|vm_compute; reflexivity]. Qed.
Print Assumptions C81_coils_refuted.
(** with the serial number in the pattern, sensors have different files if no type contains an underscore *)
Theorem C81_serials_partial : forall sensor serial sensor' serial' ext, let ps := [Sensor; Text "_"; Serial; Extension] in
  no_char "$"%char sensor -> no_char "$"%char serial -> no_char "$"%char sensor' -> no_char "$"%char serial' -> no_char "_"%char sensor -> no_char "_"%char sensor' ->
  file_name (pattern ps) (Some ext) sensor serial = file_name (pattern ps) (Some ext) sensor' serial' -> sensor = sensor' /\ serial = serial'.
Proof. exact c81_serial. Qed.
Print Assumptions C81_serials_partial.
Theorem C81_underscore_refuted : exists sensor serial sensor' serial', sensor <> sensor' /\
  file_name "$sensor_$serial$extension" (Some ".json"%string) sensor serial = file_name "$sensor_$serial$extension" (Some ".json"%string) sensor' serial'.
Proof. exists "MFS"%string, "06_1"%string, "MFS_06"%string, "1"%string. split; [discriminate|vm_compute; reflexivity]. Qed.
Print Assumptions C81_underscore_refuted.

Definition cfS : node := Dir [("cal"%string, Dir [("IC_MFS06.json"%string, File "a"); ("IC_other.json"%string, File "b"); ("notes.txt"%string, File "c")])].
Definition cfMd : chans_md := [("Hx"%string, ("MFS06"%string, "210"%string)); ("Ex"%string, ("none"%string, "1"%string))].
Definition cfParse (x : string) : res cal_data := if String.eqb x "a" then Ok (mkCal [1%Q] [2%Q] [0%Q]) else Err ValueError.
Definition cfR : sreader := mkReader (pattern [Text "IC_"; Sensor; Extension]) (Some ".json"%string) cfParse.
Example C81_ex : sr_file_str cfR = default_file_str /\ sreader_run cfS ["cal"%string] cfMd cfR "Hx"%string = Ok (mkCal [1%Q] [2%Q] [0%Q]) /\
  sreader_run cfS ["cal"%string] cfMd cfR "Ex"%string = Err CalibrationFileNotFound /\ sreader_run cfS ["cal"%string] cfMd cfR "Hz"%string = Err KeyError /\
  file_name "$sensor_$serial$extension" (Some ".json"%string) "example" "254" = "example_254.json"%string.
Proof. repeat match goal with |- _ /\ _ => apply conj end; vm_compute; reflexivity. Qed.
Example C81_ex_hyp : plain_pattern [Text "IC_"; Sensor; Extension] /\
  (forall a b, assoc "Hx"%string cfMd = Some (a, b) -> no_char "$"%char a /\ no_char "$"%char b /\ component (filled a b ".json" [Text "IC_"; Sensor; Extension])).
Proof.
  split; [intros s [K|[K|[K|[]]]]; try discriminate; injection K as <-; cbn; repeat split; discriminate|].
  intros a b E. vm_compute in E. injection E as <- <-. split; [cbn; repeat split; discriminate|]. split; [cbn; repeat split; discriminate|].
  split; [discriminate|]. split; [discriminate|]. cbn. repeat split; discriminate.
Qed.
