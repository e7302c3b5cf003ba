(** C59: processes and dictionaries. *)
From Coq Require Import String.
From Verif Require Import Base.Prelude Base.FileSys Model.Process Spec.Process Proofs.FileSys Proofs.Process.
Open Scope list_scope.

(** ** every ordinary process is rebuilt from its dictionary *)
Theorem C59_round_trip : forall k, classes_ok k -> forall o, ordinary k o ->
  fst (validate (k_reg k) (k_treg k) (k_tbase k) (to_dict o)) = Ok o.
Proof. exact c59_round_trip. Qed.
Print Assumptions C59_round_trip.
Theorem C59_tf_round_trip : forall k, classes_ok k -> forall o, ordinary_tf k o ->
  fst (validate_tf (k_treg k) (k_tbase k) (to_dict o)) = Ok o.
Proof. exact tf_round. Qed.
Print Assumptions C59_tf_round_trip.
(** what validation or a constructor makes of data without odd objects is ordinary, so it
    round trips *)
Theorem C59_validated : forall k v o, classes_ok k -> sound k v -> fst (validate (k_reg k) (k_treg k) (k_tbase k) v) = Ok o ->
  ordinary k o /\ fst (validate (k_reg k) (k_treg k) (k_tbase k) (to_dict o)) = Ok o.
Proof. exact c59_validated. Qed.
Print Assumptions C59_validated.
Theorem C59_constructed : forall k c d o, classes_ok k -> assoc (c_name c) (k_reg k) = Some c -> sound k (VDict d) ->
  make (k_reg k) (k_treg k) (k_tbase k) c None d = Ok o ->
  ordinary k o /\ fst (validate (k_reg k) (k_treg k) (k_tbase k) (to_dict o)) = Ok o.
Proof. exact c59_constructed. Qed.
Print Assumptions C59_constructed.
(** a Configuration made from the content of a JSON file is written and read back unchanged *)
Theorem C59_configuration : forall k c n d o, classes_ok k -> class_ok k c -> sound k (VDict d) ->
  make (k_reg k) (k_treg k) (k_tbase k) c (Some n) d = Ok o ->
  exists fs, o = VObj (c_name c) n fs /\
    to_dict o = VDict (("name"%string, VStr n) :: map (fun kv => (fst kv, to_dict (snd kv))) fs) /\
    make (k_reg k) (k_treg k) (k_tbase k) c (Some n) (map (fun kv => (fst kv, to_dict (snd kv))) fs) = Ok o.
Proof. exact c59_config_json. Qed.
Print Assumptions C59_configuration.

(** ** refuted: validation removes the name from every dictionary it is given, so the same
    dictionary cannot be validated twice *)
Theorem C59_dictionary_untouched_refuted : forall k d, In "name"%string (map fst d) ->
  let v := validate (k_reg k) (k_treg k) (k_tbase k) in
  keys (snd (v (VDict d))) = filter (fun j => negb (String.eqb j "name")) (map fst d) /\
  fst (v (snd (v (VDict d)))) = Err KeyError.
Proof. exact c59_mutates. Qed.
Print Assumptions C59_dictionary_untouched_refuted.
Theorem C59_tf_dictionary_untouched_refuted : forall k d, In "name"%string (map fst d) ->
  let v := validate_tf (k_treg k) (k_tbase k) in
  snd (v (VDict d)) = VDict (dict_del "name"%string d) /\ fst (v (snd (v (VDict d)))) = Err KeyError.
Proof. exact c59_tf_mutates. Qed.
Print Assumptions C59_tf_dictionary_untouched_refuted.
(** refuted: a process with a name of the user's choice; the name is a public parameter of every
    process, but the dictionary's name is taken for the class *)
Theorem C59_custom_name_refuted : forall k c n fs, assoc n (k_reg k) = None ->
  fst (validate (k_reg k) (k_treg k) (k_tbase k) (to_dict (VObj c n fs))) = Err ValueError.
Proof. exact c59_custom_unknown. Qed.
Print Assumptions C59_custom_name_refuted.
Theorem C59_custom_name_other_class : forall k c n fs o, classes_ok k ->
  fst (validate (k_reg k) (k_treg k) (k_tbase k) (to_dict (VObj c n fs))) = Ok o -> class_of o = Some n.
Proof. exact c59_custom_other. Qed.
Print Assumptions C59_custom_name_other_class.
Theorem C59_custom_tf_name_refuted : forall k c n fs, tf_class k n = None ->
  fst (validate_tf (k_treg k) (k_tbase k) (to_dict (VTf c n fs))) = Err ValueError.
Proof. exact c59_custom_tf. Qed.
Print Assumptions C59_custom_tf_name_refuted.
(** refuted: a field declared for any class accepts every registered class *)
Theorem C59_declared_class_refuted : forall k c f declared d cl o, c_fields c = [f] -> f_type f = FProcess declared ->
  assoc d (k_reg k) = Some cl -> c_name cl = d -> make (k_reg k) (k_treg k) (k_tbase k) cl None [] = Ok o ->
  make (k_reg k) (k_treg k) (k_tbase k) c None [(f_name f, VDict [("name"%string, VStr d)])] = Ok (VObj (c_name c) (c_name c) [(f_name f, o)]) /\
  class_of o = Some d.
Proof. exact c59_confusion. Qed.
Print Assumptions C59_declared_class_refuted.

(** ** an installation with a few of the classes of resistics *)
Open Scope string_scope.
Definition any : list (string * val) -> val -> res val :=
  fun _ x => match x with VStr t => Ok (VStr t) | VOther t => Ok (VOther t) | _ => Err ValidationError end.
(** an integer: the text "7" becomes the number 7, as pydantic does *)
Definition int : list (string * val) -> val -> res val :=
  fun _ x => match x with VStr t => Ok (VOther t) | VOther t => Ok (VOther t) | _ => Err ValidationError end.
(** a validator that looks at an earlier field, as n_in does *)
Definition same (k : string) : list (string * val) -> val -> res val :=
  fun p x => match x with
             | VOther t => if String.eqb t "None" then match assoc k p with Some (VOther t) => Ok (VOther t) | _ => Err KeyError end else Ok (VOther t)
             | _ => Err ValidationError
             end.
Definition cProcess := mkCls "TimeProcess" ["TimeProcess"] [].
Definition cMean := mkCls "RemoveMean" ["RemoveMean"; "TimeProcess"] [].
Definition cNotch := mkCls "Notch" ["Notch"; "TimeProcess"] [mkF "notch" (FPlain int) None; mkF "band" (FPlain int) (Some (VOther "5"))].
Definition cDecimator := mkCls "Decimator" ["Decimator"] [mkF "resample" (FPlain int) (Some (VOther "True")); mkF "max_single_factor" (FPlain int) (Some (VOther "3"))].
Definition cJson := mkCls "SensorCalibrationJSON" ["SensorCalibrationJSON"] [mkF "extension" (FPlain any) (Some (VStr ".json"))].
Definition cSensor := mkCls "SensorCalibrator" ["SensorCalibrator"; "Calibrator"] [mkF "readers" (FProcesses "CalibrationReader") None].
Definition cTfun := mkCls "TransferFunction" ["TransferFunction"] [mkF "variation" (FPlain any) (Some (VStr "generic")); mkF "in_chans" (FPlain int) None; mkF "n_in" (FPlain (same "in_chans")) (Some (VOther "None"))].
Definition cImpedance := mkCls "ImpedanceTensor" ["ImpedanceTensor"; "TransferFunction"]
  [mkF "variation" (FPlain any) (Some (VStr "default")); mkF "in_chans" (FPlain int) (Some (VOther "2")); mkF "n_in" (FPlain (same "in_chans")) (Some (VOther "None"))].
Definition oMean := VObj "RemoveMean" "RemoveMean" [].
Definition oDecimator := VObj "Decimator" "Decimator" [("resample", VOther "True"); ("max_single_factor", VOther "3")].
Definition oImpedance := VTf "ImpedanceTensor" "ImpedanceTensor" [("variation", VStr "default"); ("in_chans", VOther "2"); ("n_in", VOther "2")].
Definition oJson := VObj "SensorCalibrationJSON" "SensorCalibrationJSON" [("extension", VStr ".json")].
Definition oSensor := VObj "SensorCalibrator" "SensorCalibrator" [("readers", VList [oJson])].
Definition cConfig := mkCls "Configuration" ["Configuration"]
  [mkF "time_processors" (FProcesses "TimeProcess") (Some (VList [oMean])); mkF "decimator" (FProcess "Decimator") (Some oDecimator);
   mkF "sensor_calibrator" (FProcess "Calibrator") (Some oSensor); mkF "tf" FTf (Some oImpedance)].
Definition tReg : registry := fold_left register [cProcess; cMean; cNotch; cDecimator; cJson; cSensor] [].
Definition tTreg : registry := fold_left register [cImpedance] [].
Definition K := mkClasses tReg tTreg cTfun.

Lemma any_stable : stable (FPlain any).
Proof. intros p x y H. destruct x; try discriminate; injection H as <-; split; reflexivity. Qed.
Lemma int_stable : stable (FPlain int).
Proof. intros p x y H. destruct x; try discriminate; injection H as <-; split; reflexivity. Qed.
Lemma same_stable j : stable (FPlain (same j)).
Proof.
  intros p x y H. destruct x as [t|t| | | |]; try discriminate. unfold same in H. destruct (String.eqb t "None") eqn:Et.
  - destruct (assoc j p) as [[|t'| | | |]|] eqn:E; try discriminate. injection H as <-. split; [|reflexivity]. unfold same. destruct (String.eqb t' "None"); [rewrite E|]; reflexivity.
  - injection H as <-. split; [|reflexivity]. unfold same. rewrite Et. reflexivity.
Qed.
Ltac in_cases := repeat match goal with H : In _ _ |- _ => cbn in H | H : _ \/ _ |- _ => destruct H as [H|H] | H : False |- _ => destruct H end.
Ltac nodup := repeat constructor; cbn; intuition discriminate.
Lemma pair_inj {A B} (a b : A) (x y : B) : (a, x) = (b, y) -> a = b /\ x = y.
Proof. intros H. split; congruence. Qed.
Lemma K_process n c : assoc n (k_reg K) = Some c -> c_name c = n /\ class_ok K c.
Proof.
  intros H. apply assoc_In in H. in_cases; (apply pair_inj in H; destruct H; subst n c); (split; [reflexivity|]);
    (split; [nodup|split; [cbn; intuition discriminate|]]); intros f Hf; in_cases; subst f; cbn [f_type f_default];
    (split; [first [exact any_stable|exact int_stable|exact I]|intros v Hv; first [discriminate Hv|left; eexists; reflexivity]]).
Qed.
Lemma K_tf n c : tf_class K n = Some c -> c_name c = n /\ tf_class_ok c.
Proof.
  unfold tf_class. destruct (String.eqb_spec n "TransferFunction") as [->|_].
  - intros H. injection H as <-. split; [reflexivity|]. split; [nodup|split; [cbn; intuition discriminate|]]. intros f Hf. in_cases; subst f; cbn [f_type];
      (split; [first [exact any_stable|exact int_stable|exact (same_stable _)]|eexists; reflexivity]).
  - intros H. apply assoc_In in H. in_cases. apply pair_inj in H. destruct H; subst n c. split; [reflexivity|]. split; [nodup|split; [cbn; intuition discriminate|]].
    intros f Hf. in_cases; subst f; cbn [f_type]; (split; [first [exact any_stable|exact int_stable|exact (same_stable _)]|eexists; reflexivity]).
Qed.
Lemma K_ok : classes_ok K.
Proof. split; [exact K_process|exact K_tf]. Qed.
Lemma config_ok : class_ok K cConfig.
Proof.
  split; [nodup|split; [cbn; intuition discriminate|]]. intros f Hf. in_cases; subst f; cbn [f_type f_default]; (split; [exact I|]); intros v Hv; right; injection Hv as <-.
  - apply ordinary_many. repeat constructor. apply ordinary_obj with cMean; [reflexivity|constructor].
  - apply ordinary_one. apply ordinary_obj with cDecimator; [reflexivity|]. repeat constructor.
  - apply ordinary_one. apply ordinary_obj with cSensor; [reflexivity|]. constructor; [|constructor]. apply ordinary_many. constructor; [|constructor].
    apply ordinary_obj with cJson; [reflexivity|]. repeat constructor.
  - apply ordinary_tfun. apply ordinary_tf_obj with cImpedance; [reflexivity|].
    repeat (eapply plain_cons; [reflexivity|reflexivity|reflexivity|]). constructor.
Qed.
(** a configuration file; the notch frequency is given as text *)
Definition file : list (string * val) :=
  [("tf", VDict [("name", VStr "TransferFunction"); ("in_chans", VOther "3")]);
   ("time_processors", VList [VDict [("notch", VStr "50"); ("name", VStr "Notch")]; VDict [("name", VStr "RemoveMean"); ("unknown", VOther "1")]])].
Definition tMake := make (k_reg K) (k_treg K) (k_tbase K).
Definition tValidate := validate (k_reg K) (k_treg K) (k_tbase K).
Example C59_file : tMake cConfig (Some "mine") file =
  Ok (VObj "Configuration" "mine"
        [("time_processors", VList [VObj "Notch" "Notch" [("notch", VOther "50"); ("band", VOther "5")]; oMean]); ("decimator", oDecimator);
         ("sensor_calibrator", oSensor); ("tf", VTf "TransferFunction" "TransferFunction" [("variation", VStr "generic"); ("in_chans", VOther "3"); ("n_in", VOther "3")])]).
Proof. vm_compute. reflexivity. Qed.
Example C59_file_round_trips : exists o fs, tMake cConfig (Some "mine") file = Ok o /\ o = VObj "Configuration" "mine" fs /\
  tMake cConfig (Some "mine") (map (fun kv => (fst kv, to_dict (snd kv))) fs) = Ok o.
Proof.
  assert (E := C59_file). match type of E with _ = Ok ?o => destruct (C59_configuration K cConfig "mine" file o K_ok config_ok) as (fs & H1 & _ & H3) end.
  - cbn. tauto.
  - exact E.
  - eexists. exists fs. split; [exact E|]. split; [exact H1|exact H3].
Qed.
Example C59_calibrator : tValidate (to_dict oSensor) = (Ok oSensor, VDict [("readers", VList [VDict [("extension", VStr ".json")]])]).
Proof. vm_compute. reflexivity. Qed.
(** the decimator of a configuration may be anything *)
Example C59_decimator_is_a_time_process : exists fs, tMake cConfig (Some "mine") [("decimator", VDict [("name", VStr "RemoveMean")])] = Ok (VObj "Configuration" "mine" fs) /\
  assoc "decimator" fs = Some oMean /\ ~ instance_of tReg oMean "Decimator".
Proof.
  eexists. split; [vm_compute; reflexivity|]. split; [vm_compute; reflexivity|].
  intros (c & cl & H1 & H2 & H3). injection H1 as <-. injection H2 as <-. cbn in H3. intuition discriminate.
Qed.
(** a second configuration from the same dictionary fails *)
Example C59_twice : fst (tValidate (snd (tValidate (VDict [("name", VStr "Notch"); ("notch", VOther "50")])))) = Err KeyError /\
  fst (tValidate (VDict [("name", VStr "Notch"); ("notch", VOther "50")])) = Ok (VObj "Notch" "Notch" [("notch", VOther "50"); ("band", VOther "5")]).
Proof. split; vm_compute; reflexivity. Qed.
Example C59_named : tMake cNotch (Some "mains") [("notch", VOther "50")] = Ok (VObj "Notch" "mains" [("notch", VOther "50"); ("band", VOther "5")]) /\
  fst (tValidate (to_dict (VObj "Notch" "mains" [("notch", VOther "50"); ("band", VOther "5")]))) = Err ValueError.
Proof. split; vm_compute; reflexivity. Qed.
