(** Properties C43-C45: calibration. Interpolation in exact arithmetic; np.exp and the
    complex division are arbitrary functions [cis] and [cdiv]. *)
From Coq Require Import String Ascii Permutation Sorted.
From Verif Require Import Base.Prelude Base.Rounding Base.ListUtil Base.Interp Base.NdArray Base.Cplx Base.PyString
  Model.Sampling Model.Time Model.Decimate Model.Window Model.Spectra Model.Calibrate Spec.Spectra Spec.Calibrate
  Proofs.ToySpec Proofs.Calibrate Proofs.CalibrateFinal Proofs.CalTxt.
Open Scope list_scope. Open Scope Q_scope.

(** ** C43 *)
Theorem C43_first_reader : forall readers c cal, get_cal_data readers c = Some cal <-> first_success readers c cal.
Proof. exact get_cal_some. Qed.
Print Assumptions C43_first_reader.
Theorem C43_no_reader : forall readers c, get_cal_data readers c = None <-> no_success readers c.
Proof. exact get_cal_none. Qed.
Print Assumptions C43_no_reader.
Theorem C43_isolation : forall cis cdiv readers sel d x d', (1 <= sm_n_levels (sd_md d))%Z -> NoDup (sm_chans (sd_md d)) ->
  (forall l, sel = Some l -> NoDup l) -> calibratable d x ->
  (forall name cal, first_success readers name cal -> good_cal cal) ->
  calibrator_run cis cdiv readers sel d = Ok d' ->
  forall l, (0 <= l < sm_n_levels (sd_md d))%Z -> exists y, sd_at d' l = Ok (nd3 y) /\ length y = length (x l) /\
    forall w win c name, nth_error (x l) w = Some win -> nth_error (sm_chans (sd_md d)) c = Some name ->
      (~ is_selected sel name \/ no_success readers name) ->
      exists win', nth_error y w = Some win' /\ nth_error win' c = nth_error win c.
Proof. exact c43_isolation. Qed.
Print Assumptions C43_isolation.
(** the first reader fails, the second one wins over the third *)
Example C43_ex : get_cal_data toyReaders "Hy"%string = Some toyCal /\ get_cal_data toyReaders "Ex"%string = None /\
  exists d', calibrator_run toyCis toyDiv toyReaders None toyS = Ok d' /\
    (x <- sd_at d' 0 ;; Ok (nd_vec x [0; 0]%nat)) = Ok (Some [mkC 0 0; mkC 1 10; mkC 2 20; mkC 3 30; mkC 4 40]).
Proof. split; [reflexivity|]. split; [reflexivity|]. eexists. split; vm_compute; reflexivity. Qed.

(** ** C44 *)
Theorem C44_run : forall cis cdiv readers sel d x, (1 <= sm_n_levels (sd_md d))%Z -> NoDup (sm_chans (sd_md d)) ->
  (forall l, sel = Some l -> NoDup l) -> calibratable d x ->
  (forall name cal, first_success readers name cal -> good_cal cal) ->
  exists d', calibrator_run cis cdiv readers sel d = Ok d' /\
    sd_md d' = with_spec_history (sd_md d) (sm_history (sd_md d) ++ [COther "SensorCalibrator"]) /\
    forall l m, (0 <= l < sm_n_levels (sd_md d))%Z -> sd_level_md d l = Ok m ->
      exists y, sd_at d' l = Ok (nd3 y) /\
        rowwise (row_fate cis cdiv (sm_chans (sd_md d)) readers (is_selected sel) (sl_freqs m)) (x l) y.
Proof. exact c44_run. Qed.
Print Assumptions C44_run.
(** one frequency and two windows: the squeezed quotient cannot be assigned back *)
Theorem C44_single_frequency_refuted : forall cis cdiv readers, (exists cal, first_success readers "Hy"%string cal /\ good_cal cal) ->
  exists d x, sm_n_levels (sd_md d) = 1%Z /\ sd_at d 0 = Ok (nd3 x) /\ length x = 2%nat /\
    calibrator_run cis cdiv readers (Some ["Hy"]%string) d = Err ValueError.
Proof. exact c44_refuted. Qed.
Print Assumptions C44_single_frequency_refuted.
(** a channel named twice in the configuration is divided twice *)
Theorem C44_duplicate_channel_refuted :
  exists d', calibrator_run toyCis toyDiv toyReaders (Some ["Hy"; "Hy"]%string) (toy_spec [[[mkC 1 0; mkC 1 0]; [mkC 2 0; mkC 4 0]]] [3; 4]) = Ok d' /\
  exists z, nd_vec (nd3 [[[mkC 1 0; mkC 1 0]; [mkC 2 0; mkC 4 0]]]) [0; 1]%nat = Some [mkC 2 0; mkC 4 0] /\
    (x <- sd_at d' 0 ;; Ok (nd_vec x [0; 1]%nat)) = Ok (Some z) /\
    Forall2 ceq z [mkC (2 / (4 * 4)) 0; mkC (4 / (4 * 4)) 0].
Proof. exact c44_twice. Qed.
Print Assumptions C44_duplicate_channel_refuted.
Example C44_ex_hyp : calibratable toyS (fun _ => [[[mkC 0 0; mkC 1 10; mkC 2 20; mkC 3 30; mkC 4 40]; [mkC 0 0; mkC 1 1; mkC (13#2) (-5#2); mkC 9 (-3); mkC 4 4]]]) /\
  NoDup (sm_chans (sd_md toyS)) /\ (forall a b, ~ normsq b == 0 -> ceq (ctimes (toyDiv a b) b) a).
Proof.
  split; [|split; [repeat constructor; cbn; intuition congruence|exact toyDiv_spec]].
  intros l Hl. assert (l = 0%Z) as -> by (cbn in Hl; lia). eexists. split; [reflexivity|]. split; [reflexivity|]. split; [|right; cbn; lia].
  intros w [<-|[]]. split; [reflexivity|]. intros r [<-|[<-|[]]]; reflexivity.
Qed.
Example C44_ex_cal : forall name cal, first_success toyReaders name cal -> good_cal cal.
Proof.
  intros name cal H. apply get_cal_some in H. cbn in H. destruct (String.eqb name "Hy"); [|discriminate]. injection H as <-.
  split; [discriminate|]. split; [reflexivity|]. split; [reflexivity|].
  intros [|[|[|i]]] [|[|[|j]]] x y Hij Hx Hy; cbn in Hx, Hy; try lia; try (destruct i; discriminate); try (destruct j; discriminate);
    injection Hx as <-; injection Hy as <-; reflexivity.
Qed.

(** ** C45 *)
Theorem C45_rows : forall pf rad srt file r,
  (forall l, Permutation (srt l) l /\ by_freq (srt l)) -> read_txt pf rad srt file = Ok r ->
  exists hdr marker rows tail vals, map strip file = hdr ++ marker :: rows ++ tail /\
    (forall l, In l hdr -> contains "CALIBRATION DATA"%string l = false) /\ contains "CALIBRATION DATA"%string marker = true /\
    rows <> [] /\ (forall l, In l rows -> l <> ""%string) /\ (tail = [] \/ exists t, tail = ""%string :: t) /\
    Forall2 (row_values pf) rows vals /\
    Permutation (ct_rows r) (map (in_radians rad (String.eqb (ct_phase_unit r) "degrees"%string)) vals) /\ by_freq (ct_rows r).
Proof. exact c45_rows. Qed.
Print Assumptions C45_rows.
(** units: last mention, verbatim. Gain and chopper: first mention. Serial and sensor: last
    mention, in lower case *)
Theorem C45_header : forall pf rad srt file r, read_txt pf rad srt file = Ok r ->
  let lines := map strip file in
  last_value (mentions "magnitude unit"%string) (fun l => l) lines "mV/nT"%string (ct_mag_unit r) /\
  last_value (mentions "phase unit"%string) (fun l => l) lines "radians"%string (ct_phase_unit r) /\
  (((forall l, In l lines -> ~ mentions "static gain"%string l) /\ ct_gain r = 1%Q) \/
   exists l v, first_with (mentions "static gain"%string) lines l /\ assigns l v /\ pf v = Some (ct_gain r)) /\
  (((forall l, In l lines -> ~ mentions "chopper"%string l) /\ ct_chopper r = false) \/
   exists l v, first_with (mentions "chopper"%string) lines l /\ assigns l v /\ (ct_chopper r = true <-> v = "True"%string)) /\
  last_value (mentions "serial"%string) lower lines "1"%string (ct_serial r) /\
  last_value (mentions "sensor"%string) lower lines ""%string (ct_sensor r).
Proof. exact c45_header. Qed.
Print Assumptions C45_header.
Definition toy_float (s : string) : option Q :=
  if String.eqb s "1" then Some 1 else if String.eqb s "10" then Some 10 else if String.eqb s "180" then Some 180 else None.
(** the sensor name is not the one in the file *)
Theorem C45_sensor_case_refuted : exists r,
  read_txt toy_float (fun q => q) (fun l => l) ["Sensor = MFS06"; "CALIBRATION DATA"; "1 10 180"]%string = Ok r /\
  assigns "Sensor = MFS06"%string "MFS06"%string /\ ct_sensor r <> "MFS06"%string.
Proof.
  eexists. split; [vm_compute; reflexivity|]. split; [apply value_of_assigns; reflexivity|]. discriminate.
Qed.
Print Assumptions C45_sensor_case_refuted.
(** a title line that mentions the sensor makes the file unreadable *)
Theorem C45_title_line_refuted :
  read_txt toy_float (fun q => q) (fun l => l) ["Sensor calibration of station 1"; "Serial = 1"; "CALIBRATION DATA"; "1 10 180"]%string = Err IndexError.
Proof. vm_compute. reflexivity. Qed.
Print Assumptions C45_title_line_refuted.
Example C45_ex_sort : forall l, Permutation (sort_rows l) l /\ by_freq (sort_rows l).
Proof. exact sort_rows_ok. Qed.
Example C45_ex : exists r,
  read_txt toy_float (fun q => q / 180) sort_rows ["Serial = 10"; "  Phase unit = degrees "; "CALIBRATION DATA"; "180 10 180"; "  10 1  1"; ""; "notes"]%string = Ok r /\
  ct_serial r = "10"%string /\ ct_phase_unit r = "degrees"%string /\ ct_rows r = [(10, 1, 1 / 180); (180, 10, 180 / 180)].
Proof. eexists. split; [vm_compute; reflexivity|]. repeat split; vm_compute; reflexivity. Qed.
