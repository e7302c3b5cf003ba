(** C43-C44 for a whole run, refutations and examples *)
From Coq Require Import String Ascii.
From Verif Require Import Base.Prelude Base.Rounding Base.ListUtil Base.Interp Base.NdArray Base.Cplx
  Model.Sampling Model.Time Model.Decimate Model.Window Model.Spectra Model.Calibrate Spec.Spectra Spec.Calibrate
  Proofs.Sampling Proofs.TimeMeta Proofs.TimeData Proofs.Spectra Proofs.ToySpec Proofs.Calibrate.
Open Scope list_scope. Open Scope Q_scope.

Lemma arange_NoDup n : NoDup (arange n).
Proof.
  unfold arange. apply FinFun.Injective_map_NoDup; [|apply seq_NoDup]. intros a b H. lia.
Qed.
Lemma arange_in n l : In l (arange n) <-> (0 <= l < n)%Z.
Proof.
  unfold arange. rewrite in_map_iff. split.
  - intros (k & <- & Hk). apply in_seq in Hk. lia.
  - intros H. exists (Z.to_nat l). split; [lia|]. apply in_seq. lia.
Qed.

Lemma c44_run : forall cis cdiv readers sel d x, (1 <= sm_n_levels (sd_md d))%Z -> NoDup (sm_chans (sd_md d)) ->
  (forall l, sel = Some l -> NoDup l) -> calibratable d x ->
  (forall name cal, first_success readers name cal -> good_cal cal) ->
  exists d', calibrator_run cis cdiv readers sel d = Ok d' /\
    sd_md d' = with_spec_history (sd_md d) (sm_history (sd_md d) ++ [COther "SensorCalibrator"]) /\
    forall l m, (0 <= l < sm_n_levels (sd_md d))%Z -> sd_level_md d l = Ok m ->
      exists y, sd_at d' l = Ok (nd3 y) /\
        rowwise (row_fate cis cdiv (sm_chans (sd_md d)) readers (is_selected sel) (sl_freqs m)) (x l) y.
Proof.
  intros cis cdiv readers sel d x Hn NC NS Hx GC.
  set (cs := get_cal_chans sel (sm_chans (sd_md d))).
  assert (Inc : incl cs (sm_chans (sd_md d))).
  { unfold cs, get_cal_chans. destruct sel as [l|]; [|apply incl_refl]. intros c Hc. apply filter_In in Hc. apply chan_in_iff. apply Hc. }
  assert (ND : NoDup cs).
  { unfold cs, get_cal_chans. destruct sel as [l|]; [|exact NC]. apply NoDup_filter. apply NS. reflexivity. }
  assert (SEL : forall c name, nth_error (sm_chans (sd_md d)) c = Some name -> In name cs <-> is_selected sel name).
  { intros c name Hc. apply nth_error_In in Hc. unfold cs, get_cal_chans. destruct sel as [l|]; cbn [is_selected]; [|tauto].
    rewrite filter_In, chan_in_iff. tauto. }
  assert (H0 : holds (sd_md d) (arange (sm_n_levels (sd_md d))) x (sd_data d)).
  { intros l Hl. apply arange_in in Hl. destruct (Hx l Hl) as (m & H1 & H2 & H3 & H4). exists m.
    split; [unfold sd_level_md in H1; destruct (py_nth _ _); congruence|]. split; [exact H2|]. split; assumption. }
  destruct (chans_step cis cdiv (sd_md d) readers _ NC (arange_NoDup _) eq_refl GC cs (sd_data d) x ND Inc H0) as (data' & g & E & Hg & _ & R).
  assert (Z0 : exists y, dict_get 0 data' = Ok (nd3 y)).
  { destruct (Hg 0%Z) as (m & _ & H & _); [apply arange_in; lia|]. eauto. }
  eexists. split.
  { unfold calibrator_run. fold cs. rewrite E. cbn [bind]. unfold make_spec. destruct Z0 as [y Z0]. unfold dict_get in Z0.
    destruct (find (fun kv : Z * nd cq => (fst kv =? 0)%Z) data') as [[k v]|]; [|discriminate]. reflexivity. }
  split; [reflexivity|]. intros l m Hl Hm. exists (g l). split.
  - destruct (Hg l) as (m' & _ & H & _); [apply arange_in; exact Hl|]. exact H.
  - assert (Hm' : py_nth (sm_levels (sd_md d)) l = Some m) by (unfold sd_level_md in Hm; destruct (py_nth _ _); congruence).
    destruct (R l m (proj2 (arange_in _ _) Hl) Hm') as [L W]. split; [exact L|]. intros w win Hw. destruct (W w win Hw) as (win' & Hw' & C).
    exists win'. split; [exact Hw'|]. intros c row Hc. destruct (C c row Hc) as (row' & Hr & F). exists row'. split; [exact Hr|].
    intros name Hname. destruct (F name Hname) as (F1 & F2 & F3). pose proof (SEL c name Hname) as S.
    split; [intros Hs; apply F1; tauto|]. split; [exact F2|]. intros Hs. apply F3. tauto.
Qed.

Lemma c43_isolation : forall cis cdiv readers sel d x d', (1 <= sm_n_levels (sd_md d))%Z -> NoDup (sm_chans (sd_md d)) ->
  (forall l, sel = Some l -> NoDup l) -> calibratable d x ->
  (forall name cal, first_success readers name cal -> good_cal cal) ->
  calibrator_run cis cdiv readers sel d = Ok d' ->
  forall l, (0 <= l < sm_n_levels (sd_md d))%Z -> exists y, sd_at d' l = Ok (nd3 y) /\ length y = length (x l) /\
    forall w win c name, nth_error (x l) w = Some win -> nth_error (sm_chans (sd_md d)) c = Some name ->
      (~ is_selected sel name \/ no_success readers name) ->
      exists win', nth_error y w = Some win' /\ nth_error win' c = nth_error win c.
Proof.
  intros cis cdiv readers sel d x d' Hn NC NS Hx GC E l Hl.
  destruct (c44_run cis cdiv readers sel d x Hn NC NS Hx GC) as (d'' & E' & _ & H). rewrite E in E'. injection E' as <-.
  destruct (Hx l Hl) as (m & Hm & _ & Hs & _). destruct (H l m Hl Hm) as (y & Hy & L & W). exists y. split; [exact Hy|]. split; [exact L|].
  intros w win c name Hw Hc Hu. destruct (W w win Hw) as (win' & Hw' & C). exists win'. split; [exact Hw'|].
  destruct (Hs win (nth_error_In _ _ Hw)) as [LC _]. assert (Hlt : (c < length win)%nat) by (rewrite LC; apply nth_error_Some; congruence).
  destruct (nth_error win c) as [row|] eqn:Hrow; [|apply nth_error_None in Hrow; lia].
  destruct (C c row Hrow) as (row' & Hr & F). destruct (F name Hc) as (F1 & F2 & _). rewrite Hr. f_equal. destruct Hu; auto.
Qed.

(** ** one frequency and several windows *)
Definition toyCal : cal_data := mkCal [1; 3; 5] [2; 4; 4] [0; 0; 0].
Definition toyCis (p : Q) : cq := mkC 1 p.
Definition toyDiv (a b : cq) : cq :=
  mkC ((re a * re b + im a * im b) / normsq b) ((im a * re b - re a * im b) / normsq b).
Definition toyReaders : list (chan -> res cal_data) :=
  [(fun _ => Err CalibrationFileNotFound); (fun c => if String.eqb c "Hy" then Ok toyCal else Err ReadError); (fun c => if String.eqb c "Hy" then Ok (mkCal [1] [9] [0]) else Err CalibrationFileNotFound)].

Lemma toyDiv_spec a b : ~ normsq b == 0 -> ceq (ctimes (toyDiv a b) b) a.
Proof. intros H. unfold normsq in H. split; cbn; unfold normsq; field; exact H. Qed.

Lemma c44_refuted : forall cis cdiv readers, (exists cal, first_success readers "Hy"%string cal /\ good_cal cal) ->
  exists d x, sm_n_levels (sd_md d) = 1%Z /\ sd_at d 0 = Ok (nd3 x) /\ length x = 2%nat /\
    calibrator_run cis cdiv readers (Some ["Hy"]%string) d = Err ValueError.
Proof.
  intros cis cdiv readers (cal & FS & G). exists (toy_spec [[[mkC 1 0]; [mkC 2 0]]; [[mkC 3 0]; [mkC 4 0]]] [2]).
  eexists. split; [reflexivity|]. split; [reflexivity|]. split; [reflexivity|].
  apply get_cal_some in FS. destruct (interpolate_ok cis [2] cal G) as (tf & Et & Lt & _).
  unfold calibrator_run. change (get_cal_chans (Some ["Hy"%string]) _) with ["Hy"%string]. cbn [calibrate_chans]. rewrite FS.
  change (first_index "Hy"%string _) with (Some 1%nat). change (arange _) with [0%Z]. cbn [calibrate_levels].
  change (py_nth _ 0%Z) with (Some (mkSpecLevel 16 2 16 4 7 1 [2])). cbn [bind].
  change (dict_get 0%Z _) with (Ok (nd3 [[[mkC 1 0]; [mkC 2 0]]; [[mkC 3 0]; [mkC 4 0]]])). cbn [bind].
  unfold calibrate_level. change (column _ 1) with (Ok [[mkC 2 0]; [mkC 4 0]]). cbn [bind]. unfold calibrate. cbn [sl_freqs]. rewrite Et. cbn [bind].
  destruct tf as [|t [|]]; try discriminate. reflexivity.
Qed.


(** a channel listed twice is divided twice *)
Lemma c44_twice : exists d', calibrator_run toyCis toyDiv toyReaders (Some ["Hy"; "Hy"]%string) (toy_spec [[[mkC 1 0; mkC 1 0]; [mkC 2 0; mkC 4 0]]] [3; 4]) = Ok d' /\
  exists z, nd_vec (nd3 [[[mkC 1 0; mkC 1 0]; [mkC 2 0; mkC 4 0]]]) [0; 1]%nat = Some [mkC 2 0; mkC 4 0] /\
    (x <- sd_at d' 0 ;; Ok (nd_vec x [0; 1]%nat)) = Ok (Some z) /\
    Forall2 ceq z [mkC (2 / (4 * 4)) 0; mkC (4 / (4 * 4)) 0].
Proof.
  eexists. split; [vm_compute; reflexivity|]. eexists. split; [reflexivity|]. split; [vm_compute; reflexivity|].
  repeat constructor; vm_compute; reflexivity.
Qed.
