(** Statements assembled for Props/Time.v *)
From Coq Require Import String.
From Verif Require Import Base.Prelude Base.Rounding Base.B32 Base.ListUtil Base.Interp Model.Sampling Model.Time
  Spec.Sampling Spec.Time Proofs.Sampling Proofs.TimeMeta Proofs.TimeProc Proofs.TimeSub
  Proofs.Factors Proofs.TimeData Proofs.TimeData2 Proofs.Shift32.
Open Scope Q_scope.

Lemma slice_entries : forall (A : Type) a b (l : list A),
  (0 <= a)%Z -> (a <= b)%Z -> (b < Z.of_nat (length l))%Z ->
  Z.of_nat (length (slice a (b + 1) l)) = (b - a + 1)%Z /\
  forall k, (0 <= k <= b - a)%Z -> nth_error (slice a (b + 1) l) (Z.to_nat k) = nth_error l (Z.to_nat (a + k)).
Proof.
  intros A a b l H1 H2 H3. split; [rewrite slice_length; lia|].
  intros k Hk. rewrite nth_error_slice by lia. destruct (Z.ltb_spec (Z.of_nat (Z.to_nat k)) (b + 1 - a)); [|lia].
  f_equal. lia.
Qed.

Lemma interpolate_nans_full : forall td td', NoDup (chans (meta td)) -> length (rows td) = length (chans (meta td)) ->
  interpolate_nans td = Ok td' ->
  length (rows td') = length (rows td) /\
  forall i r, nth_error (rows td) i = Some r ->
   exists r', nth_error (rows td') i = Some r' /\
     length r' = length r /\
     (forall k v, nth_error r k = Some (Some v) -> nth_error r' k = Some (Some v)) /\
     (forall k, nth_error r k = Some None -> exists v, nth_error r' k = Some (Some v) /\ gap_value r k v) /\
     (forall k, nth_error r' k <> Some None).
Proof.
  intros td td' N L H. destruct (interpolate_nans_spec td td' N L H) as [A B]. split; [exact A|].
  intros i r Hi. destruct (B i r Hi) as (r' & C & _ & F). exists r'. split; [exact C|].
  pose proof (filled_no_nan _ _ F). destruct F as (F1 & F2 & F3). auto.
Qed.

Definition td2 : tdata :=
  mkData (mkMeta 10 ["Ex"]%string 1 2 100 (1001 # 10) "" [] []) "float64" [[Some 1; Some 3]].
Lemma add_restore_refuted : exists td td1 td2,
  consistent b64 td /\ add b64 (AScalar (2^60)) td = Ok td1 /\ add b64 (AScalar (-(2^60))) td1 = Ok td2 /\
  rows td = [[Some 1; Some 3]] /\ Forall2 ceq (nth 0 (rows td2) []) [Some 0; Some 0].
Proof.
  exists td2. eexists. eexists.
  split. { unfold consistent, td2. cbn [meta rows chans n_chans n_samples first_time last_time fs].
    split; [discriminate|]. split; [reflexivity|]. split; [reflexivity|].
    split; [intros r [<-|[]]; reflexivity|vm_compute; reflexivity]. }
  split; [vm_compute; reflexivity|]. split; [vm_compute; reflexivity|]. split; [reflexivity|].
  repeat constructor.
Qed.

Lemma shift32_full : forall big, big = (2 ^ 23)%Z ->
  consistent b64 (td32 big) /\
  (exists r, rows (td32 big) = [r] /\ nth_error r (Z.to_nat big) = Some (Some 0) /\ nth_error r (S (Z.to_nat big)) = Some (Some 1)) /\
  exists td' r', shift_timestamps b64 b32 (1#4) (td32 big) = Ok td' /\ nth_error (rows td') 0 = Some r' /\
    exists v, nth_error r' (Z.to_nat big) = Some (Some v) /\ v == 0.
Proof.
  intros big Hb. split; [exact (td32_consistent big Hb)|]. split; [|exact (shift32 big Hb)].
  exists (row32 big). split; [reflexivity|]. split; [apply row32_nth; lia|apply row32_nth1; exact Hb].
Qed.

Lemma set_chan_laws : forall td c dt x td', set_chan td c dt x = Ok td' ->
  get_chan td' c = Ok x /\ (forall c', c' <> c -> get_chan td' c' = get_chan td c') /\
  meta td' = meta td /\ dtype td' = dtype td.
Proof.
  intros td c dt x td' H. split; [eapply get_set_same; exact H|]. split; [|eapply set_chan_meta; exact H].
  intros c' N. eapply get_set_other; eassumption.
Qed.

Lemma run_all_usable_good : forall rnd, good_rnd rnd -> forall drnd orc ps td td',
  good_oracles orc -> Forall valid_proc ps -> usable rnd td ->
  (forall qs rest mid, ps = qs ++ rest -> run_all rnd drnd orc qs td = Ok mid -> (n_samples (meta mid) < 2 ^ 49)%Z) ->
  run_all rnd drnd orc ps td = Ok td' -> usable rnd td'.
Proof.
  intros rnd G drnd orc ps td td' GO. apply (run_all_usable G drnd orc ps td td' GO (factors_ok_good orc GO)).
Qed.

Lemma cutoffs_valid : forall rnd, good_rnd rnd -> forall m, 0 < fs m ->
  (forall c l, 0 <= c -> lowpass_cutoffs rnd c m = Ok l \/ highpass_cutoffs rnd c m = Ok l ->
     exists w, l = [w] /\ 0 <= w /\ w <= 1) /\
  (forall lo hi l, 0 <= lo -> bandpass_cutoffs rnd lo hi m = Ok l ->
     exists w1 w2, l = [w1; w2] /\ 0 <= w1 /\ w1 <= w2 /\ w2 <= 1).
Proof.
  intros rnd G m Hf. split.
  - intros c l Hc [H|H]; [|change (highpass_cutoffs rnd c m) with (lowpass_cutoffs rnd c m) in H];
      exact (lowpass_valid G c m l Hf Hc H).
  - intros lo hi l Hl H. exact (bandpass_valid G lo hi m l Hf Hl H).
Qed.

Definition md_fs (f : Q) : tmeta := mkMeta f ["Ex"]%string 1 2 0 0 "" [] [].
Lemma notch_refuted :
  (exists m l w1 w2, 0 < fs m /\ notch_cutoffs b64 48 None m = Ok l /\ l = [w1; w2] /\ 1 < w2) /\
  (exists m l w1 w2, 0 < fs m /\ notch_cutoffs b64 1 None m = Ok l /\ l = [w1; w2] /\ w1 < 0) /\
  (exists m l w1 w2, 0 < fs m /\ notch_cutoffs b64 (1#8) (Some (1#16)) m = Ok l /\ l = [w1; w2] /\ w2 < w1).
Proof.
  split; [|split].
  - exists (md_fs 100). eexists _, _, _. split; [reflexivity|]. split; [vm_compute; reflexivity|]. split; reflexivity.
  - exists (md_fs 100). eexists _, _, _. split; [reflexivity|]. split; [vm_compute; reflexivity|]. split; reflexivity.
  - exists (md_fs (1#3)). eexists _, _, _. split; [reflexivity|]. split; [vm_compute; reflexivity|]. split; reflexivity.
Qed.
