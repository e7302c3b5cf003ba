(** When the time processors succeed, and the edges of the time to sample conversions. *)
From Coq Require Import String.
From Verif Require Import Base.Prelude Base.Rounding Base.ListUtil Model.Sampling Model.Time
  Spec.Sampling Spec.Time Proofs.Sampling Proofs.SamplingFloat Proofs.TimeMeta Proofs.TimeProc Proofs.TimeData Proofs.TimeData2.
Open Scope list_scope.
Open Scope Q_scope.

(** ** C01, C02: outside the recording *)

Lemma from_late rnd fs first last t : last < t -> from_time_to_sample rnd fs first last t = Err ValueError.
Proof. intros L. unfold from_time_to_sample, check_from_time. apply Qltb_true in L. rewrite L. reflexivity. Qed.
Lemma to_early rnd fs first last t : t < first -> to_time_to_sample rnd fs first last t = Err ValueError.
Proof. intros L. unfold to_time_to_sample, check_to_time. apply Qltb_true in L. rewrite L. reflexivity. Qed.
Lemma from_accepted rnd fs first last t : t <= last -> exists k, from_time_to_sample rnd fs first last t = Ok k.
Proof.
  intros L. unfold from_time_to_sample, check_from_time.
  destruct (Qltb last t) eqn:A; [apply Qltb_true in A; lra|].
  destruct (Qltb (t - first) 0); cbn [bind]; eexists; reflexivity.
Qed.
Lemma to_accepted rnd fs first last t : first <= t -> exists k, to_time_to_sample rnd fs first last t = Ok k.
Proof.
  intros L. unfold to_time_to_sample, check_to_time.
  destruct (Qltb t first) eqn:A; [apply Qltb_true in A; lra|].
  destruct (Qltb (last - t) 0); cbn [bind]; eexists; reflexivity.
Qed.
Lemma to_late rnd fs first last t : first <= t -> last < t ->
  to_time_to_sample rnd fs first last t = Ok (to_n_samples rnd (last - first) fs Mfloor - 1)%Z.
Proof.
  intros L1 L2. unfold to_time_to_sample, check_to_time.
  destruct (Qltb t first) eqn:A; [apply Qltb_true in A; lra|].
  assert (B : Qltb (last - t) 0 = true) by (apply Qltb_true; lra). rewrite B. reflexivity.
Qed.
Lemma from_early rnd fs first last t : t <= last -> t < first ->
  from_time_to_sample rnd fs first last t = Ok (to_n_samples rnd (first - first) fs Mceil - 1)%Z.
Proof.
  intros L1 L2. unfold from_time_to_sample, check_from_time.
  destruct (Qltb last t) eqn:A; [apply Qltb_true in A; lra|].
  assert (B : Qltb (t - first) 0 = true) by (apply Qltb_true; lra). rewrite B. reflexivity.
Qed.

Lemma n_float_zero {rnd} (G : good_rnd rnd) d fs : d == 0 -> n_float rnd d fs == 1.
Proof.
  intros D. assert (F : qfloor d = 0%Z) by (rewrite (qfloor_comp _ _ D); reflexivity).
  assert (M : td_micros d = 0%Z).
  { unfold td_micros. rewrite F. rewrite (qfloor_comp _ 0); [reflexivity|]. rewrite D. reflexivity. }
  assert (N : td_nanos d == 0) by (unfold td_nanos; rewrite M, F, D; reflexivity).
  assert (Dx : td_days d = 0%Z) by (rewrite (td_days_comp _ _ D); reflexivity).
  assert (Sx : td_seconds d = 0%Z) by (rewrite (td_seconds_comp _ _ D); reflexivity).
  unfold n_float, to_seconds. cbn [fst snd]. rewrite M, Sx, Dx.
  assert (A : rnd (inject_Z 0 / inject_Z 1000000) == 0) by (rewrite (gr_comp _ G _ 0) by reflexivity; apply (gr_0 G)).
  assert (B : rnd (rnd (td_nanos d) / inject_Z 1000000000) == 0).
  { assert (rnd (td_nanos d) == 0) as R by (rewrite (gr_comp _ G _ 0) by exact N; apply (gr_0 G)).
    rewrite (gr_comp _ G _ 0); [apply (gr_0 G)|]. rewrite R. reflexivity. }
  set (a := rnd (inject_Z 0 / inject_Z 1000000)) in *. set (b := rnd (rnd (td_nanos d) / inject_Z 1000000000)) in *.
  assert (C : rnd (inject_Z 0 + a) == 0) by (rewrite (gr_comp _ G _ 0); [apply (gr_0 G)|rewrite A; reflexivity]).
  assert (E : rnd (rnd (inject_Z 0 + a) + b) == 0) by (rewrite (gr_comp _ G _ 0); [apply (gr_0 G)|rewrite C, B; reflexivity]).
  set (r := rnd (rnd (inject_Z 0 + a) + b)) in *.
  assert (H : rnd (inject_Z (0 * (3600 * 24)) + r) == 0) by (rewrite (gr_comp _ G _ 0); [apply (gr_0 G)|rewrite E; reflexivity]).
  assert (I : rnd (rnd (inject_Z (0 * (3600 * 24)) + r) * fs) == 0) by (rewrite (gr_comp _ G _ 0); [apply (gr_0 G)|rewrite H; ring]).
  rewrite (gr_comp _ G _ (inject_Z 1)); [apply (gr_int G); cbn; lia|]. rewrite I. reflexivity.
Qed.
Lemma no_time {rnd} (G : good_rnd rnd) d fs m : d == 0 -> to_n_samples rnd d fs m = 1%Z.
Proof.
  intros D. rewrite to_n_samples_eq. cbv zeta. pose proof (n_float_zero G d fs D) as N.
  assert (I : q_is_integer (n_float rnd d fs) = true).
  { unfold q_is_integer. apply Qeq_bool_iff. change Qfloor with qfloor. rewrite (qfloor_comp _ _ N). rewrite N. reflexivity. }
  rewrite I. rewrite (qfloor_comp _ _ N). reflexivity.
Qed.
Lemma from_early_0 {rnd} (G : good_rnd rnd) fs first last t : t <= first -> t <= last -> from_time_to_sample rnd fs first last t = Ok 0%Z.
Proof.
  intros L1 L2. destruct (Qlt_le_dec t first) as [L|L].
  - rewrite from_early by assumption. rewrite (no_time G) by ring. reflexivity.
  - unfold from_time_to_sample, check_from_time.
    destruct (Qltb last t) eqn:A; [apply Qltb_true in A; lra|].
    destruct (Qltb (t - first) 0) eqn:B; [apply Qltb_true in B; lra|]. cbn [bind]. rewrite (no_time G) by lra. reflexivity.
Qed.

(** ** C19 *)
Lemma lookup_head {A} (c : chan) (f : A) t k g : NoDup (map fst ((c, f) :: t)) -> lookup k t = Some g -> lookup k ((c, f) :: t) = Some g.
Proof.
  intros N L. cbn [lookup]. destruct (String.eqb_spec c k) as [->|]; [|exact L].
  exfalso. cbn in N. inversion N as [|? ? N0 _]; subst. apply N0. apply lookup_in in L. change k with (fst (k, g)). apply in_map, L.
Qed.
Lemma apply_rows_total td : NoDup (chans (meta td)) -> length (rows td) = length (chans (meta td)) ->
  forall fncs d, NoDup (map fst fncs) -> length d = length (rows td) ->
  (forall i r, nth_error (rows td) i = Some r -> length (nth i d []) = length r) ->
  (forall c r f, row_of td c r -> lookup c fncs = Some f -> length (f r) = length r) ->
  exists d', apply_rows td fncs d = Ok d'.
Proof.
  intros NA HL. induction fncs as [|[c f] t IH]; intros d Nf Hd Hw Hf; cbn [apply_rows].
  - eexists. reflexivity.
  - assert (Nt : NoDup (map fst t)) by (cbn in Nf; inversion Nf; assumption).
    assert (Hf' : forall c r f, row_of td c r -> lookup c t = Some f -> length (f r) = length r).
    { intros c' r' f' R L. apply (Hf c' r' f' R). apply lookup_head; assumption. }
    destruct (chan_in c (chans (meta td))) eqn:EC; [|apply IH; assumption].
    unfold get_chan. rewrite EC.
    pose proof (proj1 (chan_in_iff _ _) EC) as I. apply In_nth_error in I as (i & Hi).
    pose proof (chan_index_nodup _ _ _ NA Hi) as Ei. rewrite Ei.
    destruct (nth_error (rows td) i) as [r|] eqn:Er.
    2:{ apply nth_error_None in Er. assert (i < length (chans (meta td)))%nat by (apply nth_error_Some; congruence). lia. }
    cbn [bind]. rewrite (Hw i r Er).
    rewrite (Hf c r f); [|exists i; split; assumption|cbn [lookup]; rewrite String.eqb_refl; reflexivity].
    rewrite Nat.eqb_refl. apply IH; [exact Nt|rewrite upd_nth_length; exact Hd| |exact Hf'].
    intros j r' Hj. assert (j < length d)%nat by (rewrite Hd; apply nth_error_Some; congruence).
    destruct (Nat.eq_dec j i) as [->|NE].
    + erewrite nth_error_nth by (apply nth_error_upd_eq; assumption). assert (r' = r) by congruence. subst.
      apply (Hf c r f); [exists i; split; assumption|cbn [lookup]; rewrite String.eqb_refl; reflexivity].
    + rewrite <- (Hw j r' Hj). destruct (nth_error d j) as [x|] eqn:Ex; [|apply nth_error_None in Ex; lia].
      erewrite nth_error_nth by (rewrite nth_error_upd_neq by congruence; exact Ex).
      erewrite nth_error_nth by exact Ex. reflexivity.
Qed.
Lemma apply_function_total orc fncs td : NoDup (chans (meta td)) -> NoDup (map fst fncs) -> length (rows td) = length (chans (meta td)) ->
  (forall c r f, row_of td c r -> lookup c fncs = Some f -> length (f r) = length r) ->
  exists td', apply_function orc fncs td = Ok td' /\ chans (meta td') = chans (meta td) /\ length (rows td') = length (rows td).
Proof.
  intros NA Nf HL Hf.
  assert (L0 : length (np_empty orc (rows td)) = length (rows td)) by (unfold np_empty; rewrite map_length, seq_length; reflexivity).
  destruct (apply_rows_total td NA HL fncs (np_empty orc (rows td)) Nf L0) as (d' & E); [|exact Hf|].
  - intros i r Hi. assert (Li : (i < length (rows td))%nat) by (apply nth_error_Some; congruence).
    unfold np_empty.
    rewrite (nth_indep _ [] (map (fun j => o_garbage orc 0 j) (seq 0 (length (nth 0 (rows td) []))))) by (rewrite map_length, seq_length; exact Li).
    rewrite (List.map_nth (fun i => map (fun j => o_garbage orc i j) (seq 0 (length (nth i (rows td) []))))).
    rewrite seq_nth by exact Li. cbn [Nat.add]. rewrite map_length, seq_length. rewrite (nth_error_nth _ _ [] Hi). reflexivity.
  - destruct (apply_rows_spec td fncs _ _ NA Nf HL L0 E) as [L _]. unfold apply_function. rewrite E. cbn [bind].
    eexists. split; [reflexivity|]. split; [reflexivity|]. cbn [rows new_time_data]. congruence.
Qed.

(** ** C20 *)
Lemma shift_total rnd drnd s td : s < rnd (1 / fs (meta td)) ->
  ((n_samples (meta td) < 2)%Z -> shift_timestamps rnd drnd s td = Err ValueError) /\
  ((2 <= n_samples (meta td))%Z -> exists td', shift_timestamps rnd drnd s td = Ok td' /\
    n_samples (meta td') = (n_samples (meta td) - 1)%Z /\ fs (meta td') = fs (meta td) /\ chans (meta td') = chans (meta td) /\
    first_time (meta td') == first_time (meta td) + to_timedelta rnd s /\
    last_time (meta td') == stamp (first_time (meta td')) (period rnd (fs (meta td))) (n_samples (meta td) - 2) /\
    length (rows td') = length (rows td) /\ forall r, In r (rows td') -> Z.of_nat (length r) = (n_samples (meta td) - 1)%Z).
Proof.
  intros L. unfold shift_timestamps, dt.
  destruct (Qle_bool (rnd (1 / fs (meta td))) s) eqn:E; [apply Qle_bool_iff in E; lra|].
  destruct (Z.ltb_spec (n_samples (meta td)) 2) as [B|B]; split; intros K; try lia; [reflexivity|].
  eexists. split; [reflexivity|]. cbn [meta new_time_data with_history adjust_time_metadata n_samples fs first_time last_time chans rows].
  repeat match goal with |- _ /\ _ => split end; try reflexivity.
  - unfold stamp, period. replace (n_samples (meta td) - 1 - 1)%Z with (n_samples (meta td) - 2)%Z by lia. ring.
  - apply map_length.
  - intros r Hr. apply in_map_iff in Hr as (r0 & <- & _). rewrite !map_length, arange_length. lia.
Qed.
