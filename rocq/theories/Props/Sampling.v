(** Properties C01-C05, C07: times and samples. *)
From Verif Require Import Base.Prelude Base.Rounding Model.Sampling Spec.Sampling
  Proofs.Sampling Proofs.SamplingFloat Proofs.SamplingErr Proofs.TimeTotal.
Open Scope Q_scope.

(** The condition "1/fs seconds has no sub-microsecond remainder below 0.0001 ns",
    i.e. to_timedelta does not truncate the sampling period. *)
Definition period_not_truncated (fs : Q) : Prop :=
  sub_micro_ns (1 / fs) == 0 \/ 1 # 10000 <= sub_micro_ns (1 / fs).

Theorem C01_from_time_exact : forall fs first last n t,
  0 < fs -> (1 <= n)%Z -> period_not_truncated fs ->
  sample_to_datetime exact fs first (n - 1) (Some n) = Ok last ->
  (last < t -> from_time_to_sample exact fs first last t = Err ValueError) /\
  (t <= last -> exists k, from_time_to_sample exact fs first last t = Ok k
               /\ first_sample_at_or_after first (period exact fs) n t k).
Proof. exact from_time_full. Qed.
Print Assumptions C01_from_time_exact.
Example C01_ex : period_not_truncated 50 /\
  (exists last, sample_to_datetime exact 50 100 (1000 - 1) (Some 1000%Z) = Ok last /\ last == 11998 # 100)
  /\ from_time_to_sample exact 50 100 (11998 # 100) (100 + (101 # 1000)) = Ok 6%Z.
Proof.
  unfold period_not_truncated. split; [left; reflexivity|]. split; [|vm_compute; reflexivity].
  eexists. split; [reflexivity|]. vm_compute. reflexivity.
Qed.

(** In binary64 (and any correctly rounded arithmetic) the sample found is at most one off. *)
Theorem C01_from_time_float_partial : forall rnd, good_rnd rnd -> forall fs first last t,
  0 <= fs -> first <= t -> t <= last -> (t - first) * fs + 1 <= inject_Z (2 ^ 49) ->
  exists k, from_time_to_sample rnd fs first last t = Ok k /\
            (qceil ((t - first) * fs) - 1 <= k <= qceil ((t - first) * fs) + 1)%Z.
Proof. exact (@from_time_within_one). Qed.
Print Assumptions C01_from_time_float_partial.

Theorem C02_to_time_exact : forall fs first last n t,
  0 < fs -> (1 <= n)%Z -> period_not_truncated fs ->
  sample_to_datetime exact fs first (n - 1) (Some n) = Ok last ->
  (t < first -> to_time_to_sample exact fs first last t = Err ValueError) /\
  (first <= t -> exists k, to_time_to_sample exact fs first last t = Ok k
               /\ last_sample_at_or_before first (period exact fs) n t k).
Proof. exact to_time_full. Qed.
Print Assumptions C02_to_time_exact.
Example C02_ex : to_time_to_sample exact 50 100 120 (100 + (101 # 1000)) = Ok 5%Z /\
  to_time_to_sample exact 50 100 120 1000 = Ok 1000%Z.
Proof. split; vm_compute; reflexivity. Qed.

Theorem C02_to_time_float_partial : forall rnd, good_rnd rnd -> forall fs first last t,
  0 <= fs -> first <= t -> t <= last -> (t - first) * fs + 1 <= inject_Z (2 ^ 49) ->
  exists k, to_time_to_sample rnd fs first last t = Ok k /\
            (qfloor ((t - first) * fs) - 1 <= k <= qfloor ((t - first) * fs) + 1)%Z.
Proof. exact (@to_time_within_one). Qed.
Print Assumptions C02_to_time_float_partial.

(** The edges, in every correctly rounded arithmetic and whatever the times: a from time after the recording and a to time
    before it are refused, all others accepted; from times up to the start give sample 0 and to times beyond the end
    what the end gives. *)
Theorem C01_edges : forall rnd, good_rnd rnd -> forall fs first last t,
  (from_time_to_sample rnd fs first last t = Err ValueError <-> last < t) /\
  (t <= last -> t <= first -> from_time_to_sample rnd fs first last t = Ok 0%Z).
Proof.
  intros rnd G fs first last t. split; [split|].
  - intros H. destruct (Qlt_le_dec last t) as [L|L]; [exact L|]. destruct (from_accepted rnd fs first last t L). congruence.
  - apply from_late.
  - intros A B. apply (from_early_0 G); assumption.
Qed.
Print Assumptions C01_edges.
Theorem C02_edges : forall rnd fs first last t,
  (to_time_to_sample rnd fs first last t = Err ValueError <-> t < first) /\
  (first <= last -> last <= t -> to_time_to_sample rnd fs first last t = to_time_to_sample rnd fs first last last \/ t == last).
Proof.
  intros rnd fs first last t. split; [split|].
  - intros H. destruct (Qlt_le_dec t first) as [L|L]; [exact L|]. destruct (to_accepted rnd fs first last t L). congruence.
  - apply to_early.
  - intros A B. destruct (Qlt_le_dec last t) as [L|L]; [left|right; lra].
    rewrite to_late by lra. unfold to_time_to_sample, check_to_time.
    destruct (Qltb last first) eqn:X; [apply Qltb_true in X; lra|].
    destruct (Qltb (last - last) 0) eqn:Y; [apply Qltb_true in Y; lra|]. reflexivity.
Qed.
Print Assumptions C02_edges.
Example C01_edges_ex : from_time_to_sample b64 10 5 7 8 = Err ValueError /\ from_time_to_sample b64 10 5 7 3 = Ok 0%Z /\
  to_time_to_sample b64 10 5 7 3 = Err ValueError /\ to_time_to_sample b64 10 5 7 100 = Ok 20%Z.
Proof. repeat match goal with |- _ /\ _ => apply conj end; vm_compute; reflexivity. Qed.

(** C03 holds in exact arithmetic ... *)
Theorem C03_roundtrip_exact : forall fs first last n k t,
  0 < fs -> period_not_truncated fs ->
  sample_to_datetime exact fs first (n - 1) (Some n) = Ok last ->
  sample_to_datetime exact fs first k (Some n) = Ok t ->
  from_time_to_sample exact fs first last t = Ok k /\ to_time_to_sample exact fs first last t = Ok k.
Proof. exact roundtrip_exact. Qed.
Print Assumptions C03_roundtrip_exact.

(** ... and in binary64 for fs = ..., 1/4, 1/2, 1, 2, ..., 128 Hz up to 2^46 seconds ... *)
Theorem C03_roundtrip_b64_pow2_partial : forall p first last k t,
  (p <= 7)%Z -> (0 <= k)%Z -> (k * 2 ^ (7 - p) <= 2 ^ 53)%Z -> (k < 2 ^ 53)%Z ->
  sample_to_datetime b64 (pow2 p) first k None = Ok t ->
  t <= last ->
  from_time_to_sample b64 (pow2 p) first last t = Ok k /\
  to_time_to_sample b64 (pow2 p) first last t = Ok k.
Proof. exact roundtrip_pow2. Qed.
Print Assumptions C03_roundtrip_b64_pow2_partial.
Example C03_pow2_ex : exists t, sample_to_datetime b64 (pow2 7) 5 123457 None = Ok t /\ t <= 10000.
Proof. eexists. split; [reflexivity|]. vm_compute. discriminate. Qed.

(** ... but fails in binary64 already for fs = 256 Hz (sample 275, ceil) and fs = 50 Hz
    (sample 29, floor). *)
Theorem C03_roundtrip_b64_refuted :
  (exists fs first last n k t,
     b64 fs == fs /\ 0 < fs /\ period_not_truncated fs /\
     sample_to_datetime b64 fs first (n - 1) (Some n) = Ok last /\
     sample_to_datetime b64 fs first k (Some n) = Ok t /\
     from_time_to_sample b64 fs first last t <> Ok k) /\
  (exists fs first last n k t,
     b64 fs == fs /\ 0 < fs /\ period_not_truncated fs /\
     sample_to_datetime b64 fs first (n - 1) (Some n) = Ok last /\
     sample_to_datetime b64 fs first k (Some n) = Ok t /\
     to_time_to_sample b64 fs first last t <> Ok k).
Proof.
  split.
  - exists 256, 0, (0 + inject_Z 999 * period b64 256), 1000%Z, 275%Z, (0 + inject_Z 275 * period b64 256).
    split; [reflexivity|]. split; [reflexivity|]. split; [right; vm_compute; discriminate|].
    split; [reflexivity|]. split; [reflexivity|]. vm_compute. discriminate.
  - exists 50, 0, (0 + inject_Z 999 * period b64 50), 1000%Z, 29%Z, (0 + inject_Z 29 * period b64 50).
    split; [reflexivity|]. split; [reflexivity|]. split; [left; reflexivity|].
    split; [reflexivity|]. split; [reflexivity|]. vm_compute. discriminate.
Qed.
Print Assumptions C03_roundtrip_b64_refuted.

(** Without the condition on the period even exact arithmetic fails (the 0.0001 ns truncation):
    at fs = 10^7 / (10 + 5/10^8) the timestamp of sample 1 maps to sample 0 with to_time_to_sample. *)
Theorem C03_roundtrip_truncation_refuted :
  exists fs first last n k t, 0 < fs /\
     sample_to_datetime exact fs first (n - 1) (Some n) = Ok last /\
     sample_to_datetime exact fs first k (Some n) = Ok t /\
     to_time_to_sample exact fs first last t <> Ok k.
Proof.
  exists (1000000 / (10 + (5 # 100000000))), 0, (0 + inject_Z 9 * period exact (1000000 / (10 + (5 # 100000000)))),
     10%Z, 1%Z, (0 + inject_Z 1 * period exact (1000000 / (10 + (5 # 100000000)))).
  split; [reflexivity|]. split; [reflexivity|]. split; [reflexivity|]. vm_compute. discriminate.
Qed.
Print Assumptions C03_roundtrip_truncation_refuted.

(** The rounding method "round" recovers the number of samples in every good arithmetic. *)
Theorem C03_round_method_robust : forall rnd, good_rnd rnd -> forall d fs k,
  0 <= d -> 0 <= fs -> d * fs == inject_Z k -> (k + 1 <= 2 ^ 49)%Z ->
  to_n_samples rnd d fs Mround = (k + 1)%Z.
Proof. exact (@to_n_samples_round_robust). Qed.
Print Assumptions C03_round_method_robust.
Example C03_round_ex : good_rnd b64 /\ to_n_samples b64 (275 # 256) 256 Mround = 276%Z
  /\ to_n_samples b64 (275 # 256) 256 Mceil = 277%Z.
Proof. split; [exact b64_good|]. split; vm_compute; reflexivity. Qed.

(** C04 *)
Theorem C04_to_timedelta_exact : forall x,
  0 <= x - to_timedelta exact x /\ x - to_timedelta exact x < tiny /\
  (to_timedelta exact x == x <-> (sub_micro_ns x == 0 \/ 1 # 10000 <= sub_micro_ns x)).
Proof.
  exact (fun x => conj (proj1 (to_timedelta_exact_err x))
          (conj (proj2 (to_timedelta_exact_err x)) (to_timedelta_exact_iff x))).
Qed.
Print Assumptions C04_to_timedelta_exact.
Theorem C04_to_seconds_exact : forall x,
  inject_Z (fst (to_seconds exact (to_timedelta exact x))) + snd (to_seconds exact (to_timedelta exact x))
  == to_timedelta exact x.
Proof. exact (fun x => to_seconds_exact (to_timedelta exact x)). Qed.
Print Assumptions C04_to_seconds_exact.
(** every correctly rounded arithmetic: the parts below 10^-13 s are dropped and rounding adds at most 10^-15 s;
    to_seconds of any time delta (also negative) is within 2 * 10^-11 s *)
Theorem C04_to_timedelta_rounded : forall rnd x, good_rnd rnd -> Qabs (to_timedelta rnd x - x) <= 101 # 1000000000000000.
Proof. exact (fun rnd x G => to_timedelta_err G x). Qed.
Print Assumptions C04_to_timedelta_rounded.
Theorem C04_to_seconds_rounded : forall rnd d, good_rnd rnd ->
  Qabs (inject_Z (fst (to_seconds rnd d)) + snd (to_seconds rnd d) - d) <= 1 # 50000000000.
Proof. exact (fun rnd d G => to_seconds_abs G d). Qed.
Print Assumptions C04_to_seconds_rounded.
Example C04_rounded_ex : good_rnd b64 /\ ~ to_timedelta b64 (b64 (1 # 3)) == b64 (1 # 3) /\
  Qabs (to_timedelta b64 (b64 (1 # 3)) - b64 (1 # 3)) <= 1 # 10000000000000000.
Proof. split; [exact b64_good|]. split; vm_compute; discriminate. Qed.
Example C04_ex : to_timedelta exact (1 # 65536) == 1 # 65536 /\ ~ to_timedelta exact (1000000005 # 100000000000000) == 1000000005 # 100000000000000.
Proof. split; vm_compute; [reflexivity|discriminate]. Qed.

(** C05 *)
Theorem C05_to_n_samples : forall d fs,
  (forall k m, d * fs == inject_Z k -> to_n_samples exact d fs m = (k + 1)%Z) /\
  ((forall k, ~ d * fs == inject_Z k) ->
    to_n_samples exact d fs Mceil = (to_n_samples exact d fs Mfloor + 1)%Z) /\
  (to_n_samples exact d fs Mfloor <= to_n_samples exact d fs Mround <= to_n_samples exact d fs Mceil)%Z /\
  (forall m, Qabs (inject_Z (to_n_samples exact d fs m) - (d * fs + 1)) < 1) /\
  Qabs (inject_Z (to_n_samples exact d fs Mround) - (d * fs + 1)) <= 1 # 2 /\
  inject_Z (to_n_samples exact d fs Mfloor) <= d * fs + 1 /\
  d * fs + 1 <= inject_Z (to_n_samples exact d fs Mceil).
Proof. exact to_n_samples_exact_all. Qed.
Print Assumptions C05_to_n_samples.
Example C05_ex : (forall k, ~ (1#3) * 10 == inject_Z k) /\ to_n_samples exact (1#3) 10 Mround = 4%Z.
Proof. split; [|vm_compute; reflexivity]. intros k. unfold Qeq; cbn. lia. Qed.

(** For every rounding: floor <= round <= ceil <= floor + 1. *)
Theorem C05_methods_ordered : forall rnd d fs,
  (to_n_samples rnd d fs Mfloor <= to_n_samples rnd d fs Mround <= to_n_samples rnd d fs Mceil)%Z /\
  (to_n_samples rnd d fs Mceil <= to_n_samples rnd d fs Mfloor + 1)%Z.
Proof. exact to_n_samples_order. Qed.
Print Assumptions C05_methods_ordered.

(** every correctly rounded arithmetic, negative time deltas too: at most one away from the exact answer *)
Theorem C05_within_one_of_exact : forall rnd d fs m, good_rnd rnd -> 0 <= fs -> fs <= 1000000 # 1 -> Qabs (d * fs) <= inject_Z (2 ^ 49) ->
  (to_n_samples exact d fs m - 1 <= to_n_samples rnd d fs m <= to_n_samples exact d fs m + 1)%Z /\
  Qabs (inject_Z (to_n_samples rnd d fs m) - (d * fs + 1)) < 3 # 2.
Proof. exact (fun rnd d fs m G => to_n_samples_near_exact G d fs m). Qed.
Print Assumptions C05_within_one_of_exact.
(** and it is one away in binary64 for whole numbers of samples: 29 and 14 samples at 50 Hz *)
Example C05_within_one_ex : good_rnd b64 /\
  to_n_samples exact (29 # 50) 50 Mfloor = 30%Z /\ to_n_samples b64 (29 # 50) 50 Mfloor = 29%Z /\
  to_n_samples exact (14 # 50) 50 Mceil = 15%Z /\ to_n_samples b64 (14 # 50) 50 Mceil = 16%Z.
Proof. split; [exact b64_good|]. repeat split; vm_compute; reflexivity. Qed.

(** C07, for every rounding *)
Theorem C07_datetime_array : forall rnd first fs n,
  exists ts, datetime_array rnd first fs (Some n) None = Ok ts /\
    length ts = Z.to_nat n /\
    forall i, (0 <= i < n)%Z ->
      exists t, nth_error ts (Z.to_nat i) = Some t /\ sample_to_datetime rnd fs first i (Some n) = Ok t.
Proof. exact datetime_array_spec. Qed.
Print Assumptions C07_datetime_array.
Theorem C07_datetime_array_samples : forall rnd first fs l,
  exists ts, datetime_array rnd first fs None (Some l) = Ok ts /\ length ts = length l /\
    forall j i, nth_error l j = Some i ->
      exists t, nth_error ts j = Some t /\ sample_to_datetime rnd fs first i None = Ok t.
Proof. exact datetime_array_samples_spec. Qed.
Print Assumptions C07_datetime_array_samples.
(** ... which is the sample's place on the time axis, and a sample outside the recording has no time *)
Theorem C07_times : forall rnd fs first n,
  (forall i, (0 <= i < n)%Z -> exists t, sample_to_datetime rnd fs first i (Some n) = Ok t /\ t == stamp first (period rnd fs) i) /\
  (forall i, ~ (0 <= i < n)%Z -> sample_to_datetime rnd fs first i (Some n) = Err ValueError) /\
  (forall i, exists t, sample_to_datetime rnd fs first i None = Ok t /\ t == stamp first (period rnd fs) i).
Proof.
  intros rnd fs first n. unfold sample_to_datetime. repeat match goal with |- _ /\ _ => split end; intros i.
  - intros H. destruct (Z.ltb_spec i 0); [lia|]. destruct (Z.geb_spec i n); [lia|]. eexists. split; reflexivity.
  - intros H. destruct (Z.ltb_spec i 0); [reflexivity|]. destruct (Z.geb_spec i n); [reflexivity|lia].
  - eexists. split; reflexivity.
Qed.
Print Assumptions C07_times.
Example C07_times_ex : sample_to_datetime b64 4 100 3 (Some 4%Z) = Ok (100 + inject_Z 3 * period b64 4) /\
  100 + inject_Z 3 * period b64 4 == 403 # 4 /\ sample_to_datetime b64 4 100 4 (Some 4%Z) = Err ValueError.
Proof. repeat match goal with |- _ /\ _ => apply conj end; vm_compute; reflexivity. Qed.
Theorem C07_increasing : forall first fs i j a b,
  0 < fs -> fs <= inject_Z (10 ^ 13) -> (i < j)%Z ->
  sample_to_datetime exact fs first i None = Ok a -> sample_to_datetime exact fs first j None = Ok b -> a < b.
Proof. exact (fun first fs i j a b H1 H2 => sample_times_increasing exact first fs i j a b (period_exact_pos fs H1 H2)). Qed.
Print Assumptions C07_increasing.
Theorem C07_increasing_rounded : forall rnd, good_rnd rnd -> forall first fs i j a b,
  0 < fs -> fs <= 1000000 -> (i < j)%Z ->
  sample_to_datetime rnd fs first i None = Ok a -> sample_to_datetime rnd fs first j None = Ok b -> a < b.
Proof. exact (fun rnd G first fs i j a b H1 H2 => sample_times_increasing rnd first fs i j a b (period_pos G fs H1 H2)). Qed.
Print Assumptions C07_increasing_rounded.
Example C07_increasing_ex : good_rnd b64 /\ (exists a b, sample_to_datetime b64 3 100 2 None = Ok a /\ sample_to_datetime b64 3 100 3 None = Ok b /\ a < b).
Proof. split; [exact b64_good|]. eexists _, _. split; [reflexivity|]. split; [reflexivity|]. vm_compute. reflexivity. Qed.
