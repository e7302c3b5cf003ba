(** Properties C08-C11, C13-C21, C23, C24: time data. *)
From Coq Require Import String Qminmax Znumtheory.
From Verif Require Import Base.Prelude Base.Rounding Base.B32 Base.Precision Base.ListUtil Base.Interp Model.Sampling Model.Time
  Spec.Sampling Spec.Time Proofs.Sampling Proofs.SamplingFloat Proofs.TimeMeta Proofs.TimeProc Proofs.TimeSub Proofs.SubsectionFloat
  Proofs.Factors Proofs.TimeData Proofs.TimeData2 Proofs.TimeTotal Proofs.Shift32 Proofs.ShiftFloat Proofs.TimeFinal Proofs.Toy Proofs.RoundedMore.
Open Scope Q_scope.

Definition period_not_truncated (fs : Q) : Prop :=
  sub_micro_ns (1 / fs) == 0 \/ 1 # 10000 <= sub_micro_ns (1 / fs).

(** A small recording for the examples: 2 channels, 6 samples at 10 Hz *)
Definition ex_td : tdata :=
  mkData (mkMeta 10 ["Ex"; "Hy"]%string 2 6 100 (1005 # 10) "" [] [])
         "float64" [[Some 1; Some 2; Some 3; None; Some 5; Some 6]; [Some 0; Some 0; Some 9; Some 9; Some 4; Some 5]].
Lemma ex_td_consistent : consistent exact ex_td /\ consistent b64 ex_td.
Proof.
  unfold consistent, ex_td. cbn [meta rows chans n_chans n_samples first_time last_time fs].
  repeat split; try discriminate.
  - intros r [<-|[<-|[]]]; reflexivity.
  - intros r [<-|[<-|[]]]; reflexivity.
Qed.
Lemma ex_nodup : NoDup (chans (meta ex_td)).
Proof. repeat constructor; cbn; intuition discriminate. Qed.

(** ** C08: for every correctly rounded arithmetic, in particular binary64 *)
Theorem C08_read_range_valid : forall rnd, good_rnd rnd -> forall m from_time to_time from_sample to_sample a b,
  0 < fs m -> (1 <= n_samples m <= 2 ^ 49 - 1)%Z ->
  last_time m == stamp (first_time m) (period rnd (fs m)) (n_samples m - 1) ->
  get_read_samples rnd m from_time to_time from_sample to_sample = Ok (a, b) ->
  (0 <= a)%Z /\ (a < b)%Z /\ (b <= n_samples m - 1)%Z.
Proof. intros rnd G. exact (read_range_valid G). Qed.
Print Assumptions C08_read_range_valid.
Example C08_ex : get_read_samples b64 (meta ex_td) (Some (1001 # 10)) (Some (1004 # 10)) None None = Ok (1%Z, 4%Z) /\
  get_read_samples b64 (meta ex_td) None None (Some 2%Z) (Some 3%Z) = Ok (2%Z, 3%Z).
Proof. split; vm_compute; reflexivity. Qed.

Theorem C08_samples_outside_rejected : forall rnd m from_time to_time from_sample to_sample s,
  (s < 0 \/ n_samples m <= s)%Z ->
  (from_time = None -> from_sample = Some s ->
     get_read_samples rnd m from_time to_time from_sample to_sample = Err ValueError) /\
  (to_time = None -> to_sample = Some s ->
     exists e, get_read_samples rnd m from_time to_time from_sample to_sample = Err e).
Proof. exact read_samples_reject. Qed.
Print Assumptions C08_samples_outside_rejected.

Theorem C08_samples_inside_accepted : forall rnd m a b,
  (0 <= a)%Z -> (a < b)%Z -> (b <= n_samples m - 1)%Z ->
  get_read_samples rnd m None None (Some a) (Some b) = Ok (a, b).
Proof. exact read_samples_explicit. Qed.
Print Assumptions C08_samples_inside_accepted.

(** ** C09 *)
Theorem C09_partial_read_is_slice : forall rnd m dt stored a b,
  exists td, read_data_numpy rnd m dt stored a b = Ok td /\
    rows td = map (slice a (b + 1)) stored /\ dtype td = dt /\
    n_samples (meta td) = (b - a + 1)%Z /\
    sample_to_datetime rnd (fs m) (first_time m) a None = Ok (first_time (meta td)) /\
    (exists t, sample_to_datetime rnd (fs m) (first_time m) b None = Ok t /\ last_time (meta td) == t) /\
    fs (meta td) = fs m /\ chans (meta td) = chans m /\ n_chans (meta td) = n_chans m /\
    info (meta td) = info m /\ chans_md (meta td) = chans_md m /\
    history (meta td) = history m ++ [CReader].
Proof. exact read_data_spec. Qed.
Print Assumptions C09_partial_read_is_slice.

(** element view of the slice: entry k of the read row is entry a+k of the stored one *)
Theorem C09_slice_entries : forall (A : Type) a b (l : list A),
  (0 <= a)%Z -> (a <= b)%Z -> (b < Z.of_nat (length l))%Z ->
  Z.of_nat (length (slice a (b + 1) l)) = (b - a + 1)%Z /\
  forall k, (0 <= k <= b - a)%Z -> nth_error (slice a (b + 1) l) (Z.to_nat k) = nth_error l (Z.to_nat (a + k)).
Proof. exact slice_entries. Qed.
Print Assumptions C09_slice_entries.
Example C09_ex : exists td, reader_run b64 (meta ex_td) "float64" (rows ex_td) None None (Some 2%Z) (Some 4%Z) = Ok td /\
  rows td = [[Some 3; None; Some 5]; [Some 9; Some 9; Some 4]].
Proof. eexists. split; [vm_compute; reflexivity|]. reflexivity. Qed.

(** ** C10 *)
Theorem C10_subsection_closed_interval : forall td f t,
  0 < fs (meta td) -> period_not_truncated (fs (meta td)) -> (1 <= n_samples (meta td))%Z -> consistent exact td ->
  let first := first_time (meta td) in let dtt := period exact (fs (meta td)) in let n := n_samples (meta td) in
  ((forall td', subsection exact f t td <> Ok td') <->
     (forall i j, (0 <= i < n)%Z -> (0 <= j < n)%Z ->
        in_interval first dtt f t i -> in_interval first dtt f t j -> i = j)) /\
  (forall td', subsection exact f t td = Ok td' ->
     rows td' = map (samples_between first dtt f t) (rows td) /\
     exists a b, (0 <= a)%Z /\ (a < b)%Z /\ (b < n)%Z /\
       (forall j, (0 <= j < n)%Z -> (in_interval first dtt f t j <-> (a <= j <= b)%Z)) /\
       n_samples (meta td') = (b - a + 1)%Z /\
       first_time (meta td') == stamp first dtt a /\ last_time (meta td') == stamp first dtt b).
Proof. intros td f t H1 H2 H3 H4. exact (subsection_spec td H1 H2 H3 H4 f t). Qed.
Print Assumptions C10_subsection_closed_interval.
Example C10_ex : exists td', subsection exact (1001 # 10) (10045 # 100) ex_td = Ok td' /\
  rows td' = [[Some 2; Some 3; None; Some 5]; [Some 0; Some 9; Some 9; Some 4]] /\
  period_not_truncated (fs (meta ex_td)).
Proof. eexists. split; [vm_compute; reflexivity|]. split; [reflexivity|left; reflexivity]. Qed.

(** in every correctly rounded arithmetic, in particular binary64: with times of the exact sampling frequency, all samples
    are kept that are inside the interval by 2^-50 of the time since the start (for a recording of a day less than 10^-10
    seconds), and no sample is kept that is outside by more; a sample at the very start is never lost *)
Theorem C10_subsection_rounded : forall rnd td f t, good_rnd rnd -> 0 < fs (meta td) -> (1 <= n_samples (meta td) <= 2 ^ 49 - 1)%Z -> consistent rnd td ->
  let first := first_time (meta td) in let n := n_samples (meta td) in let F := fs (meta td) in
  let f' := Qmax f first in let t' := Qmin t (last_time (meta td)) in
  let surely_inside j := f' + slack first F f' <= nominal first F j /\ nominal first F j <= t' - slack first F t' in
  let nearly_inside j := f' - slack first F f' <= nominal first F j /\ nominal first F j <= t' + slack first F t' in
  (forall td', subsection rnd f t td = Ok td' -> exists a b, (0 <= a)%Z /\ (a < b)%Z /\ (b < n)%Z /\
     rows td' = map (slice a (b + 1)) (rows td) /\ n_samples (meta td') = (b - a + 1)%Z /\
     first_time (meta td') == stamp first (period rnd F) a /\ last_time (meta td') == stamp first (period rnd F) b /\
     (f <= first -> a = 0%Z) /\
     forall j, (0 <= j < n)%Z -> (surely_inside j -> (a <= j <= b)%Z) /\ ((a <= j <= b)%Z -> nearly_inside j)) /\
  (forall i j, (0 <= i < j)%Z -> (j < n)%Z -> f <= last_time (meta td) -> first <= t -> surely_inside i -> surely_inside j -> exists td', subsection rnd f t td = Ok td').
Proof. exact c10_rounded. Qed.
Print Assumptions C10_subsection_rounded.
Example C10_rounded_ex : consistent b64 ex_td /\ exists td', subsection b64 (1001 # 10) (10045 # 100) ex_td = Ok td' /\
  rows td' = [[Some 2; Some 3; None; Some 5]; [Some 0; Some 9; Some 9; Some 4]].
Proof.
  split; [|eexists; split; vm_compute; reflexivity].
  split; [discriminate|]. split; [reflexivity|]. split; [reflexivity|]. split; [|vm_compute; reflexivity].
  intros r [<-|[<-|[]]]; reflexivity.
Qed.
(** at the ends the last sample may be lost: a recording of 30 samples at 50 Hz, of which the subsection from its first to
    its last time has 29 samples *)
Definition recording (F : Q) (n : Z) : tdata :=
  mkData (adjust_time_metadata b64 (mkMeta F ["Ex"]%string 1 n 0 0 "" [] []) F 0 n) "float64" [map (fun i => Some (inject_Z i)) (arange n)].
Lemma recording_consistent F n : (0 <= n)%Z -> consistent b64 (recording F n).
Proof.
  intros N. split; [discriminate|]. split; [reflexivity|]. split; [reflexivity|]. split.
  - intros r [<-|[]]. cbn. unfold arange. rewrite !map_length, seq_length. lia.
  - cbn. unfold stamp, period. ring.
Qed.
Theorem C10_end_lost_refuted : let td := recording 50 30 in consistent b64 td /\
  exists td', subsection b64 (first_time (meta td)) (last_time (meta td)) td = Ok td' /\ n_samples (meta td') = 29%Z /\ rows td' = map (slice 0 29) (rows td).
Proof. split; [apply recording_consistent; lia|]. eexists. split; [vm_compute; reflexivity|]. split; vm_compute; reflexivity. Qed.
Print Assumptions C10_end_lost_refuted.

(** ** C11 *)
Theorem C11_subsections_compose : forall td f1 t1 f2 t2,
  0 < fs (meta td) -> period_not_truncated (fs (meta td)) -> (1 <= n_samples (meta td))%Z -> consistent exact td ->
  (forall td1 td2, subsection exact f1 t1 td = Ok td1 -> subsection exact f2 t2 td1 = Ok td2 ->
   exists td3, subsection exact (Qmax f1 f2) (Qmin t1 t2) td = Ok td3 /\
    rows td3 = rows td2 /\ n_samples (meta td3) = n_samples (meta td2) /\
    first_time (meta td3) == first_time (meta td2) /\ last_time (meta td3) == last_time (meta td2)) /\
  (forall td3, subsection exact (Qmax f1 f2) (Qmin t1 t2) td = Ok td3 ->
   exists td1 td2, subsection exact f1 t1 td = Ok td1 /\ subsection exact f2 t2 td1 = Ok td2).
Proof.
  intros td f1 t1 f2 t2 H1 H2 H3 H4.
  exact (conj (fun td1 td2 => compose_fwd td f1 t1 f2 t2 td1 td2 H1 H2 H3 H4)
              (fun td3 => compose_bwd td f1 t1 f2 t2 td3 H1 H2 H3 H4)).
Qed.
Print Assumptions C11_subsections_compose.
Theorem C11_subsection_is_partial_read : forall rnd td f t,
  match subsection rnd f t td, reader_run rnd (meta td) (dtype td) (rows td) (Some f) (Some t) None None with
  | Ok s, Ok r => rows s = rows r /\ dtype s = dtype r /\
      with_history (meta s) (history (meta td)) = with_history (meta r) (history (meta td))
  | Err _, Err _ => True
  | _, _ => False
  end.
Proof. exact reader_subsection. Qed.
Print Assumptions C11_subsection_is_partial_read.

(** in binary64 subsections need not compose: of 59 samples at 100 Hz the subsection from the first to the last time has
    58 samples, but taken twice it has 57 *)
Theorem C11_compose_b64_refuted : let td := recording 100 59 in let f := first_time (meta td) in let t := last_time (meta td) in consistent b64 td /\
  exists td1 td2 td3, subsection b64 f t td = Ok td1 /\ subsection b64 f t td1 = Ok td2 /\ subsection b64 (Qmax f f) (Qmin t t) td = Ok td3 /\
    n_samples (meta td2) = 57%Z /\ n_samples (meta td3) = 58%Z /\ rows td2 <> rows td3.
Proof.
  split; [apply recording_consistent; lia|]. do 3 eexists. split; [vm_compute; reflexivity|]. split; [vm_compute; reflexivity|]. split; [vm_compute; reflexivity|].
  split; [vm_compute; reflexivity|]. split; [vm_compute; reflexivity|].
  intro H. apply (f_equal (fun l => match l with r :: _ => length r | [] => 0%nat end)) in H. vm_compute in H. discriminate H.
Qed.
Print Assumptions C11_compose_b64_refuted.

(** ** C13 *)
Theorem C13_history_append_only : forall rnd drnd orc ps td td',
  run_all rnd drnd orc ps td = Ok td' -> history (meta td') = history (meta td) ++ map CProc ps.
Proof. exact run_all_hist. Qed.
Print Assumptions C13_history_append_only.
Example C13_ex : exists td', run_all exact exact toy [PInterpolateNans; PAdd (AScalar 2); PDecimate 2 3] ex_td = Ok td' /\
  history (meta td') = [CProc PInterpolateNans; CProc (PAdd (AScalar 2)); CProc (PDecimate 2 3)].
Proof. eexists. split; [vm_compute; reflexivity|]. reflexivity. Qed.

(** ** C14 *)
Theorem C14_downsample_factors : forall orc maxf f, good_oracles orc -> (1 <= f)%Z -> (2 <= maxf)%Z ->
  prodZ (downsample_factors orc maxf f) = f /\
  (forall x, In x (downsample_factors orc maxf f) -> (1 <= x /\ (x <= maxf \/ prime x))%Z).
Proof. intros orc maxf f G. exact (downsample_spec orc G maxf f). Qed.
Print Assumptions C14_downsample_factors.
Theorem C14_prime_factorisation : forall orc n, good_oracles orc -> (2 <= n)%Z ->
  prodZ (prime_factorisation orc n) = n /\ (forall x, In x (prime_factorisation orc n) -> prime x).
Proof. intros orc n G. exact (prime_factorisation_spec orc G n). Qed.
Print Assumptions C14_prime_factorisation.
Example C14_ex : good_oracles toy /\ downsample_factors toy 3 1092 = [2; 2; 3; 7; 13]%Z /\ downsample_factors toy 12 49896 = [8; 9; 9; 7; 11]%Z.
Proof. split; [exact toy_good|]. split; vm_compute; reflexivity. Qed.

(** ** C15 *)
Theorem C15_decimate_metadata : forall rnd orc f maxf td td', good_oracles orc -> (1 <= f)%Z -> (2 <= maxf)%Z ->
  consistent rnd td -> decimate rnd orc f maxf td = Ok td' ->
  n_samples (meta td') = ceil_div (n_samples (meta td)) f /\
  length (rows td') = length (rows td) /\
  (forall r, In r (rows td') -> Z.of_nat (length r) = ceil_div (n_samples (meta td)) f) /\
  fs (meta td') = rnd (fs (meta td) / inject_Z f) /\
  first_time (meta td') = first_time (meta td) /\ chans (meta td') = chans (meta td) /\
  last_time (meta td') == stamp (first_time (meta td)) (period rnd (fs (meta td'))) (ceil_div (n_samples (meta td)) f - 1).
Proof. exact decimate_spec. Qed.
Print Assumptions C15_decimate_metadata.
Theorem C15_decimate_last_time : forall orc f maxf td td', good_oracles orc -> (1 <= f)%Z -> (2 <= maxf)%Z ->
  consistent exact td -> 0 < fs (meta td) -> (1 <= n_samples (meta td))%Z -> period_not_truncated (fs (meta td)) ->
  decimate exact orc f maxf td = Ok td' ->
  last_time (meta td') <= last_time (meta td).
Proof. exact decimate_last_exact. Qed.
Print Assumptions C15_decimate_last_time.
(** in every correctly rounded arithmetic: later by at most 2.04 * 10^-13 s plus 5 * 2^-53 periods per sample *)
Theorem C15_decimate_last_time_rounded : forall rnd orc f maxf td td', good_rnd rnd -> good_oracles orc -> (1 <= f)%Z -> (2 <= maxf)%Z ->
  consistent rnd td -> 0 < fs (meta td) -> fs (meta td) <= 1000000 -> (1 <= n_samples (meta td))%Z -> decimate rnd orc f maxf td = Ok td' ->
  last_time (meta td') <= last_time (meta td) + inject_Z (n_samples (meta td) - 1) * ((204 # 1000000000000000) + 5 * (1 # 9007199254740992) / fs (meta td)).
Proof. exact decimate_last_rounded. Qed.
Print Assumptions C15_decimate_last_time_rounded.
Theorem C15_resample_metadata : forall rnd orc nf td td', good_oracles orc -> consistent rnd td ->
  resample rnd orc nf td = Ok td' ->
  let r := Qred (o_limit_denominator orc (rnd (nf / fs (meta td)))) in
  n_samples (meta td') = ceil_div (n_samples (meta td) * Qnum r) (Zpos (Qden r)) /\
  length (rows td') = length (rows td) /\
  (forall row, In row (rows td') -> Z.of_nat (length row) = n_samples (meta td')) /\
  fs (meta td') = nf /\ first_time (meta td') = first_time (meta td) /\ chans (meta td') = chans (meta td) /\
  last_time (meta td') == stamp (first_time (meta td)) (period rnd nf) (n_samples (meta td') - 1).
Proof. exact resample_spec. Qed.
Print Assumptions C15_resample_metadata.
Example C15_ex : exists td', decimate exact toy 4 3 ex_td = Ok td' /\ n_samples (meta td') = 2%Z /\
  rows td' = [[Some 1; Some 5]; [Some 0; Some 4]].
Proof. eexists. split; [vm_compute; reflexivity|]. split; reflexivity. Qed.

(** ** C16 *)
Theorem C16_remove_mean : forall td td', remove_mean exact td = Ok td' ->
  length (rows td') = length (rows td) /\
  forall i r xs, nth_error (rows td) i = Some r -> holds xs r -> xs <> [] ->
  exists r' ys, nth_error (rows td') i = Some r' /\ holds ys r' /\ length ys = length xs /\ sumQ ys == 0 /\
    (forall i j xi xj yi yj, nth_error xs i = Some xi -> nth_error xs j = Some xj ->
       nth_error ys i = Some yi -> nth_error ys j = Some yj -> yi - yj == xi - xj).
Proof. exact remove_mean_spec. Qed.
Print Assumptions C16_remove_mean.
(** in arithmetic of p bits (53 for float64, 24 for float32): off by at most M (n + 6) 2^-p, with n samples of size at most M *)
Theorem C16_remove_mean_rounded : forall p r td td', (1 <= p)%Z -> precision p r -> remove_mean r td = Ok td' -> length (rows td') = length (rows td) /\
  forall i row xs M, nth_error (rows td) i = Some row -> holds xs row -> (forall x, In x xs -> Qabs x <= M) -> (Z.of_nat (length xs) <= 2 ^ p)%Z ->
  exists row' ys, nth_error (rows td') i = Some row' /\ holds ys row' /\ length ys = length xs /\
    forall k x y, nth_error xs k = Some x -> nth_error ys k = Some y -> let mean := sumQ xs / inject_Z (Z.of_nat (length xs)) in
      Qabs (y - (x - mean)) <= M * (inject_Z (Z.of_nat (length xs)) + 6) * pow2 (- p).
Proof. intros p r td td' P R H. exact (remove_mean_rounded p r P R td td' H). Qed.
Print Assumptions C16_remove_mean_rounded.
Example C16_rounded_ex : precision 24 b32 /\ precision 53 b64 /\ exists td', remove_mean b32 ex_td = Ok td' /\ holds [0; 0; 9; 9; 4; 5] (nth 1 (rows ex_td) []) /\
  (forall x, In x [0; 0; 9; 9; 4; 5] -> Qabs x <= 9) /\ Forall2 ceq (nth 1 (rows td') []) [Some (-(9#2)); Some (-(9#2)); Some (9#2); Some (9#2); Some (-(1#2)); Some (1#2)].
Proof.
  split; [exact b32_precision|]. split; [exact (good_precision _ b64_good)|]. eexists. split; [vm_compute; reflexivity|]. split; [reflexivity|].
  split; [|repeat constructor]. intros x H. repeat (destruct H as [<-|H]; [vm_compute; discriminate|]). destruct H.
Qed.
Theorem C16_remove_mean_idempotent : forall td td1 td2,
  (forall r, In r (rows td) -> exists xs, holds xs r /\ xs <> []) ->
  remove_mean exact td = Ok td1 -> remove_mean exact td1 = Ok td2 -> rows_eq (rows td2) (rows td1).
Proof. exact remove_mean_idem. Qed.
Print Assumptions C16_remove_mean_idempotent.
Example C16_ex : exists td', remove_mean exact ex_td = Ok td' /\ holds [0; 0; 9; 9; 4; 5] (nth 1 (rows ex_td) []) /\
  Forall2 ceq (nth 1 (rows td') []) [Some (-(9#2)); Some (-(9#2)); Some (9#2); Some (9#2); Some (-(1#2)); Some (1#2)].
Proof. eexists. split; [vm_compute; reflexivity|]. split; [reflexivity|]. repeat constructor. Qed.

(** ** C17 *)
Theorem C17_nans_filled : forall td td', NoDup (chans (meta td)) -> length (rows td) = length (chans (meta td)) ->
  interpolate_nans td = Ok td' ->
  length (rows td') = length (rows td) /\
  forall i r, nth_error (rows td) i = Some r ->
   exists r', nth_error (rows td') i = Some r' /\
     length r' = length r /\
     (forall k v, nth_error r k = Some (Some v) -> nth_error r' k = Some (Some v)) /\
     (forall k, nth_error r k = Some None -> exists v, nth_error r' k = Some (Some v) /\ gap_value r k v) /\
     (forall k, nth_error r' k <> Some None).
Proof. exact interpolate_nans_full. Qed.
Print Assumptions C17_nans_filled.
Theorem C17_fills_lie_between : forall l i v, gap_value l i v ->
  exists a b, (exists j, nth_error l j = Some (Some a)) /\ (exists k, nth_error l k = Some (Some b)) /\ a <= v /\ v <= b.
Proof. exact gap_value_between. Qed.
Print Assumptions C17_fills_lie_between.
Theorem C17_fails_iff_all_nan : forall td, NoDup (chans (meta td)) -> length (rows td) = length (chans (meta td)) ->
  (is_ok (interpolate_nans td) = false <->
   exists r, In r (rows td) /\ r <> [] /\ forall i v, nth_error r i <> Some (Some v)).
Proof. exact interpolate_nans_total. Qed.
Print Assumptions C17_fails_iff_all_nan.
Theorem C17_idempotent : forall td td1, NoDup (chans (meta td)) -> length (rows td) = length (chans (meta td)) ->
  interpolate_nans td = Ok td1 -> exists td2, interpolate_nans td1 = Ok td2 /\ rows td2 = rows td1.
Proof. exact interpolate_nans_idem. Qed.
Print Assumptions C17_idempotent.
Example C17_ex : exists td', interpolate_nans ex_td = Ok td' /\ NoDup (chans (meta ex_td)) /\
  Forall2 ceq (nth 0 (rows td') []) [Some 1; Some 2; Some 3; Some 4; Some 5; Some 6].
Proof. eexists. split; [vm_compute; reflexivity|]. split; [exact ex_nodup|]. repeat constructor. Qed.

(** ** C18 *)
Theorem C18_add_per_channel : forall drnd td a, NoDup (chans (meta td)) ->
  n_chans (meta td) = Z.of_nat (length (chans (meta td))) -> length (rows td) = length (chans (meta td)) ->
  (forall v, a = AScalar v -> drnd (0 + v) = v) ->
  exists td', add drnd a td = Ok td' /\ chans (meta td') = chans (meta td) /\ length (rows td') = length (rows td) /\
  forall c r, row_of td c r ->
    row_of td' c (map (fun x => match x with Some y => Some (drnd (y + amount a 0 c)) | None => None end) r).
Proof. exact add_spec. Qed.
Print Assumptions C18_add_per_channel.
Theorem C18_multiply_per_channel : forall drnd td a, NoDup (chans (meta td)) ->
  n_chans (meta td) = Z.of_nat (length (chans (meta td))) -> length (rows td) = length (chans (meta td)) ->
  (forall v, a = AScalar v -> drnd (1 * v) = v) ->
  exists td', multiply drnd a td = Ok td' /\ chans (meta td') = chans (meta td) /\ length (rows td') = length (rows td) /\
  forall c r, row_of td c r ->
    row_of td' c (map (fun x => match x with Some y => Some (drnd (y * amount a 1 c)) | None => None end) r).
Proof. exact mult_spec. Qed.
Print Assumptions C18_multiply_per_channel.
(** other channels are bit-identical whenever their elements are representable *)
Theorem C18_unnamed_channels_identical : forall drnd td d td' c r, NoDup (chans (meta td)) ->
  n_chans (meta td) = Z.of_nat (length (chans (meta td))) -> length (rows td) = length (chans (meta td)) ->
  add drnd (ADict d) td = Ok td' \/ multiply drnd (ADict d) td = Ok td' -> lookup c d = None -> row_of td c r ->
  (forall y, In (Some y) r -> drnd y = y) -> row_of td' c r.
Proof.
  intros drnd td d td' c r H1 H2 H3 [H|H];
    [exact (add_unnamed drnd td d td' c r H1 H2 H3 H)|exact (mult_unnamed drnd td d td' c r H1 H2 H3 H)].
Qed.
Print Assumptions C18_unnamed_channels_identical.
Theorem C18_add_negative_restores_exact : forall td a, NoDup (chans (meta td)) ->
  n_chans (meta td) = Z.of_nat (length (chans (meta td))) -> length (rows td) = length (chans (meta td)) ->
  exists td1 td2, add exact a td = Ok td1 /\ add exact (neg_arg a) td1 = Ok td2 /\
    forall c r, row_of td c r -> exists r', row_of td2 c r' /\ Forall2 ceq r' r.
Proof. exact add_restore. Qed.
Print Assumptions C18_add_negative_restores_exact.
(** but not in binary64: adding 2^60 and taking it away loses the data *)
Theorem C18_add_negative_restores_refuted : exists td td1 td2,
  consistent b64 td /\ add b64 (AScalar (2^60)) td = Ok td1 /\ add b64 (AScalar (-(2^60))) td1 = Ok td2 /\
  rows td = [[Some 1; Some 3]] /\ Forall2 ceq (nth 0 (rows td2) []) [Some 0; Some 0].
Proof. exact add_restore_refuted. Qed.
Print Assumptions C18_add_negative_restores_refuted.
Example C18_ex : exists td', add exact (ADict [("Hy"%string, 2); ("zz"%string, 7)]) ex_td = Ok td' /\
  nth 0 (rows td') [] = nth 0 (rows ex_td) [] /\ nth 1 (rows td') [] = [Some 2; Some 2; Some 11; Some 11; Some 6; Some 7].
Proof. eexists. split; [vm_compute; reflexivity|]. split; reflexivity. Qed.

(** ** C19 *)
Theorem C19_named_channels_partial : forall orc fncs td td' c r f, NoDup (chans (meta td)) -> NoDup (map fst fncs) ->
  length (rows td) = length (chans (meta td)) ->
  apply_function orc fncs td = Ok td' -> row_of td c r -> lookup c fncs = Some f -> row_of td' c (f r).
Proof. exact apply_function_named. Qed.
Print Assumptions C19_named_channels_partial.
(** functions that keep the number of samples are always accepted, names that are not in the data included *)
Theorem C19_accepted : forall orc fncs td, NoDup (chans (meta td)) -> NoDup (map fst fncs) -> length (rows td) = length (chans (meta td)) ->
  (forall c r f, row_of td c r -> lookup c fncs = Some f -> length (f r) = length r) ->
  exists td', apply_function orc fncs td = Ok td' /\ chans (meta td') = chans (meta td) /\ length (rows td') = length (rows td).
Proof. exact apply_function_total. Qed.
Print Assumptions C19_accepted.
(** The other channels are not kept: they hold what the uninitialised array held. *)
Theorem C19_unnamed_channels_refuted : forall orc fncs td td' c r i, NoDup (chans (meta td)) -> NoDup (map fst fncs) ->
  length (rows td) = length (chans (meta td)) ->
  apply_function orc fncs td = Ok td' -> nth_error (chans (meta td)) i = Some c -> nth_error (rows td) i = Some r ->
  lookup c fncs = None ->
  nth_error (rows td') i = Some (map (fun j => o_garbage orc i j) (seq 0 (length r))).
Proof. exact apply_function_unnamed. Qed.
Print Assumptions C19_unnamed_channels_refuted.
Example C19_ex : exists td', apply_function toy [("Hy"%string, fun r => rev r)] ex_td = Ok td' /\
  nth 1 (rows td') [] = [Some 5; Some 4; Some 9; Some 9; Some 0; Some 0] /\
  nth 0 (rows td') [] = [Some 0; Some 0; Some 0; Some 0; Some 0; Some 0].
Proof. eexists. split; [vm_compute; reflexivity|]. split; reflexivity. Qed.

(** ** C20 *)
Theorem C20_shift_is_linear_exact : forall s td td', 0 < fs (meta td) -> 0 < s -> consistent exact td ->
  shift_timestamps exact exact s td = Ok td' ->
  s < 1 / fs (meta td) /\
  n_samples (meta td') = (n_samples (meta td) - 1)%Z /\ fs (meta td') = fs (meta td) /\
  (exists d, to_timedelta exact s = d /\ first_time (meta td') == first_time (meta td) + d) /\
  length (rows td') = length (rows td) /\
  forall i r r', nth_error (rows td) i = Some r -> nth_error (rows td') i = Some r' ->
    Z.of_nat (length r') = (n_samples (meta td) - 1)%Z /\
    forall k a b, nth_error r k = Some (Some a) -> nth_error r (S k) = Some (Some b) ->
      exists v, nth_error r' k = Some (Some v) /\ v == a + (b - a) * (s * fs (meta td)).
Proof. exact shift_spec. Qed.
Print Assumptions C20_shift_is_linear_exact.
Theorem C20_large_shift_rejected : forall rnd drnd s td,
  rnd (1 / fs (meta td)) <= s -> shift_timestamps rnd drnd s td = Err ProcessRunError.
Proof. exact shift_reject. Qed.
Print Assumptions C20_large_shift_rejected.
(** every smaller shift of two samples or more is accepted, in every arithmetic, and the metadata describes the shifted samples *)
Theorem C20_accepted : forall rnd drnd s td, s < rnd (1 / fs (meta td)) ->
  ((n_samples (meta td) < 2)%Z -> shift_timestamps rnd drnd s td = Err ValueError) /\
  ((2 <= n_samples (meta td))%Z -> exists td', shift_timestamps rnd drnd s td = Ok td' /\
    n_samples (meta td') = (n_samples (meta td) - 1)%Z /\ fs (meta td') = fs (meta td) /\ chans (meta td') = chans (meta td) /\
    first_time (meta td') == first_time (meta td) + to_timedelta rnd s /\
    last_time (meta td') == stamp (first_time (meta td')) (period rnd (fs (meta td))) (n_samples (meta td) - 2) /\
    length (rows td') = length (rows td) /\ forall r, In r (rows td') -> Z.of_nat (length r) = (n_samples (meta td) - 1)%Z).
Proof. exact shift_total. Qed.
Print Assumptions C20_accepted.
(** In rounded arithmetic: python floats correctly rounded, data with [p] significant bits (53 for float64, 24 for float32).
    Sample k is on the line between samples k and k + 1 up to (k + 15) 2^(1-p) of the larger of the two, as long as the
    shift is at least n 2^(1-p) samples (below that it is lost, see C20_shift_float32_refuted). *)
Theorem C20_shift_rounded : forall rnd drnd p s td td', good_rnd rnd -> precision p drnd -> (6 <= p <= 53)%Z -> 0 < fs (meta td) -> 0 < s -> consistent rnd td ->
  (n_samples (meta td) <= 2 ^ p)%Z -> inject_Z (n_samples (meta td)) * pow2 (1 - p) <= s * fs (meta td) ->
  shift_timestamps rnd drnd s td = Ok td' ->
  forall i r r' k a b M, nth_error (rows td) i = Some r -> nth_error (rows td') i = Some r' ->
    nth_error r k = Some (Some a) -> nth_error r (S k) = Some (Some b) -> Qabs a <= M -> Qabs b <= M ->
    exists v, nth_error r' k = Some (Some v) /\ Qabs (v - (a + (b - a) * (s * fs (meta td)))) <= M * (inject_Z (Z.of_nat k) + 15) * pow2 (1 - p).
Proof. exact shift_rounded. Qed.
Print Assumptions C20_shift_rounded.
(** float64 and float32 *)
Theorem C20_precisions : precision 53 b64 /\ precision 24 b32.
Proof. exact (conj (good_precision b64 b64_good) b32_precision). Qed.
Example C20_rounded_ex : inject_Z (n_samples (meta ex_td)) * pow2 (1 - 24) <= (1 # 40) * fs (meta ex_td) /\ consistent b64 ex_td /\
  exists td', shift_timestamps b64 b32 (1#40) ex_td = Ok td' /\ length (nth 1 (rows td') []) = 5%nat.
Proof.
  split; [vm_compute; discriminate|]. split.
  - split; [vm_compute; discriminate|]. split; [vm_compute; reflexivity|]. split; [vm_compute; reflexivity|]. split; [|vm_compute; reflexivity].
    intros r Hr. repeat (destruct Hr as [<-|Hr]; [vm_compute; reflexivity|]). destruct Hr.
  - eexists. split; vm_compute; reflexivity.
Qed.
(** With float32 data (the default dtype of the readers) the shift is lost from sample
    2^23 on: between the values 0 and 1 a shift of a quarter sample gives 0. *)
Theorem C20_shift_float32_refuted : forall big, big = (2 ^ 23)%Z ->
  consistent b64 (td32 big) /\
  (exists r, rows (td32 big) = [r] /\ nth_error r (Z.to_nat big) = Some (Some 0) /\ nth_error r (S (Z.to_nat big)) = Some (Some 1)) /\
  exists td' r', shift_timestamps b64 b32 (1#4) (td32 big) = Ok td' /\ nth_error (rows td') 0 = Some r' /\
    exists v, nth_error r' (Z.to_nat big) = Some (Some v) /\ v == 0.
Proof. exact shift32_full. Qed.
Print Assumptions C20_shift_float32_refuted.
Example C20_ex : exists td', shift_timestamps exact exact (1#40) ex_td = Ok td' /\
  Forall2 ceq (nth 1 (rows td') []) [Some 0; Some (9#4); Some 9; Some (31#4); Some (17#4)].
Proof. eexists. split; [vm_compute; reflexivity|]. repeat constructor. Qed.

(** ** C21 *)
Theorem C21_set_then_get : forall td c dt x td', set_chan td c dt x = Ok td' ->
  get_chan td' c = Ok x /\ (forall c', c' <> c -> get_chan td' c' = get_chan td c') /\
  meta td' = meta td /\ dtype td' = dtype td.
Proof. exact set_chan_laws. Qed.
Print Assumptions C21_set_then_get.
Theorem C21_set_accepts_iff : forall td c dt x, length (rows td) = length (chans (meta td)) ->
  (is_ok (set_chan td c dt x) = true <->
   In c (chans (meta td)) /\ Z.of_nat (length x) = n_samples (meta td) /\ dt = dtype td).
Proof. exact set_chan_iff. Qed.
Print Assumptions C21_set_accepts_iff.
Theorem C21_get_returns_row : forall td c r, NoDup (chans (meta td)) -> row_of td c r -> get_chan td c = Ok r.
Proof. exact get_chan_row. Qed.
Print Assumptions C21_get_returns_row.
Example C21_ex : exists td', set_chan ex_td "Hy"%string "float64"%string [Some 1; Some 1; Some 1; Some 1; Some 1; Some 2] = Ok td' /\
  get_chan td' "Ex"%string = Ok (nth 0 (rows ex_td) []).
Proof. eexists. split; [vm_compute; reflexivity|]. reflexivity. Qed.

(** ** C23 *)
Theorem C23_pipelines_keep_consistency : forall rnd, good_rnd rnd -> forall drnd orc ps td td',
  good_oracles orc -> Forall valid_proc ps -> usable rnd td ->
  (forall qs rest mid, ps = qs ++ rest -> run_all rnd drnd orc qs td = Ok mid -> (n_samples (meta mid) < 2 ^ 49)%Z) ->
  run_all rnd drnd orc ps td = Ok td' -> usable rnd td'.
Proof. exact run_all_usable_good. Qed.
Print Assumptions C23_pipelines_keep_consistency.
Example C23_ex : good_oracles toy /\ usable b64 ex_td /\
  exists td', run_all b64 b64 toy [PSubsection (1001#10) 1000; PInterpolateNans; PResample 20; PDecimate 2 3; PShift (1#40)] ex_td = Ok td' /\
    n_samples (meta td') = 4%Z.
Proof.
  split; [exact toy_good|]. split; [split; [exact (proj2 ex_td_consistent)|split; [reflexivity|cbn; lia]]|].
  eexists. split; [vm_compute; reflexivity|]. reflexivity.
Qed.

(** ** C24 *)
Theorem C24_low_high_band_pass_valid : forall rnd, good_rnd rnd -> forall m, 0 < fs m ->
  (forall c l, 0 <= c -> lowpass_cutoffs rnd c m = Ok l \/ highpass_cutoffs rnd c m = Ok l ->
     exists w, l = [w] /\ 0 <= w /\ w <= 1) /\
  (forall lo hi l, 0 <= lo -> bandpass_cutoffs rnd lo hi m = Ok l ->
     exists w1 w2, l = [w1; w2] /\ 0 <= w1 /\ w1 <= w2 /\ w2 <= 1).
Proof. exact cutoffs_valid. Qed.
Print Assumptions C24_low_high_band_pass_valid.
Theorem C24_invalid_rejected : forall rnd c lo hi m,
  (nyquist rnd m < c -> lowpass_cutoffs rnd c m = Err ProcessRunError /\ highpass_cutoffs rnd c m = Err ProcessRunError /\
      forall b, notch_cutoffs rnd c b m = Err ProcessRunError) /\
  (hi < lo \/ nyquist rnd m < hi -> bandpass_cutoffs rnd lo hi m = Err ProcessRunError).
Proof. exact cutoff_reject. Qed.
Print Assumptions C24_invalid_rejected.
(** what is accepted, and that a cutoff of the designer is the frequency given as a fraction of half the sampling frequency
    (exact arithmetic; the notch without clipping) *)
Theorem C24_cutoff_values : forall m, 0 < fs m ->
  (forall c, c <= fs m / 2 -> exists w, lowpass_cutoffs exact c m = Ok [w] /\ highpass_cutoffs exact c m = Ok [w] /\ w * (fs m / 2) == c) /\
  (forall lo hi, lo <= hi -> hi <= fs m / 2 ->
     exists w1 w2, bandpass_cutoffs exact lo hi m = Ok [w1; w2] /\ w1 * (fs m / 2) == lo /\ w2 * (fs m / 2) == hi) /\
  (forall f band b, f <= fs m / 2 -> (band = Some b \/ band = None /\ b == fs m / 10) -> f + b / 2 <= (fs m / 2) * (fs m / 2) ->
     exists w1 w2, notch_cutoffs exact f band m = Ok [w1; w2] /\ w1 * (fs m / 2) == f - b / 2 /\ w2 * (fs m / 2) == f + b / 2).
Proof.
  intros m F. assert (H : ~ fs m / 2 == 0) by (intro E; assert (0 < fs m / 2) by (apply Qlt_shift_div_l; lra); lra).
  assert (P : 0 < fs m / 2) by (apply Qlt_shift_div_l; lra).
  assert (N : nyquist exact m = fs m / 2) by reflexivity.
  assert (A : forall x y : Q, x <= y -> Qltb y x = false).
  { intros x y L. destruct (Qltb y x) eqn:E; [apply Qltb_true in E; lra|reflexivity]. }
  assert (F0 : ~ fs m == 0) by lra.
  split; [|split].
  - intros c L. exists (c / (fs m / 2)). unfold lowpass_cutoffs, highpass_cutoffs. rewrite N, (A _ _ L). unfold exact.
    repeat split; try reflexivity. field. exact F0.
  - intros lo hi L1 L2. exists (lo / (fs m / 2)), (hi / (fs m / 2)). unfold bandpass_cutoffs. rewrite N, (A _ _ L1), (A _ _ L2). unfold exact.
    repeat split; try reflexivity; field; exact F0.
  - intros f band b L B U. unfold notch_cutoffs. rewrite N, (A _ _ L). cbv zeta.
    set (bb := match band with None => exact (exact (1#10) * fs m) | Some b => b end).
    assert (EB : bb == b). { unfold bb. destruct B as [->|[-> B]]; [reflexivity|]. rewrite B. unfold exact. field. }
    clearbody bb. unfold exact.
    assert (U' : (f + bb / 2) / (fs m / 2) <= fs m / 2) by (apply Qle_shift_div_r; [exact P|rewrite EB; exact U]).
    rewrite (A _ _ U'). eexists. eexists. split; [reflexivity|]. split; rewrite EB; field; exact F0.
Qed.
Print Assumptions C24_cutoff_values.
Example C24_cutoff_values_ex : exists w, lowpass_cutoffs exact 1 (meta ex_td) = Ok [w] /\ w == 1 # 5.
Proof. eexists. split; vm_compute; reflexivity. Qed.
(** each filter is the designer's filter of its own kind and order with those cutoffs, applied to every channel by itself; times,
    channels and everything else of the metadata stay *)
Theorem C24_filters : forall rnd drnd orc p td td',
  let filtered kind order cut := exists l, cut = Ok l /\ Forall2 (fun r r' => o_filter orc kind order l r = Ok r') (rows td) (rows td') /\
    with_history (meta td') (history (meta td)) = meta td in
  run rnd drnd orc p td = Ok td' ->
  match p with
  | PLowPass c o => filtered "lowpass"%string o (lowpass_cutoffs rnd c (meta td))
  | PHighPass c o => filtered "highpass"%string o (highpass_cutoffs rnd c (meta td))
  | PBandPass l h o => filtered "bandpass"%string o (bandpass_cutoffs rnd l h (meta td))
  | PNotch f b o => filtered "bandstop"%string o (notch_cutoffs rnd f b (meta td))
  | _ => True
  end.
Proof.
  intros rnd drnd orc p td td' filtered H.
  assert (K : forall kind order cut, filter_run orc kind order cut p td = Ok td' -> filtered kind order cut).
  { intros kind order cut E. unfold filter_run in E. destruct cut as [l|]; [|discriminate]. cbn [bind] in E.
    destruct (mapM (o_filter orc kind order l) (rows td)) as [d|] eqn:M; [|discriminate]. cbn [bind] in E.
    assert (td' = new_time_data td None (Some d) (Some (CProc p))) by congruence. subst td'.
    exists l. split; [reflexivity|]. split; [exact (proj1 (mapM_ok _ _ _) M)|]. cbn. destruct (meta td). reflexivity. }
  destruct p; try exact I; apply K; exact H.
Qed.
Print Assumptions C24_filters.
Theorem C24_notch_partial : forall rnd f band b m l, good_rnd rnd -> 0 < fs m -> rnd (fs m / 2) == fs m / 2 -> 2 <= fs m -> 0 <= b ->
  (band = Some b \/ band = None /\ b = rnd (rnd (1 # 10) * fs m)) ->
  rnd (b / 2) <= f -> f + rnd (b / 2) <= fs m / 2 ->
  notch_cutoffs rnd f band m = Ok l -> exists w1 w2, l = [w1; w2] /\ 0 <= w1 /\ w1 <= w2 /\ w2 <= 1.
Proof. intros rnd f band b m l G. exact (notch_valid G f band b m l). Qed.
Print Assumptions C24_notch_partial.
Example C24_notch_ex : b64 (fs (meta ex_td) / 2) == fs (meta ex_td) / 2 /\ exists l, notch_cutoffs b64 3 None (meta ex_td) = Ok l /\ Forall2 Qeq l [b64 (1#2); b64 (7#10)].
Proof. split; [vm_compute; reflexivity|]. eexists. split; [vm_compute; reflexivity|]. repeat constructor. Qed.
(** The notch filter compares a normalised frequency with the Nyquist frequency in Hz:
    near Nyquist it hands the designer a value above 1, near zero a negative one, and
    below 1 Hz Nyquist it clips to the Nyquist frequency in Hz. *)
Theorem C24_notch_refuted :
  (exists m l w1 w2, 0 < fs m /\ notch_cutoffs b64 48 None m = Ok l /\ l = [w1; w2] /\ 1 < w2) /\
  (exists m l w1 w2, 0 < fs m /\ notch_cutoffs b64 1 None m = Ok l /\ l = [w1; w2] /\ w1 < 0) /\
  (exists m l w1 w2, 0 < fs m /\ notch_cutoffs b64 (1#8) (Some (1#16)) m = Ok l /\ l = [w1; w2] /\ w2 < w1).
Proof. exact notch_refuted. Qed.
Print Assumptions C24_notch_refuted.
Example C24_ex : exists l, bandpass_cutoffs b64 1 3 (meta ex_td) = Ok l /\ Forall2 Qeq l [b64 (1#5); b64 (3#5)].
Proof. eexists. split; [vm_compute; reflexivity|]. repeat constructor. Qed.
