(** Property C86: timestamps of recordings and of decimation levels (get_timestamps), in exact
    arithmetic; [nt] and [ndl] are pandas' conversions to whole nanoseconds. *)
From Coq Require Import String.
From Verif Require Import Base.Prelude Base.Rounding Base.ListUtil Base.NdArray Model.Sampling Spec.Sampling Model.Time Model.Decimate Model.Window Model.Timestamps
  Spec.Time Spec.Decimate Spec.Window Proofs.Toy Proofs.ToyWin Proofs.ToyDec Proofs.EvalFreqs Proofs.DecFinal Proofs.Timestamps Proofs.RoundedMore.
Open Scope list_scope.
Open Scope Q_scope.

(** ** C86: with estimate=False every sample has its time: first time plus k periods, off by less
    than 10^-13 s per sample (C04) and exact if the period is not cut off; for chosen samples too *)
Theorem C86_recording : forall nt ndl td, 0 < fs (meta td) ->
  (exists ts, time_timestamps exact nt ndl td None false = Ok (High ts) /\ length ts = Z.to_nat (n_samples (meta td)) /\
    forall k t, nth_error ts k = Some t -> let true_time := first_time (meta td) + inject_Z (Z.of_nat k) / fs (meta td) in
      0 <= true_time - t /\ true_time - t <= inject_Z (Z.of_nat k) * tiny /\ (period exact (fs (meta td)) == 1 / fs (meta td) -> t == true_time)) /\
  (forall l, (forall k, In k l -> (0 <= k)%Z) -> exists ts, time_timestamps exact nt ndl td (Some l) false = Ok (High ts) /\ length ts = length l /\
    forall i k t, nth_error l i = Some k -> nth_error ts i = Some t -> let true_time := first_time (meta td) + inject_Z k / fs (meta td) in
      0 <= true_time - t /\ true_time - t <= inject_Z k * tiny /\ (period exact (fs (meta td)) == 1 / fs (meta td) -> t == true_time)).
Proof. exact c86_recording. Qed.
Print Assumptions C86_recording.
(** the same in every correctly rounded arithmetic: off by at most 1.02 * 10^-13 s plus 2^-53 periods per sample *)
Theorem C86_recording_rounded : forall rnd nt ndl td, good_rnd rnd -> 0 < fs (meta td) -> fs (meta td) <= 1000000 ->
  (exists ts, time_timestamps rnd nt ndl td None false = Ok (High ts) /\ length ts = Z.to_nat (n_samples (meta td)) /\
    forall k t, nth_error ts k = Some t -> let true_time := first_time (meta td) + inject_Z (Z.of_nat k) / fs (meta td) in
      Qabs (t - true_time) <= inject_Z (Z.of_nat k) * ((102 # 1000000000000000) + (1 # 9007199254740992) / fs (meta td))) /\
  (forall l, (forall k, In k l -> (0 <= k)%Z) -> exists ts, time_timestamps rnd nt ndl td (Some l) false = Ok (High ts) /\ length ts = length l /\
    forall i k t, nth_error l i = Some k -> nth_error ts i = Some t -> let true_time := first_time (meta td) + inject_Z k / fs (meta td) in
      Qabs (t - true_time) <= inject_Z k * ((102 # 1000000000000000) + (1 # 9007199254740992) / fs (meta td))).
Proof. exact c86_recording_rounded. Qed.
Print Assumptions C86_recording_rounded.
(** sample k of level j carries the time of sample k * (total factor) of the recording, the
    estimated timestamps (the default) within k + 1 nanoseconds *)
Theorem C86_levels : forall nt ndl orc D b maxf p td dd, good_oracles orc -> (D <= 2 ^ 49)%Z ->
  (forall x, best_approx D x (o_limit_denominator orc x)) -> (3 <= maxf)%Z -> usable exact td ->
  length (dp_increments p) = Z.to_nat (dp_n_levels p) -> Forall (fun f => (1 <= f)%Z /\ (b = true -> f <= D)%Z) (dp_increments p) ->
  decimator_run exact orc b maxf p td = Ok dd ->
  let total := fun j => prodZ (firstn (S j) (dp_increments p)) in
  forall j, (j < Z.to_nat (dd_n_levels dd))%nat -> exists md x ts es, nth_error (dd_levels_md dd) j = Some md /\ get_level dd (Z.of_nat j) = Ok x /\
    dec_timestamps exact nt ndl dd (Z.of_nat j) None false = Ok (High ts) /\ dec_timestamps exact nt ndl dd (Z.of_nat j) None true = Ok (Estimated es) /\
    (forall r, In r x -> length r = length ts /\ length r = length es) /\
    (forall k t, nth_error ts k = Some t -> let original := stamp (first_time (meta td)) (1 / fs (meta td)) (Z.of_nat k * total j) in
       0 <= original - t /\ original - t <= inject_Z (Z.of_nat k) * tiny /\ (period exact (lm_fs md) == 1 / lm_fs md -> t == original)) /\
    (near_ns nt -> near_ns ndl -> forall k e, nth_error es k = Some e ->
       Qabs (inject_Z e - 1000000000 * stamp (first_time (meta td)) (1 / fs (meta td)) (Z.of_nat k * total j)) <= inject_Z (Z.of_nat k) + 1).
Proof. intros nt ndl orc D b maxf p td dd H1 H2 H3 H4 H5 H6 H7 H8 total j Hj. exact (c86_level nt ndl orc D b maxf p td dd H1 H2 H3 H4 H5 H6 H7 H8 j Hj). Qed.
Print Assumptions C86_levels.
(** the same in every correctly rounded arithmetic: level j was divided j + 1 times, so its period is off by at most
    6 (j + 1) * 2^-53 of itself *)
Theorem C86_levels_rounded : forall rnd nt ndl orc D b maxf p td dd, good_rnd rnd -> good_oracles orc -> (D <= 2 ^ 49)%Z ->
  (forall x, best_approx D x (o_limit_denominator orc x)) -> (3 <= maxf)%Z -> usable rnd td -> fs (meta td) <= 1000000 ->
  length (dp_increments p) = Z.to_nat (dp_n_levels p) -> Forall (fun f => (1 <= f)%Z /\ (b = true -> f <= D)%Z) (dp_increments p) ->
  decimator_run rnd orc b maxf p td = Ok dd ->
  let total := fun j => prodZ (firstn (S j) (dp_increments p)) in
  forall j, (j < Z.to_nat (dd_n_levels dd))%nat -> (Z.of_nat (S j) <= 2 ^ 51)%Z ->
  let level_period := inject_Z (total j) / fs (meta td) in
  let slack := inject_Z (Z.of_nat (S j)) * (6 * (1 # 9007199254740992)) * level_period in
  exists md x ts es, nth_error (dd_levels_md dd) j = Some md /\ get_level dd (Z.of_nat j) = Ok x /\
    dec_timestamps rnd nt ndl dd (Z.of_nat j) None false = Ok (High ts) /\ dec_timestamps rnd nt ndl dd (Z.of_nat j) None true = Ok (Estimated es) /\
    (forall r, In r x -> length r = length ts /\ length r = length es) /\
    (forall k t, nth_error ts k = Some t -> let original := stamp (first_time (meta td)) (1 / fs (meta td)) (Z.of_nat k * total j) in
       Qabs (t - original) <= inject_Z (Z.of_nat k) * ((102 # 1000000000000000) + slack)) /\
    (near_ns nt -> near_ns ndl -> forall k e, nth_error es k = Some e -> let original := stamp (first_time (meta td)) (1 / fs (meta td)) (Z.of_nat k * total j) in
       Qabs (inject_Z e - 1000000000 * original) <= inject_Z (Z.of_nat k) * (1 + 1000000000 * slack) + 1).
Proof. intros rnd nt ndl orc D b maxf p td dd H0 H1 H2 H3 H4 H5 H5' H6 H7 H8 total j Hj J. exact (c86_level_rounded rnd nt ndl orc D b maxf p td dd H0 H1 H2 H3 H4 H5 H5' H6 H7 H8 j Hj J). Qed.
Print Assumptions C86_levels_rounded.
(** estimated timestamps of a recording: within k + 1 nanoseconds *)
Theorem C86_estimate_partial : forall nt ndl td, near_ns nt -> near_ns ndl -> 0 < fs (meta td) -> (0 <= n_samples (meta td))%Z ->
  (exists es, time_timestamps exact nt ndl td None true = Ok (Estimated es) /\ length es = Z.to_nat (n_samples (meta td)) /\
    forall k e, nth_error es k = Some e -> Qabs (inject_Z e - 1000000000 * (first_time (meta td) + inject_Z (Z.of_nat k) / fs (meta td))) <= inject_Z (Z.of_nat k) + 1) /\
  (forall l, (forall k, In k l -> (0 <= k)%Z) -> exists es, time_timestamps exact nt ndl td (Some l) true = Ok (Estimated es) /\ length es = length l /\
    forall i k e, nth_error l i = Some k -> nth_error es i = Some e -> Qabs (inject_Z e - 1000000000 * (first_time (meta td) + inject_Z k / fs (meta td))) <= inject_Z k + 1).
Proof. exact c86_estimate. Qed.
Print Assumptions C86_estimate_partial.
Theorem C86_estimate_rounded : forall rnd nt ndl td, good_rnd rnd -> near_ns nt -> near_ns ndl -> 0 < fs (meta td) -> (0 <= n_samples (meta td))%Z ->
  (exists es, time_timestamps rnd nt ndl td None true = Ok (Estimated es) /\ length es = Z.to_nat (n_samples (meta td)) /\
    forall k e, nth_error es k = Some e -> Qabs (inject_Z e - 1000000000 * (first_time (meta td) + inject_Z (Z.of_nat k) / fs (meta td))) <=
      inject_Z (Z.of_nat k) * (1 + 1000000000 * (1 # 9007199254740992) / fs (meta td)) + 1) /\
  (forall l, (forall k, In k l -> (0 <= k)%Z) -> exists es, time_timestamps rnd nt ndl td (Some l) true = Ok (Estimated es) /\ length es = length l /\
    forall i k e, nth_error l i = Some k -> nth_error es i = Some e -> Qabs (inject_Z e - 1000000000 * (first_time (meta td) + inject_Z k / fs (meta td))) <=
      inject_Z k * (1 + 1000000000 * (1 # 9007199254740992) / fs (meta td)) + 1).
Proof. exact c86_estimate_rounded. Qed.
Print Assumptions C86_estimate_rounded.
(** but no fixed bound holds: unless the period is a whole number of nanoseconds the estimated
    timestamps drift without limit *)
Theorem C86_drift_refuted : forall nt ndl m dt, 0 < fs m -> (forall z, ~ 1000000000 / fs m == inject_Z z) ->
  forall bound, exists K, forall k data, (K <= k)%Z -> exists e, time_timestamps exact nt ndl (mkData m dt data) (Some [k]) true = Ok (Estimated [e]) /\
    bound < Qabs (inject_Z e - 1000000000 * (first_time m + inject_Z k / fs m)).
Proof. exact c86_drift. Qed.
Print Assumptions C86_drift_refuted.
(** at 4096 Hz (period 244140.625 ns, rounded to 244141 ns) the timestamps are more than half a
    sample late from sample 325521 on, after 80 seconds (after a day 543 samples) *)
Theorem C86_drift_4096_refuted : forall nt ndl m dt data k, fs m = 4096 -> ndl (1 / 4096) = 244141%Z -> inject_Z (nt (first_time m)) == 1000000000 * first_time m -> (325521 <= k)%Z ->
  exists e, time_timestamps exact nt ndl (mkData m dt data) (Some [k]) true = Ok (Estimated [e]) /\
    1000000000 * (first_time m + (inject_Z k + (1 # 2)) / 4096) < inject_Z e /\
    inject_Z e == 1000000000 * (first_time m + inject_Z k / 4096) + (3 # 8) * inject_Z k.
Proof. exact c86_drift_4096. Qed.
Print Assumptions C86_drift_4096_refuted.
(** neither the number of samples nor samples: a ValueError *)
Theorem C86_nothing_asked : forall nt ndl first f, 0 < f ->
  estimate exact nt ndl first f None None = Err ValueError /\ datetime_array exact first f None None = Err ValueError.
Proof. intros nt ndl first f F. unfold estimate. rewrite (qeq0 _ F). split; reflexivity. Qed.
Print Assumptions C86_nothing_asked.
(** a negative level: get_level raises, get_timestamps gives the times of a level from the end *)
Theorem C86_negative_level_refuted : forall nt ndl dd m md, dd_levels_md dd = m ++ [md] -> 0 < lm_fs md -> dd_n_levels dd = Z.of_nat (length (dd_levels_md dd)) ->
  (forall k x, In (k, x) (dd_data dd) -> (0 <= k)%Z) ->
  get_level dd (-1) = Err KeyError /\ exists ts, dec_timestamps exact nt ndl dd (-1) None false = Ok (High ts) /\ length ts = Z.to_nat (lm_n_samples md).
Proof. exact c86_negative. Qed.
Print Assumptions C86_negative_level_refuted.

(** *** an instance *)
Example C86_ex : let m := mkMeta 8 ["Ex"]%string 1 4 100 (100 + (3 # 8)) "" [] [] in
  time_timestamps exact nanos nanos (mkData m "float64" [[Some 1; Some 2; Some 3; Some 4]]) None true = Ok (Estimated [100000000000; 100125000000; 100250000000; 100375000000]%Z) /\
  exists t, time_timestamps exact nanos nanos (mkData m "float64" [[Some 1; Some 2; Some 3; Some 4]]) (Some [3]%Z) false = Ok (High [t]) /\ t == 100 + (3 # 8).
Proof. split; [vm_compute; reflexivity|]. eexists. split; [vm_compute; reflexivity|]. vm_compute. reflexivity. Qed.
Example C86_levels_ex : good_oracles toyD /\ (forall x, best_approx 40 x (o_limit_denominator toyD x)) /\ usable exact (dec_td 21) /\
  exists p dd, setup_run b64 pw64 100 (mkDecSetup 4 3 3 2 None) 8 = Ok p /\ decimator_run exact toyD true 3 p (dec_td 21) = Ok dd /\
    dec_timestamps exact nanos nanos dd 2 None true = Ok (Estimated [100000000000; 101000000000; 102000000000]%Z).
Proof.
  split; [exact (proj1 toyD_good)|]. split; [exact (proj2 toyD_good)|].
  split.
  { split; [|split; [reflexivity|cbn; lia]]. split; [discriminate|]. split; [reflexivity|]. split; [reflexivity|]. split; [intros r [<-|[]]; reflexivity|vm_compute; reflexivity]. }
  eexists. eexists. split; [vm_compute; reflexivity|]. split; [vm_compute; reflexivity|]. vm_compute. reflexivity.
Qed.
Lemma nanos_close : near_ns nanos.
Proof.
  intros x. unfold nanos. change (inject_Z 1000000000) with (1000000000 : Q). destruct (qfloor_spec (x * 1000000000)) as [A B]. apply Qabs_Qle_condition. lra.
Qed.
Example C86_rounded_ex : good_rnd b64 /\ near_ns nanos /\ usable b64 (dec_td 21) /\ fs (meta (dec_td 21)) <= 1000000 /\
  exists p dd, setup_run b64 pw64 100 (mkDecSetup 4 3 3 2 None) 8 = Ok p /\ decimator_run b64 toyD true 3 p (dec_td 21) = Ok dd /\
    dec_timestamps b64 nanos nanos dd 2 None true = Ok (Estimated [100000000000; 101000000000; 102000000000]%Z).
Proof.
  split; [exact b64_good|]. split; [exact nanos_close|]. split.
  { split; [|split; [reflexivity|cbn; lia]]. split; [discriminate|]. split; [reflexivity|]. split; [reflexivity|]. split; [intros r [<-|[]]; reflexivity|vm_compute; reflexivity]. }
  split; [vm_compute; discriminate|].
  eexists. eexists. split; [vm_compute; reflexivity|]. split; [vm_compute; reflexivity|]. vm_compute. reflexivity.
Qed.
