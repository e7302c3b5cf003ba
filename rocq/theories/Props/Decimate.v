(** Properties C25-C29: evaluation frequencies and decimation. *)
From Coq Require Import String.
From Verif Require Import Base.Prelude Base.Rounding Base.ListUtil Model.Sampling Model.Time Model.Decimate
  Spec.Sampling Spec.Time Spec.Decimate Proofs.EvalFreqs Proofs.DecFactors Proofs.DecParams Proofs.DecRun Proofs.DecFinal Proofs.Toy Proofs.ToyDec Proofs.RoundedMore.
Open Scope Q_scope.

(** ** C25, for every correctly rounded arithmetic and power function accurate to 2^-50 *)
Theorem C25_eval_freqs_by_number : forall rnd pw fs n, good_rnd rnd -> good_pow2half pw -> 0 < fs ->
  let l := get_eval_freqs_size rnd pw fs (Z.of_nat n) in
  length l = n /\
  (forall i f, nth_error l i = Some f -> near_half_power (fs / 4) i f) /\
  (forall i j f g, (i < j)%nat -> nth_error l i = Some f -> nth_error l j = Some g -> g < f).
Proof. exact eval_freqs_size_spec. Qed.
Print Assumptions C25_eval_freqs_by_number.
Theorem C25_eval_freqs_by_minimum : forall rnd pw fs f_min, good_rnd rnd -> good_pow2half pw -> 0 < fs ->
  0 < f_min -> f_min <= rnd (fs / 4) ->
  exists n, (exists N, forall fuel, (N <= fuel)%nat ->
     get_eval_freqs_min rnd pw fuel fs f_min = Ok (get_eval_freqs_size rnd pw fs (Z.of_nat n))) /\
  forall m i f, nth_error (get_eval_freqs_size rnd pw fs (Z.of_nat m)) i = Some f -> (f_min <= f <-> (i < n)%nat).
Proof. exact eval_freqs_min_full. Qed.
Print Assumptions C25_eval_freqs_by_minimum.
Theorem C25_eval_freqs_reject : forall rnd pw fuel fs f_min n, f_min <= 0 \/ rnd (fs / 4) < f_min ->
  get_eval_freqs rnd pw fuel fs (Some f_min) n = Err ValueError.
Proof. exact eval_freqs_min_reject. Qed.
Print Assumptions C25_eval_freqs_reject.
Example C25_ex : good_pow2half pw64 /\ get_eval_freqs_min b64 pw64 20 128 7 = Ok (get_eval_freqs_size b64 pw64 128 5) /\
  Forall2 Qeq (get_eval_freqs_size b64 pw64 128 5) [32; 1592262918131443 # 70368744177664; 16; 1592262918131443 # 140737488355328; 8].
Proof. split; [exact pw64_good|]. split; [vm_compute; reflexivity|].
  change (get_eval_freqs_size b64 pw64 128 5) with (map (nth_eval_freq b64 pw64 128) [0;1;2;3;4]%nat). repeat (constructor; [vm_compute; reflexivity|]). constructor. Qed.

(** ** C26 *)
Theorem C26_factor_optimal_exact : forall div fs f_max, (2 <= div)%Z -> 0 < fs -> 0 < f_max ->
    exists k, (exists N, forall fuel, (N <= fuel)%nat -> decimation_factor exact fuel div fs f_max = Ok (div ^ Z.of_nat k)%Z) /\
      (forall j : nat, 4 * f_max <= fs / inject_Z (div ^ Z.of_nat j) -> (j <= k)%nat) /\
      (4 * f_max <= fs -> 4 * f_max <= fs / inject_Z (div ^ Z.of_nat k)) /\
      (fs < 4 * f_max -> k = 0%nat).
Proof. exact c26_exact. Qed.
Print Assumptions C26_factor_optimal_exact.
(** the default divisor 2, in binary64 *)
Theorem C26_factor_optimal_two : forall rnd fs f_max, good_rnd rnd -> is_float fs -> is_float f_max -> 0 < fs -> 0 < f_max ->
    exists k, (exists N, forall fuel, (N <= fuel)%nat -> decimation_factor rnd fuel 2 fs f_max = Ok (2 ^ Z.of_nat k)%Z) /\
      (forall j : nat, 4 * f_max <= fs / inject_Z (2 ^ Z.of_nat j) -> (j <= k)%nat) /\
      (4 * f_max <= fs -> 4 * f_max <= fs / inject_Z (2 ^ Z.of_nat k)) /\
      (fs < 4 * f_max -> k = 0%nat).
Proof. exact c26_two. Qed.
Print Assumptions C26_factor_optimal_two.
(** any divisor, binary64: terminates and is optimal up to k+1 rounding errors *)
Theorem C26_factor_near_optimal : forall rnd div fs f_max, good_rnd rnd -> (2 <= div)%Z -> 0 < fs -> 0 < f_max ->
    exists k, (exists N, forall fuel, (N <= fuel)%nat -> decimation_factor rnd fuel div fs f_max = Ok (div ^ Z.of_nat k)%Z) /\
      (inject_Z (Z.of_nat (S k)) * (1 # 9007199254740992) < 1 ->
        (4 * f_max <= fs -> 4 * f_max * (1 - (1 # 9007199254740992)) * (1 - inject_Z (Z.of_nat k) * (1 # 9007199254740992)) <= fs / inject_Z (div ^ Z.of_nat k)) /\
        fs / inject_Z (div ^ Z.of_nat (S k)) * (1 - inject_Z (Z.of_nat (S k)) * (1 # 9007199254740992)) < 4 * f_max * (1 + (1 # 9007199254740992))).
Proof. exact c26_any. Qed.
Print Assumptions C26_factor_near_optimal.
(** the search never ends for div_factor = 1, nor for a level whose highest frequency is not positive *)
Theorem C26_terminates_refuted :
  (forall rnd fs f_max fuel, good_rnd rnd -> is_float fs -> rnd (f_max * 4) <= fs ->
     decimation_factor rnd fuel 1 fs f_max = Err OutOfFuel) /\
  (forall rnd div fs f_max fuel, good_rnd rnd -> (1 <= div)%Z -> 0 < fs -> f_max <= 0 ->
     decimation_factor rnd fuel div fs f_max = Err OutOfFuel).
Proof. exact (conj c26_div1 c26_fmax0). Qed.
Print Assumptions C26_terminates_refuted.
Example C26_ex : decimation_factor b64 20 2 128 (6369051672525773 # 562949953421312) = Ok 2%Z /\
  decimation_factor b64 20 2 128 1 = Ok 32%Z /\ decimation_factor b64 20 2 128 33 = Ok 1%Z.
Proof. repeat split; vm_compute; reflexivity. Qed.

(** ** C27 *)
Theorem C27_increments_multiply : forall rnd pw fuel c fs p, good_rnd rnd -> (1 <= ds_div_factor c)%Z -> (0 <= ds_per_level c)%Z ->
  setup_run rnd pw fuel c fs = Ok p ->
  maxima_descend (dp_eval_freqs p) (ds_per_level c) ->
  Forall (fun f => (f <= 2 ^ 53)%Z) (dp_factors p) ->
  length (dp_increments p) = length (dp_factors p) /\
  forall i f, nth_error (dp_factors p) i = Some f ->
    (prodZ (firstn (S i) (dp_increments p)) = f)%Z /\
    exists x (d : nat), nth_error (dp_increments p) i = Some x /\ x = (ds_div_factor c ^ Z.of_nat d)%Z.
Proof. exact c27_increments. Qed.
Print Assumptions C27_increments_multiply.
Theorem C27_default_frequencies_descend : forall rnd pw fuel c fs p, good_rnd rnd -> good_pow2half pw -> 0 < fs ->
  (1 <= ds_div_factor c)%Z -> (0 <= ds_per_level c)%Z -> ds_eval_freqs c = None ->
  setup_run rnd pw fuel c fs = Ok p -> maxima_descend (dp_eval_freqs p) (ds_per_level c).
Proof. exact c27_default. Qed.
Print Assumptions C27_default_frequencies_descend.
Theorem C27_decimated_fs : forall rnd pw fuel c fs p, good_rnd rnd -> 0 < fs -> (1 <= ds_div_factor c)%Z ->
  setup_run rnd pw fuel c fs = Ok p ->
  length (dp_dec_fs p) = length (dp_factors p) /\
  forall i f g, nth_error (dp_factors p) i = Some f -> nth_error (dp_dec_fs p) i = Some g -> (f <= 2 ^ 53)%Z ->
    Qabs (g - fs / inject_Z f) <= fs / inject_Z f * (1 # 2251799813685248) /\
    (ds_div_factor c = 2%Z -> is_float fs -> g == fs / inject_Z f).
Proof. exact c27_fs. Qed.
Print Assumptions C27_decimated_fs.
(** For user supplied frequencies that do not descend an increment may be 0. *)
Theorem C27_increments_refuted : exists c p, setup_run b64 pw64 100 c 128 = Ok p /\
  ds_eval_freqs c = Some [32; 1; 4] /\ dp_factors p = [1; 32; 8]%Z /\ dp_increments p = [1; 32; 0]%Z.
Proof. exact c27_refuted. Qed.
Print Assumptions C27_increments_refuted.
Example C27_ex : exists p, setup_run b64 pw64 100 (mkDecSetup 4 3 8 2 None) 128 = Ok p /\
  dp_factors p = [1; 2; 8; 16]%Z /\ dp_increments p = [1; 2; 4; 2]%Z.
Proof. eexists. split; [vm_compute; reflexivity|]. split; reflexivity. Qed.

(** ** C28 *)
Theorem C28_decimator_levels : forall rnd orc D b maxf p td dd, good_rnd rnd -> good_oracles orc -> (D <= 2 ^ 49)%Z ->
  (forall x, best_approx D x (o_limit_denominator orc x)) -> (3 <= maxf)%Z -> usable rnd td ->
  length (dp_increments p) = Z.to_nat (dp_n_levels p) ->
  Forall (fun f => (1 <= f)%Z /\ (b = true -> f <= D)%Z) (dp_increments p) ->
  decimator_run rnd orc b maxf p td = Ok dd ->
  let total := fun j => prodZ (firstn (S j) (dp_increments p)) in
  (1 <= dd_n_levels dd <= dp_n_levels p)%Z /\
  length (dd_data dd) = Z.to_nat (dd_n_levels dd) /\ length (dd_levels_md dd) = Z.to_nat (dd_n_levels dd) /\
  dd_fs dd = map lm_fs (dd_levels_md dd) /\
  dd_chans dd = chans (meta td) /\ dd_first dd = first_time (meta td) /\ dd_last dd = last_time (meta td) /\
  (forall j, (j < Z.to_nat (dd_n_levels dd))%nat -> exists md x,
     nth_error (dd_levels_md dd) j = Some md /\ get_level dd (Z.of_nat j) = Ok x /\
     length x = length (chans (meta td)) /\ (forall r, In r x -> Z.of_nat (length r) = lm_n_samples md) /\
     lm_n_samples md = ceil_div (n_samples (meta td)) (total j) /\ (dp_min_samples p <= lm_n_samples md)%Z /\
     lm_first md = first_time (meta td) /\
     lm_last md == stamp (lm_first md) (period rnd (lm_fs md)) (lm_n_samples md - 1) /\
     lm_fs md = div_chain rnd (fs (meta td)) (firstn (S j) (dp_increments p))) /\
  ((dd_n_levels dd < dp_n_levels p)%Z ->
     (ceil_div (n_samples (meta td)) (total (Z.to_nat (dd_n_levels dd))) < dp_min_samples p)%Z) /\
  (forall j, (j < 0 \/ dd_n_levels dd <= j)%Z -> exists e, get_level dd j = Err e).
Proof. exact decimator_spec. Qed.
Print Assumptions C28_decimator_levels.
(** the level frequency is fs / total factor: exactly in exact arithmetic, and in binary64
    when the increments are powers of two (the default divisor) *)
Theorem C28_level_fs_exact : forall fs l, Forall (fun f => (1 <= f)%Z) l -> div_chain exact fs l == fs / inject_Z (prodZ l).
Proof. exact div_chain_exact. Qed.
Print Assumptions C28_level_fs_exact.
Theorem C28_level_fs_rounded : forall rnd fs l, good_rnd rnd -> 0 <= fs -> Forall (fun f => (1 <= f)%Z) l -> (Z.of_nat (length l) <= 2 ^ 51)%Z ->
  Qabs (div_chain rnd fs l - fs / inject_Z (prodZ l)) <= fs / inject_Z (prodZ l) * (inject_Z (Z.of_nat (length l)) * (2 * (1 # 9007199254740992))).
Proof. exact chain_rounded. Qed.
Print Assumptions C28_level_fs_rounded.
Example C28_level_fs_rounded_ex : div_chain b64 1 [3; 3]%Z == b64 (b64 (1 / 3) / 3) /\ ~ div_chain b64 1 [3; 3]%Z == 1 # 9 /\ Forall (fun f => (1 <= f)%Z) [3; 3]%Z.
Proof. split; [reflexivity|]. split; [vm_compute; discriminate|]. repeat constructor; discriminate. Qed.
Theorem C28_level_fs_two : forall rnd fs l, good_rnd rnd -> is_float fs -> Forall (fun f => exists k : nat, f = (2 ^ Z.of_nat k)%Z) l ->
  div_chain rnd fs l == fs / inject_Z (prodZ l).
Proof. exact div_chain_two. Qed.
Print Assumptions C28_level_fs_two.
(** Resampling by 1/f in floats still gives a ratio of exactly 1/f *)
Theorem C28_resample_ratio : forall rnd D f fs r, good_rnd rnd -> (D <= 2 ^ 49)%Z -> (Zpos f <= D)%Z -> 0 < fs ->
  best_approx D (rnd (rnd (fs / inject_Z (Zpos f)) / fs)) r -> Qred r = 1 # f.
Proof. exact limit_den. Qed.
Print Assumptions C28_resample_ratio.
(** A recording too short for level 0 is not reported as zero levels: KeyError. *)
Theorem C28_short_recording_refuted : forall rnd orc b maxf p td f rest, good_rnd rnd ->
  dp_increments p = f :: rest -> (1 <= dp_n_levels p)%Z -> f = 1%Z -> (n_samples (meta td) < dp_min_samples p)%Z ->
  decimator_run rnd orc b maxf p td = Err KeyError.
Proof. exact decimator_short. Qed.
Print Assumptions C28_short_recording_refuted.
Example C28_ex : good_oracles toyD /\ (forall x, best_approx 40 x (o_limit_denominator toyD x)) /\ usable b64 (dec_td 21) /\
  exists p dd, setup_run b64 pw64 100 (mkDecSetup 4 3 3 2 None) 8 = Ok p /\
    decimator_run b64 toyD true 3 p (dec_td 21) = Ok dd /\ dd_n_levels dd = 3%Z /\
    map lm_n_samples (dd_levels_md dd) = [21; 11; 3]%Z /\
    get_level dd 2 = Ok [[Some 0; Some 8; Some 16]].
Proof.
  split; [exact (proj1 toyD_good)|]. split; [exact (proj2 toyD_good)|]. split; [exact dec_td_usable|].
  eexists. eexists. split; [vm_compute; reflexivity|]. split; [vm_compute; reflexivity|]. repeat split.
Qed.

(** ** C29 *)
Theorem C29_frequency_lookup : forall p level idx, (0 <= dp_per_level p)%Z ->
  Z.of_nat (length (dp_eval_freqs p)) = (dp_n_levels p * dp_per_level p)%Z ->
  (0 <= level < dp_n_levels p)%Z ->
  exists l, level_eval_freqs p level = Ok l /\ Z.of_nat (length l) = dp_per_level p /\
   ((0 <= idx < dp_per_level p)%Z -> exists f, level_eval_freq p level idx = Ok f /\ nth_error l (Z.to_nat idx) = Some f) /\
   ((idx < 0 \/ dp_per_level p <= idx)%Z -> level_eval_freq p level idx = Err ValueError).
Proof. exact c29_lookup. Qed.
Print Assumptions C29_frequency_lookup.
Theorem C29_levels_partition : forall p, (0 <= dp_per_level p)%Z -> (0 <= dp_n_levels p)%Z ->
  Z.of_nat (length (dp_eval_freqs p)) = (dp_n_levels p * dp_per_level p)%Z ->
  exists ls, length ls = Z.to_nat (dp_n_levels p) /\ concat ls = dp_eval_freqs p /\
    forall i l, nth_error ls i = Some l -> level_eval_freqs p (Z.of_nat i) = Ok l.
Proof. exact c29_partition. Qed.
Print Assumptions C29_levels_partition.
Theorem C29_bad_level_rejected : forall p level idx, (level < 0 \/ dp_n_levels p <= level)%Z ->
  level_eval_freqs p level = Err ValueError /\ level_eval_freq p level idx = Err ValueError /\
  get_fs p level = Err ValueError /\ get_total_factor p level = Err ValueError /\ get_incremental_factor p level = Err ValueError.
Proof. exact c29_reject. Qed.
Print Assumptions C29_bad_level_rejected.
(** every result of DecimationSetup has the right number of frequencies *)
Theorem C29_setup_size : forall rnd pw fuel c fs p, (0 <= ds_n_levels c)%Z -> (0 <= ds_per_level c)%Z ->
  setup_run rnd pw fuel c fs = Ok p ->
  Z.of_nat (length (dp_eval_freqs p)) = (dp_n_levels p * dp_per_level p)%Z /\ dp_n_levels p = ds_n_levels c /\
  dp_per_level p = ds_per_level c.
Proof. exact setup_size. Qed.
Print Assumptions C29_setup_size.
Example C29_ex : exists p, setup_run b64 pw64 100 (mkDecSetup 2 2 8 2 (Some [30; 20; 10; 5])) 128 = Ok p /\
  level_eval_freqs p 1 = Ok [10; 5] /\ level_eval_freq p 1 1 = Ok 5.
Proof. eexists. split; [vm_compute; reflexivity|]. split; reflexivity. Qed.
