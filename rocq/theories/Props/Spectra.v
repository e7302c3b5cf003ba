(** Properties C40-C42 and C63: spectra. Coefficients are computed in exact arithmetic. *)
From Coq Require Import String.
From Verif Require Import Base.Prelude Base.Rounding Base.ListUtil Base.Interp Base.NdArray Base.Cplx
  Model.Sampling Model.Time Model.Decimate Model.Window Model.Spectra Spec.Decimate Spec.Spectra
  Proofs.EvalFreqs Proofs.Spectra Proofs.SpectraFreqs Proofs.ToySpec Proofs.RoundedSpectra.
Open Scope Q_scope.

(** ** C40 *)
(** every spectrum [idx] (all axes but the frequency axis) of every level *)
Theorem C40_interpolation : forall p d d' level, evals_run p d = Ok d' -> (0 <= level < sm_n_levels (sd_md d))%Z ->
  exists m m' x y evals, sd_level_md d level = Ok m /\ sd_get_level d level = Ok x /\
    level_eval_freqs p level = Ok evals /\ sd_level_md d' level = Ok m' /\ sd_get_level d' level = Ok y /\
    sl_freqs m' = evals /\ sl_n_freqs m' = Z.of_nat (length evals) /\
    sl_fs m' = sl_fs m /\ sl_n_wins m' = sl_n_wins m /\ sl_offset m' = sl_offset m /\
    forall idx,
      (forall w, nd_vec y idx = Some w -> exists v, nd_vec x idx = Some v) /\
      (forall v, nd_vec x idx = Some v -> exists w, nd_vec y idx = Some w /\ length w = length evals /\
        (ascending (sl_freqs m) -> length v = length (sl_freqs m) ->
         forall j f z, nth_error evals j = Some f -> nth_error w j = Some z -> interpolates_c (sl_freqs m) v f z)).
Proof. exact c40. Qed.
Print Assumptions C40_interpolation.
(** a spectrum of the right length is always interpolated *)
Theorem C40_total : forall freqs v f, ascending freqs -> freqs <> [] -> length v = length freqs ->
  exists z, eval_at freqs v f = Ok z.
Proof. exact eval_at_total. Qed.
Print Assumptions C40_total.
(** the frequencies FourierTransform writes satisfy the hypothesis *)
Theorem C40_grid : forall n fs freqs, 0 < fs -> (1 <= n)%Z -> rfft_freqs exact n fs = Ok freqs ->
  ascending freqs /\ length freqs = Z.to_nat (n / 2 + 1) /\
  forall i f, nth_error freqs i = Some f -> f == inject_Z (Z.of_nat i) * (fs / inject_Z n).
Proof. exact (fun n fs freqs a b c => conj (grid_ascending n fs freqs a b c) (rfft_grid n fs freqs a b c)). Qed.
Print Assumptions C40_grid.
(** frequencies up to fs/4 (all default ones) are never clamped *)
Theorem C40_grid_covers : forall n fs freqs f, 0 < fs -> (2 <= n)%Z -> rfft_freqs exact n fs = Ok freqs -> 0 <= f -> f <= fs / 4 ->
  exists i a b, nth_error freqs i = Some a /\ nth_error freqs (S i) = Some b /\ a <= f /\ f <= b /\ b - a == fs / inject_Z n.
Proof. exact grid_covers. Qed.
Print Assumptions C40_grid_covers.
(** both in every correctly rounded arithmetic: each frequency is off by at most 5 * 2^-53 of itself *)
Theorem C40_grid_rounded : forall rnd n fs, good_rnd rnd -> 0 < fs -> (1 <= n)%Z -> (n <= 2 ^ 50)%Z ->
  exists freqs, rfft_freqs rnd n fs = Ok freqs /\ ascending freqs /\ length freqs = Z.to_nat (n / 2 + 1) /\
    forall i f, nth_error freqs i = Some f ->
      Qabs (f - inject_Z (Z.of_nat i) * (fs / inject_Z n)) <= inject_Z (Z.of_nat i) * (fs / inject_Z n) * (5 * (1 # 9007199254740992)).
Proof. exact grid_rounded. Qed.
Print Assumptions C40_grid_rounded.
Theorem C40_grid_covers_rounded : forall rnd n fs freqs f, good_rnd rnd -> 0 < fs -> (2 <= n)%Z -> (n <= 2 ^ 50)%Z -> rfft_freqs rnd n fs = Ok freqs -> 0 <= f -> f <= fs / 4 ->
  exists i a b, nth_error freqs i = Some a /\ nth_error freqs (S i) = Some b /\ a <= f /\ f <= b /\ Qabs (b - a - fs / inject_Z n) <= fs * (5 * (1 # 9007199254740992)).
Proof. exact grid_covers_rounded. Qed.
Print Assumptions C40_grid_covers_rounded.
Example C40_grid_rounded_ex : exists freqs, rfft_freqs b64 5 10 = Ok freqs /\ length freqs = 3%nat /\ (nth 2 freqs 0) == 4 /\ 0 <= 5 # 2 /\ 5 # 2 <= 10 / 4.
Proof. eexists. split; [vm_compute; reflexivity|]. split; [reflexivity|]. split; [vm_compute; reflexivity|]. split; vm_compute; discriminate. Qed.
Theorem C40_below_nyquist : forall rnd pw fuel c fs p level evals f g k, good_rnd rnd -> good_pow2half pw -> 0 < fs -> is_float fs ->
  (2 <= ds_div_factor c)%Z -> (0 <= ds_per_level c)%Z -> setup_run rnd pw fuel c fs = Ok p ->
  level_eval_freqs p level = Ok evals -> In f evals -> get_fs p level = Ok g -> get_total_factor p level = Ok k -> (k <= 2 ^ 53)%Z ->
  f <= rnd (g / 2).
Proof. exact c40_nyquist. Qed.
Print Assumptions C40_below_nyquist.
Example C40_ex : exists p d', setup_run b64 pw64 100 (mkDecSetup 1 2 8 2 (Some [3; 5 # 2])) 16 = Ok p /\
  evals_run p toyS = Ok d' /\ sd_get_level d' 0 = Ok (nd3 [[[mkC 3 30; mkC (5#2) (50#2)]; [mkC 9 (-3); mkC (62 # 8) (-22#8)]]]).
Proof. eexists. eexists. split; [vm_compute; reflexivity|]. split; vm_compute; reflexivity. Qed.

(** ** C41 *)
Theorem C41_smooth_length_odd : forall rnd p n, (1 <= smooth_length rnd p n)%Z /\ Z.odd (smooth_length rnd p n) = true.
Proof. exact c41. Qed.
Print Assumptions C41_smooth_length_odd.
Theorem C41_smooth_length_value : forall rnd p n, 0 <= rnd (p * inject_Z n) ->
  let x := rnd (p * inject_Z n) in let l := smooth_length rnd p n in
  x - 1 < inject_Z l /\ inject_Z l <= x + 1.
Proof. exact c41_value. Qed.
Print Assumptions C41_smooth_length_value.
Theorem C41_uniform_smoother : forall rnd uf p d d' level x m, smooth_uniform rnd uf p d = Ok d' -> (0 <= level < sm_n_levels (sd_md d))%Z ->
  sd_get_level d level = Ok x -> sd_level_md d level = Ok m ->
  exists len y, len = smooth_length rnd p (sl_n_freqs m) /\ Z.odd len = true /\ (1 <= len)%Z /\ sd_get_level d' level = Ok y /\
   (forall idx v, nd_vec x idx = Some v -> nd_vec y idx = Some (uf len v)).
Proof. exact c41_run. Qed.
Print Assumptions C41_uniform_smoother.
Example C41_ex : smooth_length b64 (1#10) 129 = 13%Z /\ smooth_length b64 (1#10) 5 = 1%Z /\ smooth_length b64 (1#2) 12 = 7%Z /\
  smooth_length b64 (-1) 8 = 1%Z.
Proof. repeat split; vm_compute; reflexivity. Qed.

(** ** C42 *)
(** the width handed to the filter is 1 whatever sigma *)
Theorem C42_gaussian_width : forall gf sigma d d' level x, smooth_gaussian gf sigma d = Ok d' -> (0 <= level < sm_n_levels (sd_md d))%Z ->
  sd_get_level d level = Ok x ->
  exists y, sd_get_level d' level = Ok y /\ (forall idx v, nd_vec x idx = Some v -> nd_vec y idx = Some (gf 1 v)).
Proof. exact c42_width. Qed.
Print Assumptions C42_gaussian_width.
(** hence with the default sigma = 3 the smoothing is not the configured one *)
Theorem C42_gaussian_uses_sigma_refuted : forall gf v, gf 1 v <> gf 3 v -> v <> [] ->
  exists d d' x y, smooth_gaussian gf 3 d = Ok d' /\ sd_get_level d 0 = Ok x /\ sd_get_level d' 0 = Ok y /\
    nd_vec x [0%nat; 0%nat] = Some v /\ nd_vec y [0%nat; 0%nat] <> Some (gf 3 v).
Proof. exact c42_refuted. Qed.
Print Assumptions C42_gaussian_uses_sigma_refuted.
Example C42_ex : exists (gf : Q -> list cq -> list cq) v, gf 1 v <> gf 3 v /\ v <> @nil cq.
Proof. exists (fun s v => map (cscale s) v), [mkC 1 0]. split; [|discriminate]. intros H. discriminate H. Qed.

(** ** C63 *)
Theorem C63_fourier_bookkeeping : forall rnd nt ndl nf tr d d' level m,
  fourier_run rnd nf tr d = Ok d' -> (0 <= level < wd_n_levels d)%Z -> wd_level_md d level = Ok m ->
  sm_chans (sd_md d') = wd_chans d /\ sm_n_levels (sd_md d') = wd_n_levels d /\ sm_history (sd_md d') = wd_history d ++ [COther "FourierTransform"] /\
  sd_get_timestamps rnd nt ndl d' level = get_win_starts rnd nt ndl (wd_ref d) (wl_win_size m) (wl_olap_size m) (wl_fs m) (wl_n_wins m) (wl_offset m) /\
  exists m' x y, sd_level_md d' level = Ok m' /\ sl_n_freqs m' = Z.of_nat (length (sl_freqs m')) /\
    wd_get_level d level = Ok x /\ sd_get_level d' level = Ok y /\
    ((forall w n v r, tr w n v = Ok r -> Z.of_nat (length r) = (n / 2 + 1)%Z) ->
     forall idx v, nd_vec y idx = Some v -> Z.of_nat (length v) = sl_n_freqs m').
Proof. exact c63_fourier. Qed.
Print Assumptions C63_fourier_bookkeeping.
Theorem C63_evals_timestamps : forall rnd nt ndl p d d' level, evals_run p d = Ok d' -> (0 <= level < sm_n_levels (sd_md d))%Z ->
  sd_get_timestamps rnd nt ndl d' level = sd_get_timestamps rnd nt ndl d level /\
  sm_chans (sd_md d') = sm_chans (sd_md d) /\ sm_n_levels (sd_md d') = sm_n_levels (sd_md d) /\
  sm_history (sd_md d') = sm_history (sd_md d) ++ [COther "EvaluationFreqs"].
Proof. exact c63_evals. Qed.
Print Assumptions C63_evals_timestamps.
Example C63_ex : exists d', fourier_run b64 (fun n => n) toyFFT toyWD = Ok d' /\ sd_get_timestamps b64 (fun t => qfloor t) (fun t => qfloor t) d' 0 = Ok [9; 10]%Z.
Proof. eexists. split; [vm_compute; reflexivity|]. vm_compute. reflexivity. Qed.
