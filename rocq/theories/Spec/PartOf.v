(** Specification for C99: a recording and a longer recording that contains it. *)
From Coq Require Import String.
From Verif Require Import Base.Prelude Base.ListUtil Base.NdArray Base.Cplx Model.Sampling Model.Time Model.Decimate Model.Window Model.Spectra Spec.Sampling Spec.Window.
Open Scope list_scope.

(** [m] describes the samples of [m'] from sample [k] on *)
Definition part_level (k : Z) (m m' : level_md) : Prop :=
  lm_fs m = lm_fs m' /\ (0 <= k)%Z /\ (lm_first m == stamp (lm_first m') (1 / lm_fs m') k)%Q /\ (k + lm_n_samples m <= lm_n_samples m')%Z.
(** the samples [k], ..., [k + n - 1] of every channel *)
Definition part_rows (k n : Z) (ld ld' : list (list cell)) : Prop := ld = map (slice k (k + n)) ld'.
(** one row per channel *)
Definition rows_of (td : tdata) : Prop := length (rows td) = length (chans (meta td)) /\ forall r, In r (rows td) -> Z.of_nat (length r) = n_samples (meta td).
(** a recording of the samples [k], ..., [k + n - 1] of another recording *)
Definition part_of (k : Z) (a b : tdata) : Prop :=
  chans (meta a) = chans (meta b) /\ fs (meta a) = fs (meta b) /\ (0 <= k)%Z /\ (first_time (meta a) == stamp (first_time (meta b)) (1 / fs (meta b)) k)%Q /\
  (k + n_samples (meta a) <= n_samples (meta b))%Z /\ part_rows k (n_samples (meta a)) (rows a) (rows b) /\ rows_of b.
(** [n] windows numbered from [off] on are among [n'] windows numbered from [off'] on: the same vector for each of the [c] channels *)
Definition part_windows {A} (c : nat) (n off : Z) (x : nd A) (n' off' : Z) (x' : nd A) : Prop :=
  forall k, (0 <= k < n)%Z -> (off' <= off + k < off' + n')%Z /\
    forall ch, (ch < c)%nat -> exists v, nd_vec x [Z.to_nat k; ch] = Some v /\ nd_vec x' [Z.to_nat (off + k - off'); ch] = Some v.
(** the spectra of a level: the same frequencies, and the windows of [a] are windows of [b] *)
Definition part_spectra (c : nat) (level : Z) (a b : spec_data cq) : Prop := exists m m' x x',
  sd_level_md a level = Ok m /\ sd_level_md b level = Ok m' /\ sd_get_level a level = Ok x /\ sd_get_level b level = Ok x' /\
  sl_fs m = sl_fs m' /\ sl_win_size m = sl_win_size m' /\ sl_olap_size m = sl_olap_size m' /\ sl_freqs m = sl_freqs m' /\ sl_n_freqs m = sl_n_freqs m' /\
  part_windows c (sl_n_wins m) (sl_offset m) x (sl_n_wins m') (sl_offset m') x'.
