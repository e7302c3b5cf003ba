(** Specification vocabulary for windows. *)
From Verif Require Import Base.Prelude Base.Rounding Base.ListUtil Base.NdArray Model.Sampling Model.Time Model.Decimate Model.Window Spec.Sampling.
Open Scope Q_scope.

(** Window [g] of [win] samples, advancing by [win - olap] samples, starts this long
    after the reference time and ends [win - 1] samples later. *)
Definition window_start (ref fs : Q) (win olap g : Z) : Q := ref + inject_Z g * inject_Z (win - olap) / fs.
Definition window_end (ref fs : Q) (win olap g : Z) : Q := window_start ref fs win olap g + inject_Z (win - 1) / fs.

(** Level metadata of a recording: [n] samples, sample k at [first + k / fs]. The
    sample period the code works with is 1/fs (it drops parts below 10^-13 s). *)
Definition recorded (rnd : Q -> Q) (m : level_md) : Prop :=
  0 < lm_fs m /\ (1 <= lm_n_samples m)%Z /\ period rnd (lm_fs m) == 1 / lm_fs m /\
  lm_last m == stamp (lm_first m) (1 / lm_fs m) (lm_n_samples m - 1).

(** Either arithmetic is exact, or it is binary64 and the recording has a sampling
    frequency 2^p <= 128 Hz and starts a whole number of samples after the reference. *)
Definition precise (rnd : Q -> Q) (ref : Q) (m : level_md) : Prop :=
  rnd = exact \/
  (rnd = b64 /\ exists p k, (p <= 7)%Z /\ lm_fs m = pow2 p /\
     lm_first m - ref == inject_Z k / lm_fs m /\ (0 <= k)%Z /\ (k + lm_n_samples m <= 2 ^ 52)%Z).

(** whole windows contained in the recording *)
Definition fits (ref : Q) (m : level_md) (win olap g : Z) : Prop :=
  lm_first m <= window_start ref (lm_fs m) win olap g /\
  window_end ref (lm_fs m) win olap g <= lm_last m.

(** conversion of seconds to whole nanoseconds: off by less than or exactly one *)
Definition near_ns (f : Q -> Z) : Prop := forall x, Qabs (inject_Z (f x) - 1000000000 * x) <= 1.
(** the error of a time computed in double precision, in nanoseconds per second: 10^9 * 2^-51 *)
Definition ns_eps : Q := 1000000000 * (1 # 2251799813685248).

(** Level metadata of a recording for any rounding: sample k is at [first + k * T] where T is
    the sample period the code computes from the sampling frequency (at most 1 MHz). *)
Definition sampled (rnd : Q -> Q) (m : level_md) : Prop :=
  0 < lm_fs m /\ lm_fs m <= 1000000 # 1 /\ (1 <= lm_n_samples m)%Z /\
  lm_last m == stamp (lm_first m) (period rnd (lm_fs m)) (lm_n_samples m - 1).

(** a level's data: one row per channel, each with the number of samples of the level's metadata *)
Definition shape_ok (d : dec_data) (m : level_md) (ld : list (list cell)) : Prop :=
  (forall r, In r ld -> Z.of_nat (length r) = lm_n_samples m) /\ length ld = length (dd_chans d).
