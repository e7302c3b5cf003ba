(** Small specification of sampled recordings: samples 0..n-1 of a recording
    starting at [first] with sampling period [dt] are stamped [first + k*dt]. *)
From Verif Require Import Base.Prelude.
Open Scope Q_scope.

Definition stamp (first dt : Q) (k : Z) : Q := first + inject_Z k * dt.

(** [k] is the first sample of the recording whose time is not before [t] *)
Definition first_sample_at_or_after (first dt : Q) (n : Z) (t : Q) (k : Z) : Prop :=
  (0 <= k < n)%Z /\ t <= stamp first dt k /\
  forall j, (0 <= j < n)%Z -> t <= stamp first dt j -> (k <= j)%Z.

(** [k] is the last sample of the recording whose time is not after [t] *)
Definition last_sample_at_or_before (first dt : Q) (n : Z) (t : Q) (k : Z) : Prop :=
  (0 <= k < n)%Z /\ stamp first dt k <= t /\
  forall j, (0 <= j < n)%Z -> stamp first dt j <= t -> (j <= k)%Z.

(** Whole nanoseconds-and-fraction below the microsecond of a number of seconds. *)
Definition sub_micro_ns (x : Q) : Q :=
  let us := x * inject_Z 1000000 in (us - inject_Z (Qfloor us)) * inject_Z 1000.

(** One ten-thousandth of a nanosecond, in seconds. *)
Definition tiny : Q := 1 # 10000000000000.

(** The time of sample [k] at the exact sampling frequency (stamps are multiples of the period as rounded by
    to_timedelta), and a tolerance of 2^-50 of the time since one sample before the start. *)
Definition nominal (first fs : Q) (k : Z) : Q := first + inject_Z k / fs.
Definition slack (first fs t : Q) : Q := (t - first + 1 / fs) * (1 # 1125899906842624).
