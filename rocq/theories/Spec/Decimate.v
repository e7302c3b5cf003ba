(** Specification vocabulary for decimation. *)
From Coq Require Import String.
From Verif Require Import Base.Prelude Base.Rounding Base.ListUtil Model.Sampling Model.Time Model.Decimate Spec.Time.
Open Scope Q_scope.

(** What is assumed about np.power(2, i/2): positive, and its square is 2^i up to a
    relative error of 2^-50. *)
Definition good_pow2half (pw : nat -> Q) : Prop :=
  forall i, 0 < pw i /\
    pow2 (Z.of_nat i) * (1 - (1 # 1125899906842624)) <= pw i * pw i /\
    pw i * pw i <= pow2 (Z.of_nat i) * (1 + (1 # 1125899906842624)).

(** [f] is F * 2^(-i/2) up to a relative error of (less than) 2^-48; stated on squares
    to stay within the rationals *)
Definition near_half_power (F : Q) (i : nat) (f : Q) : Prop :=
  0 < f /\
  F * F * (1 - (1 # 140737488355328)) <= f * f * pow2 (Z.of_nat i) /\
  f * f * pow2 (Z.of_nat i) <= F * F * (1 + (1 # 140737488355328)).

(** binary64 numbers (without exponent range) *)
Definition is_float (x : Q) : Prop := exists m e, (Z.abs m <= 2 ^ 53)%Z /\ x == inject_Z m * pow2 e.

(** [x] is the largest number in the list *)
Definition is_max (x : Q) (l : list Q) : Prop := In x l /\ forall y, In y l -> y <= x.

(** Fraction.limit_denominator(D): a fraction with denominator at most D, at least as
    close to x as every other such fraction *)
Definition best_approx (D : Z) (x r : Q) : Prop :=
  (Zpos (Qden (Qred r)) <= D)%Z /\
  forall p q, (Zpos q <= D)%Z -> Qabs (r - x) <= Qabs ((p # q) - x).

(** the evaluation frequencies of a level: entries per*level .. per*level + per - 1 *)
Definition level_freqs_of (freqs : list Q) (per level : Z) : list Q :=
  firstn (Z.to_nat per) (skipn (Z.to_nat (per * level)) freqs).

(** the highest frequency of each level is not above that of the level before *)
Definition maxima_descend (freqs : list Q) (per : Z) : Prop :=
  forall i x y, (0 <= i)%Z -> is_max x (level_freqs_of freqs per i) -> is_max y (level_freqs_of freqs per (i + 1)) -> y <= x.

(** sampling frequency after dividing by the increments one after the other *)
Fixpoint div_chain (rnd : Q -> Q) (fs : Q) (incs : list Z) : Q :=
  match incs with
  | [] => fs
  | f :: t => div_chain rnd (if (f =? 1)%Z then fs else rnd (fs / inject_Z f)) t
  end.

