(** Vocabulary of C53: weights that depend on the size of a residual, whatever its sign. *)
From Coq Require Import Qabs.
From Verif Require Import Base.Prelude.
Open Scope Q_scope.

(** in [0,1], 1 at zero and non-increasing in the absolute value of the residual *)
Definition robust_by_size (dom : Q -> Prop) (W : list Q -> list Q) : Prop :=
  forall r, (forall x, In x r -> dom x) -> length (W r) = length r /\
    forall i x w, nth_error r i = Some x -> nth_error (W r) i = Some w ->
      0 <= w /\ w <= 1 /\ (x == 0 -> w == 1) /\
      forall j y v, nth_error r j = Some y -> nth_error (W r) j = Some v -> Qabs x <= Qabs y -> v <= w.
