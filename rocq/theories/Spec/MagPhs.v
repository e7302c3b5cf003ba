(** Vocabulary of property C105: phase curves. *)
From Verif Require Import Base.Prelude.
Open Scope list_scope. Open Scope Q_scope.

(** the phases u are those of p up to whole turns, entry by entry, and the first phase is the same *)
Definition same_up_to_turns (turn : Q) (p u : list Q) : Prop :=
  Forall2 (fun a b => exists n : Z, b == a + inject_Z n * turn) p u /\
  (forall a b, nth_error p 0 = Some a -> nth_error u 0 = Some b -> b == a).
(** neighbours differ by at most half a turn *)
Definition small_steps (turn : Q) (u : list Q) : Prop :=
  forall i a b, nth_error u i = Some a -> nth_error u (S i) = Some b -> Qabs (b - a) <= turn / 2.
(** ... by less than half a turn *)
Definition smaller_steps (turn : Q) (u : list Q) : Prop :=
  forall i a b, nth_error u i = Some a -> nth_error u (S i) = Some b -> Qabs (b - a) < turn / 2.
