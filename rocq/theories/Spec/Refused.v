(** C91: requests for what is not there.  [answers] says that a call returns. *)
From Coq Require Import String.
From Verif Require Import Base.Prelude.
Open Scope Z_scope.

Definition answers {A} (r : res A) : Prop := exists v, r = Ok v.
(** a mapping from level numbers holds exactly the levels 0 .. n-1 *)
Definition holds_levels {A} (n : Z) (data : list (Z * A)) : Prop := forall l, (exists x, In (l, x) data) <-> 0 <= l < n.
(** a request is served inside a range, and refused with the given errors outside it *)
Definition served {A} (r : Z -> res A) (n : Z) (below above : exn) : Prop :=
  forall l, (0 <= l < n -> answers (r l)) /\ (l < 0 -> r l = Err below) /\ (n <= l -> r l = Err above).
