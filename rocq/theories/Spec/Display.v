(** Specification vocabulary for displayed data. *)
From Coq Require Import Sorted.
From Verif Require Import Base.Prelude Base.ListUtil Base.Cplx.
Open Scope list_scope. Open Scope Q_scope.

(** positions in increasing order, [k] of them, the first and the last of [n] among them *)
Definition chosen (n k : nat) (ps : list nat) : Prop :=
  StronglySorted lt ps /\ length ps = k /\ (exists rest, ps = 0%nat :: rest) /\ (exists init, ps = init ++ [(n - 1)%nat]) /\
  forall p, In p ps -> (p < n)%nat.
(** a downsampler returns points it was given, in order, including the first and the last *)
Definition picks_points (lttbc : list Q -> list Q -> Z -> res (list Q * list Q)) : Prop :=
  forall xs ys k, length xs = length ys -> (3 <= k < Z.of_nat (length xs))%Z ->
    exists ps, chosen (length xs) (Z.to_nat k) ps /\ lttbc xs ys k = Ok (map (fun p => nth p xs 0) ps, map (fun p => nth p ys 0) ps).
(** equal angles in degrees *)
Definition same_angle (a b : Q) : Prop := exists k : Z, a == b + 360 * inject_Z k.
