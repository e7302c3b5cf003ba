(** What a tipper vector is: the point with coordinates (x, y) has length r and angle d (in
    degrees, from the x axis towards the y axis) when x = r cos d and y = r sin d. *)
From Coq Require Import Reals.
Open Scope R_scope.

Definition radians (d : R) : R := d * PI / 180.
Definition polar (r d x y : R) : Prop := 0 <= r /\ x = r * cos (radians d) /\ y = r * sin (radians d).
(** the vector in axes turned by the angle d *)
Definition turned (d x y x' y' : R) : Prop :=
  x' = x * cos (radians d) + y * sin (radians d) /\ y' = y * cos (radians d) - x * sin (radians d).
