(** Specification vocabulary for spectra. *)
From Verif Require Import Base.Prelude Base.ListUtil Base.Interp Base.NdArray Base.Cplx.
Open Scope Q_scope.

(** strictly increasing numbers *)
Definition ascending (l : list Q) : Prop :=
  forall i j x y, (i < j)%nat -> nth_error l i = Some x -> nth_error l j = Some y -> x < y.

(** [z] is the piecewise linear interpolant at [f] of the complex values [v] given at
    the frequencies [freqs] (constant outside their range) *)
Definition interpolates_c (freqs : list Q) (v : list cq) (f : Q) (z : cq) : Prop :=
  interpolates (combine freqs (map re v)) f (re z) /\ interpolates (combine freqs (map im v)) f (im z).
