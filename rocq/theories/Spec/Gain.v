(** Specification for C104: calibration data with another gain. *)
From Coq Require Import String.
From Verif Require Import Base.Prelude Base.ListUtil Base.NdArray Base.Cplx Model.Sampling Model.Time Model.Calibrate Model.Gather Model.Regression
  Spec.Calibrate Spec.Regression Spec.Linear Spec.Solvers Spec.Units.
Open Scope list_scope. Open Scope Q_scope.

(** the same calibration with every magnitude multiplied by [g] *)
Definition with_gain (g : Q) (cal cal' : cal_data) : Prop :=
  cal_freq cal' = cal_freq cal /\ cal_phase cal' = cal_phase cal /\ times_c g (cal_mag cal) (cal_mag cal').
(** for every channel that is calibrated the calibration data [b] are those of [a] with the gain of the channel; a channel
    that is not calibrated (not asked for, or without calibration data) has gain one *)
Definition gains (g : chan -> Q) (selected : option (list chan)) (a b : list (chan -> res cal_data)) : Prop :=
  forall c, ~ g c == 0 /\
    ((exists cal cal', is_selected selected c /\ first_success a c cal /\ first_success b c cal' /\ with_gain (g c) cal cal') \/
     (g c == 1 /\ (~ is_selected selected c \/ no_success a c /\ no_success b c))).
(** dividing by a number multiplied by [g] gives the quotient divided by [g] *)
Definition divides_gain (cdiv : cq -> cq -> cq) : Prop :=
  forall q g z z' t t', ~ g == 0 -> ceq z' (cscale q z) -> ceq t' (cscale g t) -> ceq (cdiv z' t') (cscale (q / g) (cdiv z t)).
(** a fit that does not see how the numbers are written, with at most one coefficient for each column *)
Definition respects (fit : list (list Q) -> list Q -> res (list Q)) : Prop :=
  forall n P P' b b' x x', (forall row, In row P -> length row = n) -> Forall2 (Forall2 Qeq) P P' -> Forall2 Qeq b b' -> fit P b = Ok x -> fit P' b' = Ok x' ->
    (length x <= n)%nat /\ Forall2 Qeq x x'.
(** the entries of the two tensors are equal *)
Definition same_tensor (tf : tf_chans) (ta tb : list (list cq)) : Prop :=
  forall o i oc ic, nth_error (tf_out tf) o = Some oc -> nth_error (tf_in tf) i = Some ic ->
    exists za zb, entry2 ta o i = Some za /\ entry2 tb o i = Some zb /\ ceq zb za.
