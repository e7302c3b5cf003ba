(** Specification for C100: the same recording with its channels in other units. *)
From Coq Require Import String.
From Verif Require Import Base.Prelude Base.ListUtil Base.NdArray Base.Cplx Model.Sampling Model.Time Model.Gather Model.Regression Spec.Regression Spec.Linear Spec.Solvers.
Open Scope list_scope. Open Scope Q_scope.

(** [b] is the recording [a] with the samples of every channel [c] multiplied by [k c]; no sample is missing *)
Definition in_units (k : chan -> Q) (a b : tdata) : Prop :=
  fs (meta b) = fs (meta a) /\ n_samples (meta b) = n_samples (meta a) /\ first_time (meta b) = first_time (meta a) /\ last_time (meta b) = last_time (meta a) /\
  chans (meta b) = chans (meta a) /\ n_chans (meta b) = n_chans (meta a) /\ NoDup (chans (meta a)) /\ length (rows a) = length (chans (meta a)) /\ length (rows b) = length (chans (meta a)) /\
  forall c, In c (chans (meta a)) -> exists u v, channel_samples a c u /\ channel_samples b c v /\ times_c (k c) u v.

(** the time processors that act linearly on each channel by itself *)
Definition unit_proc (p : proc) : Prop := linear_proc p \/ p = PInterpolateNans \/ exists a, p = PMultiply a.

(** the sum of squares of the residuals of [P x = b], and the fits that minimise it *)
Fixpoint squares (P : list (list Q)) (b x : list Q) : Q :=
  match P, b with row :: P', y :: b' => (dot row x - y) * (dot row x - y) + squares P' b' x | _, _ => 0 end.
Definition minimises (fit : list (list Q) -> list Q -> res (list Q)) : Prop :=
  forall P b n x, P <> [] -> (forall row, In row P -> length row = n) -> length b = length P -> fit P b = Ok x ->
    length x = n /\ forall y, length y = n -> squares P b x <= squares P b y.
(** a fit without preference for units: with the columns of [P] multiplied by [s] and the observations by [c], the
    coefficients are multiplied by [c / s] *)
Definition unit_free (fit : list (list Q) -> list Q -> res (list Q)) : Prop :=
  forall s c P P' b b' x x', (forall q, In q s -> ~ q == 0) -> ~ c == 0 ->
    Forall2 (fun row row' => length row = length s /\ Forall2 (fun qx y => y == fst qx * snd qx) (combine s row) row') P P' -> times_c c b b' ->
    fit P b = Ok x -> fit P' b' = Ok x' -> Forall2 (fun qx y => fst qx * y == c * snd qx) (combine s x) x'.
(** every entry of the tensor is multiplied by the unit of its output over the unit of its input *)
Definition tensor_in_units (k : chan -> Q) (tf : tf_chans) (ta tb : list (list cq)) : Prop :=
  forall o i oc ic, nth_error (tf_out tf) o = Some oc -> nth_error (tf_in tf) i = Some ic ->
    exists za zb, entry2 ta o i = Some za /\ entry2 tb o i = Some zb /\ ceq zb (cscale (k oc / k ic) za).
(** the division of the calibration does not prefer a unit: a number in other units gives the quotient in other units *)
Definition divides_units (cdiv : cq -> cq -> cq) : Prop := forall q z z' t, ceq z' (cscale q z) -> ceq (cdiv z' t) (cscale q (cdiv z t)).
