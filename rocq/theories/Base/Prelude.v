(** Common vocabulary: results with Python exceptions as values, and the
    rational arithmetic with explicit rounding used to model floats. *)
From Coq Require Export ZArith QArith Qround Qabs Qpower List Bool Lia Lqa Setoid Morphisms.
Export ListNotations.

(** Python exceptions raised by resistics (resistics/errors.py and builtins). *)
Inductive exn : Type :=
| ValueError | KeyError | IndexError | TypeError | AttributeError
| ZeroDivisionError | FileNotFoundError | RuntimeErr
| NotDirectoryError | NotFileError | PathNotFoundError
| WriteError | ReadError | MetadataReadError | TimeDataReadError
| ChannelNotFoundError | ProcessRunError | CalibrationFileNotFound
| ProjectCreateError | ProjectLoadError | SiteNotFoundError | MeasurementNotFoundError
| ValidationError | OutOfBoundsDatetime | StopIteration
(** errors of the operating system: the path exists, is or is not a directory *)
| OSError | NotImplementedErr
(** not an exception: a [while] loop is still running after the given number of turns *)
| OutOfFuel.

Inductive res (A : Type) : Type :=
| Ok (a : A)
| Err (e : exn).
Arguments Ok {A} _.
Arguments Err {A} _.

Definition bind {A B} (r : res A) (f : A -> res B) : res B :=
  match r with Ok a => f a | Err e => Err e end.
Notation "x <- r ;; k" := (bind r (fun x => k))
  (at level 100, r at next level, right associativity).
Notation "' p <- r ;; k" := (bind r (fun x => let p := x in k))
  (at level 100, p pattern, r at next level, right associativity).

Definition is_ok {A} (r : res A) : bool := match r with Ok _ => true | Err _ => false end.

(** ** Comparisons on Q as booleans *)
Definition Qltb (x y : Q) : bool := negb (Qle_bool y x).
Lemma Qltb_true x y : Qltb x y = true <-> x < y.
Proof.
  unfold Qltb. rewrite negb_true_iff. destruct (Qle_bool y x) eqn:E.
  - apply Qle_bool_iff in E. split; [discriminate|intros; lra].
  - split; [intros _|reflexivity]. apply Qnot_le_lt. intro H.
    apply Qle_bool_iff in H. congruence.
Qed.
Lemma Qltb_false x y : Qltb x y = false <-> y <= x.
Proof.
  unfold Qltb. rewrite negb_false_iff. apply Qle_bool_iff.
Qed.
Lemma Qle_bool_false x y : Qle_bool x y = false <-> y < x.
Proof.
  rewrite <- Qltb_true. unfold Qltb. rewrite negb_true_iff. reflexivity.
Qed.

Global Instance Qltb_comp : Proper (Qeq ==> Qeq ==> eq) Qltb.
Proof.
  intros a b Hab c d Hcd. unfold Qltb. rewrite Hab, Hcd. reflexivity.
Qed.

(** ** Integer rounding of rationals: floor, ceil and Python's round *)

(** [math.floor], [math.ceil] *)
Definition qfloor (x : Q) : Z := Qfloor x.
Definition qceil (x : Q) : Z := Qceiling x.

(** [round(x)] of Python: nearest integer, ties to even. *)
Definition qround (x : Q) : Z :=
  let f := Qfloor x in
  let r := x - inject_Z f in
  if Qltb r (1 # 2) then f
  else if Qltb (1 # 2) r then (f + 1)%Z
  else if Z.even f then f else (f + 1)%Z.

(** [float.is_integer] *)
Definition q_is_integer (x : Q) : bool := Qeq_bool x (inject_Z (Qfloor x)).

Lemma qfloor_spec x : inject_Z (qfloor x) <= x /\ x < inject_Z (qfloor x) + 1.
Proof.
  split; [apply Qfloor_le|].
  pose proof (Qlt_floor x) as H. rewrite inject_Z_plus in H. exact H.
Qed.

Lemma inject_Z_lt a b : (a < b)%Z <-> inject_Z a < inject_Z b.
Proof. rewrite Zlt_Qlt. reflexivity. Qed.
Lemma inject_Z_le a b : (a <= b)%Z <-> inject_Z a <= inject_Z b.
Proof. rewrite Zle_Qle. reflexivity. Qed.
Lemma inject_Z_eq a b : a = b <-> inject_Z a == inject_Z b.
Proof. split; [intros ->; reflexivity|]. apply inject_Z_injective. Qed.

Lemma qfloor_unique x k : inject_Z k <= x -> x < inject_Z k + 1 -> qfloor x = k.
Proof.
  intros H1 H2. destruct (qfloor_spec x) as [H3 H4].
  assert (inject_Z (qfloor x) < inject_Z (k + 1)) by (rewrite inject_Z_plus; change (inject_Z 1) with 1; lra).
  assert (inject_Z k < inject_Z (qfloor x + 1)) by (rewrite inject_Z_plus; change (inject_Z 1) with 1; lra).
  rewrite <- inject_Z_lt in *. lia.
Qed.

Lemma qceil_spec x : inject_Z (qceil x) - 1 < x /\ x <= inject_Z (qceil x).
Proof.
  split; [|apply Qle_ceiling].
  pose proof (Qceiling_lt x) as H. unfold qceil.
  unfold Z.sub in H. rewrite inject_Z_plus in H. change (inject_Z (-(1))) with (-(1)) in H. lra.
Qed.

Lemma qceil_unique x k : inject_Z k - 1 < x -> x <= inject_Z k -> qceil x = k.
Proof.
  intros H1 H2. destruct (qceil_spec x) as [H3 H4].
  assert (inject_Z (qceil x) < inject_Z (k + 1)) by (rewrite inject_Z_plus; change (inject_Z 1) with 1; lra).
  assert (inject_Z k < inject_Z (qceil x + 1)) by (rewrite inject_Z_plus; change (inject_Z 1) with 1; lra).
  rewrite <- inject_Z_lt in *. lia.
Qed.

Global Instance qfloor_comp : Proper (Qeq ==> eq) qfloor.
Proof. intros x y H. exact (Qfloor_comp x y H). Qed.
Global Instance qceil_comp : Proper (Qeq ==> eq) qceil.
Proof. intros x y H. exact (Qceiling_comp x y H). Qed.
Global Instance qround_comp : Proper (Qeq ==> eq) qround.
Proof.
  intros x y H. unfold qround. rewrite (Qfloor_comp x y H).
  assert (Hr : x - inject_Z (Qfloor y) == y - inject_Z (Qfloor y)) by (rewrite H; reflexivity).
  rewrite (Qltb_comp _ _ Hr _ _ (Qeq_refl _)), (Qltb_comp _ _ (Qeq_refl _) _ _ Hr).
  reflexivity.
Qed.
Global Instance q_is_integer_comp : Proper (Qeq ==> eq) q_is_integer.
Proof.
  intros x y H. unfold q_is_integer. rewrite (Qfloor_comp x y H).
  apply eq_true_iff_eq. rewrite !Qeq_bool_iff, H. reflexivity.
Qed.

Lemma qfloor_Z k : qfloor (inject_Z k) = k.
Proof. apply Qfloor_Z. Qed.
Lemma qceil_Z k : qceil (inject_Z k) = k.
Proof. apply Qceiling_Z. Qed.

Lemma q_is_integer_true x : q_is_integer x = true <-> x == inject_Z (qfloor x).
Proof. unfold q_is_integer. rewrite Qeq_bool_iff. reflexivity. Qed.
Lemma q_is_integer_Z x k : x == inject_Z k -> q_is_integer x = true.
Proof. intros H. rewrite H. apply q_is_integer_true. rewrite qfloor_Z. reflexivity. Qed.
Lemma q_is_integer_false x : q_is_integer x = false <-> inject_Z (qfloor x) < x.
Proof.
  destruct (q_is_integer x) eqn:E.
  - apply q_is_integer_true in E. split; [discriminate|intros; lra].
  - split; [intros _|reflexivity]. destruct (qfloor_spec x) as [H _].
    apply Qle_lt_or_eq in H. destruct H as [H|H]; [exact H|].
    symmetry in H. apply q_is_integer_true in H. congruence.
Qed.

Lemma qround_Z k : qround (inject_Z k) = k.
Proof.
  unfold qround. rewrite Qfloor_Z.
  assert (H : inject_Z k - inject_Z k == 0) by ring.
  replace (Qltb (inject_Z k - inject_Z k) (1 # 2)) with true; [reflexivity|].
  symmetry. apply Qltb_true. rewrite H. lra.
Qed.

(** Python's [round] is within one half. *)
Lemma qround_spec x : Qabs (x - inject_Z (qround x)) <= 1 # 2.
Proof.
  unfold qround. destruct (qfloor_spec x) as [H1 H2]. unfold qfloor in *.
  destruct (Qltb (x - inject_Z (Qfloor x)) (1 # 2)) eqn:E1.
  - apply Qltb_true in E1. apply Qabs_Qle_condition. lra.
  - apply Qltb_false in E1.
    destruct (Qltb (1 # 2) (x - inject_Z (Qfloor x))) eqn:E2.
    + apply Qltb_true in E2. rewrite inject_Z_plus. change (inject_Z 1) with 1.
      apply Qabs_Qle_condition. lra.
    + apply Qltb_false in E2. destruct (Z.even (Qfloor x)).
      * apply Qabs_Qle_condition. lra.
      * rewrite inject_Z_plus. change (inject_Z 1) with 1. apply Qabs_Qle_condition. lra.
Qed.

Lemma qround_floor_or_ceil x :
  qround x = qfloor x \/ (qround x = qfloor x + 1)%Z.
Proof.
  unfold qround, qfloor.
  destruct (Qltb _ _); [auto|]. destruct (Qltb _ _); [auto|]. destruct (Z.even _); auto.
Qed.
