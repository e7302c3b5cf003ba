(** Specification vocabulary for the definition of transfer functions. *)
From Coq Require Import String Ascii.
From Verif Require Import Base.Prelude Base.ListUtil Base.Cplx
  Model.Time Model.Calibrate Model.Gather Model.Regression Model.TransFunc Spec.Regression.
Open Scope list_scope. Open Scope Z_scope.

(** the counts are those of the channel lists *)
Definition counts_agree (t : transfer_function) : Prop :=
  t_n_out t = Z.of_nat (length (t_out t)) /\ t_n_in t = Z.of_nat (length (t_in t)) /\ t_n_cross t = Z.of_nat (length (t_cross t)).
(** no counts among the arguments *)
Definition no_counts (a : tf_args) : Prop := a_n_out a = None /\ a_n_in a = None /\ a_n_cross a = None.
(** a least squares solver that returns the shortest of the solutions, as LAPACK's gelsd in scikit-learn does *)
Definition shortest_solution (fit : list (list Q) -> list Q -> res (list Q)) : Prop :=
  forall P b x n, fit P b = Ok x -> (forall row, In row P -> length row = n) -> length b = length P ->
    length x = n /\ ((exists y, length y = n /\ real_system P y b) ->
      real_system P x b /\ forall y, length y = n -> real_system P y b -> (dot x x <= dot y y)%Q).
(** the text from position [n] of a line is [sub], up to the length of [sub] *)
Definition text_at (line : string) (n : nat) (sub : string) : Prop := substring n (String.length sub) line = sub.
(** only spaces from position [n] for [k] characters *)
Definition blank (line : string) (n k : nat) : Prop := text_at line n (spaces k).
(** longest name *)
Definition longest (t : transfer_function) (m : nat) : Prop :=
  (forall c, In c (t_in t ++ t_out t) -> (String.length c <= m)%nat) /\ exists c, In c (t_in t ++ t_out t) /\ String.length c = m.
