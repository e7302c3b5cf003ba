(** Specification for C96: readers that look only at the directory they are given. *)
From Coq Require Import String.
From Verif Require Import Base.Prelude Base.FileSys Model.Letsgo.
Open Scope list_scope.

Definition looks_inside {D} (r : reader D) : Prop :=
  forall s s' d, look s d = look s' d -> rd_md r s d = rd_md r s' d /\ rd_run r s d = rd_run r s' d.
(** a directory of the project [p], but not one with recordings (and not the project file) *)
Definition derived_data (p d : path) : Prop := exists x e, d = p ++ x :: e /\ x <> "time"%string /\ x <> "resistics.json"%string.
