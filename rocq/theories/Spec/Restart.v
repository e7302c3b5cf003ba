(** Specification for C94: attempts that are interrupted. *)
From Coq Require Import String.
From Verif Require Import Base.Prelude Base.FileSys.
Open Scope list_scope.

(** [s'] is reached from [s] by any number of runs of programs satisfying [cmd], each of them stopped anywhere *)
Inductive attempts {A} (cmd : prog A -> Prop) (s : node) : node -> Prop :=
| no_attempt : attempts cmd s s
| one_more p s1 s2 : attempts cmd s s1 -> cmd p -> In s2 (crash_states p s1) -> attempts cmd s s2.

(** everything but the files [files] of [d], [d] itself and the directories above it is as it was *)
Definition elsewhere_same (d : path) (files : list string) (s s' : node) : Prop :=
  forall q, (forall f, In f files -> q <> d ++ [f]) -> (forall r, d <> q ++ r) -> kind_at s' q = kind_at s q.
