(** What the type of a channel is. *)
From Coq Require Import String Ascii List.
Import ListNotations.
Open Scope list_scope.

(** the names resistics knows *)
Definition electric_name (c : string) : Prop := In c ["Ex"; "Ey"; "E1"; "E2"; "E3"; "E4"]%string.
Definition magnetic_name (c : string) : Prop := In c ["Hx"; "Hy"; "Hz"; "Bx"; "By"; "Bz"]%string.
(** the type of a channel described by a name and perhaps a type: the given one, or that of the name *)
Definition type_of (name given : option string) (t : string) : Prop :=
  exists n, name = Some n /\
    (given = Some t \/ (given = None /\ ((electric_name n /\ t = "electric"%string) \/ (magnetic_name n /\ t = "magnetic"%string)))).
(** [r] is the part of [l] on which P holds, in the same order and with repetitions *)
Inductive part {A} (P : A -> Prop) : list A -> list A -> Prop :=
| part_nil : part P [] []
| part_in x l r : P x -> part P l r -> part P (x :: l) (x :: r)
| part_out x l r : ~ P x -> part P l r -> part P (x :: l) r.
