(** Vocabulary for the names of calibration files. *)
From Coq Require Import String Ascii.
From Verif Require Import Base.Prelude Base.FileSys Spec.Project.
Open Scope list_scope.

(** a file name pattern: text and places for the sensor, its serial number and the extension *)
Inductive piece := Text (s : string) | Sensor | Serial | Extension.
(** how a pattern is written in file_str *)
Definition spelled (p : piece) : string :=
  match p with Text s => s | Sensor => "$sensor" | Serial => "$serial" | Extension => "$extension" end.
Fixpoint pattern (ps : list piece) : string :=
  match ps with [] => ""%string | p :: t => (spelled p ++ pattern t)%string end.
(** the pattern with the values in place *)
Fixpoint filled (sensor serial extension : string) (ps : list piece) : string :=
  match ps with
  | [] => ""%string
  | p :: t => (match p with Text s => s | Sensor => sensor | Serial => serial | Extension => extension end ++ filled sensor serial extension t)%string
  end.
(** no dollar sign in the text of the pattern *)
Definition plain_pattern (ps : list piece) : Prop := forall s, In (Text s) ps -> no_char "$"%char s.
(** the two file systems hold the same at the path *)
Definition same_at (s s' : node) (p : path) : Prop := kind_at s p = kind_at s' p.
