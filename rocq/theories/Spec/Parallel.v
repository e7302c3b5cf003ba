(** Vocabulary of the properties of processes that run at the same time. *)
From Coq Require Import String Ascii.
From Verif Require Import Base.Prelude Base.FileSys Spec.Persist Model.Persist Model.Parallel.
Open Scope list_scope.

(** no directory of the list is another one of the list, or inside it *)
Definition apart (ds : list path) : Prop :=
  forall i j di dj, i <> j -> nth_error ds i = Some di -> nth_error ds j = Some dj -> forall r, dj <> di ++ r.
(** process number [i] of the pool has ended, and how *)
Definition ended (pool : list io) (i : nat) (r : res unit) : Prop := nth_error pool i = Some (Ret r).
Definition all_ended (pool : list io) : Prop := forall i t, nth_error pool i = Some t -> exists r, t = Ret r.
(** the files with these contents are in the directory *)
Definition holds (s : node) (d : path) (files : list (string * string)) : Prop :=
  forall f c, In (f, c) files -> kind_at s (d ++ [f]) = Some (KFile c).
(** the path is neither a directory of the list, nor above it, nor one of the files in it *)
Definition elsewhere (ds : list path) (files : list string) (q : path) : Prop :=
  forall d, In d ds -> (forall r, d <> q ++ r) /\ forall f, In f files -> q <> d ++ [f].

(** a job for a writer of level data (spectra at the evaluation frequencies, say): the
    record it adds, the time it notes, overwrite, the directory, what is to be written *)
Record wjob (B A : Type) := mkWJob { w_who : string; w_now : string; w_ov : bool; w_dir : path; w_meta : pmeta B; w_data : list (Z * A) }.
Arguments mkWJob {B A}. Arguments w_who {B A}. Arguments w_now {B A}. Arguments w_ov {B A}. Arguments w_dir {B A}.
Arguments w_meta {B A}. Arguments w_data {B A}.
(** a job that saves a solution: directory, file name, contents on the way, content *)
Record sjob := mkSJob { s_dir : path; s_name : string; s_inter : list string; s_text : string }.
Definition LEVEL_FILES : list string := ["data.npz"; "metadata.json"]%string.
