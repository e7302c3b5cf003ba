(** Vocabulary for text files of samples. *)
From Coq Require Import String Ascii.
From Verif Require Import Base.Prelude Base.B32 Base.NdArray Base.FileSys Spec.Project Model.Time Model.Persist Model.AsciiData.
Open Scope list_scope.

(** a text file of the given lines *)
Fixpoint text_of (lines : list string) : string :=
  match lines with [] => ""%string | l :: t => (l ++ String (ascii_of_nat 10) (text_of t))%string end.
(** a line of numbers *)
Fixpoint line_of (sep : ascii) (tokens : list string) : string :=
  match tokens with
  | [] => ""%string
  | [x] => x
  | x :: t => (x ++ String sep (line_of sep t))%string
  end.
(** every character of the string *)
Fixpoint each_char (P : ascii -> Prop) (s : string) : Prop :=
  match s with EmptyString => True | String c t => P c /\ each_char P t end.
(** line feed and carriage return *)
Definition line_char (c : ascii) : Prop := c <> ascii_of_nat 10 /\ c <> ascii_of_nat 13.
(** printable characters except the separator and the comment sign *)
Definition token_char (sep c : ascii) : Prop := (33 <= nat_of_ascii c <= 126)%nat /\ c <> sep /\ c <> "#"%char.
Definition token (sep : ascii) (t : string) : Prop := t <> ""%string /\ each_char (token_char sep) t.
(** the separator of the file suits the reader's delimiter: blank or tab for the default None *)
Definition separator (delimiter : option ascii) (sep : ascii) : Prop :=
  match delimiter with
  | None => sep = " "%char \/ sep = ascii_of_nat 9
  | Some c => sep = c /\ line_char c /\ c <> "#"%char
  end.
(** a text file: [header] lines, then one line of numbers for each sample *)
Definition sample_file (pyfloat : string -> res cell) (delimiter : option ascii) (header : list string) (samples : list (list cell)) (text : string) : Prop :=
  exists (sep : ascii) (tokens : list (list string)),
    text = text_of (header ++ map (line_of sep) tokens) /\
    (forall l, In l header -> each_char line_char l) /\ separator delimiter sep /\
    (forall row, In row tokens -> forall t, In t row -> token sep t) /\
    Forall2 (Forall2 (fun t v => pyfloat t = Ok v)) tokens samples.
(** samples of [n] channels each *)
Definition rectangular (n : nat) (samples : list (list cell)) : Prop := forall row, In row samples -> length row = n.
(** the recording in float32: one row for each channel *)
Definition single (samples : list (list cell)) (c : nat) : list cell := map (fun row => option_map b32 (nth c row None)) samples.
Definition channels (n : nat) (samples : list (list cell)) : list (list cell) := map (single samples) (seq 0 n).
(** time data as the readers build it, with a two dimensional array *)
Definition as_any (td : tdata) : any_data := mkAny (meta td) (dtype td) (nd2 (rows td)).
(** the directory holds metadata [m] that names the file [f] of the given text for all channels *)
Definition text_recording (tparse : string -> res tmeta) (d : path) (s : node) (m : tmeta) (f text : string) : Prop :=
  exists mt, kind_at s (d ++ ["metadata.json"%string]) = Some (KFile mt) /\ tparse mt = Ok m /\ component f /\ suffix f = ".txt"%string /\
    (forall c y, In (c, y) (chans_md m) -> cm_files y = [f]) /\ (forall c, In c (chans m) -> In c (map fst (chans_md m))) /\
    kind_at s (d ++ [f]) = Some (KFile text).
