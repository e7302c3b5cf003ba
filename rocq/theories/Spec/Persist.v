(** Specification of stored data: directories that can be written, faithful file formats. *)
From Coq Require Import String Ascii.
From Verif Require Import Base.Prelude Base.PyString Base.FileSys Model.Time Model.Persist.
Open Scope list_scope.

(** a directory that exists or can be made, in which [files] are no directories *)
Definition writable (s : node) (d : path) (files : list string) : Prop :=
  d <> [] /\ kind_at s [] = Some KDir /\
  (forall q r c, d = q ++ r -> kind_at s q <> Some (KFile c)) /\
  (forall f, In f files -> kind_at s (d ++ [f]) <> Some KDir).
(** reading a complete file gives back what was written, and an incomplete file is not
    readable: true of JSON objects and of npy/npz files, whose end is missing *)
Definition faithful {X} (ser : X -> string) (parse : string -> res X) (inter : string -> list string) (x : X) : Prop :=
  parse (ser x) = Ok x /\ forall c, In c (""%string :: inter (ser x)) -> forall y, parse c <> Ok y.
(** after writing [files] (name, content) to [d]: they are there, the directories above them
    too, and everything else is as before *)
Definition stored (s : node) (d : path) (files : list (string * string)) (s' : node) : Prop :=
  (forall f c, In (f, c) files -> kind_at s' (d ++ [f]) = Some (KFile c)) /\
  (forall q r, d = q ++ r -> kind_at s' q = Some KDir) /\
  (forall q, (forall f c, In (f, c) files -> q <> d ++ [f]) -> (forall r, d <> q ++ r) -> kind_at s' q = kind_at s q).
(** each level once *)
Definition levels_distinct {A} (data : list (Z * A)) : Prop := NoDup (map fst data).
(** the channel metadata describes the channels: one entry per channel *)
Definition chans_described (m : tmeta) : Prop :=
  NoDup (map fst (chans_md m)) /\ forall c, In c (map fst (chans_md m)) <-> In c (chans m).
(** equal apart from file names, history; times as instants *)
Definition same_recording (m m' : tmeta) : Prop :=
  fs m' = fs m /\ chans m' = chans m /\ n_chans m' = n_chans m /\ n_samples m' = n_samples m /\
  (first_time m' == first_time m)%Q /\ (last_time m' == last_time m)%Q /\ info m' = info m /\
  map (fun kv => (fst kv, cm_info (snd kv))) (chans_md m') = map (fun kv => (fst kv, cm_info (snd kv))) (chans_md m).

(** the metadata of level data as written and as returned by a reader: a record of the
    writer or reader is appended *)
Definition written {B} (who now : string) (m : pmeta B) : pmeta B := mkPMeta (pm_body m) (pm_hist m ++ [who]) (Some now).
Definition seen {B} (who : string) (m : pmeta B) : pmeta B := mkPMeta (pm_body m) (pm_hist m ++ [who]) (pm_info m).
(** the metadata of a recording as written: the file names of the channels, and the record of
    the writer *)
Definition as_written (name : chan -> string) (m : tmeta) : tmeta :=
  mkMeta (fs m) (chans m) (n_chans m) (n_samples m) (first_time m) (last_time m) (info m)
    (map (fun kv => (fst kv, mkChanMd [name (fst kv)] (cm_info (snd kv)))) (chans_md m)) (history m ++ [CWriter]).
Definition numpy_name (c : chan) : string := "data.npy".
Definition ascii_file_name (d : path) (c : chan) : string := last_name (pjoin d (lower c ++ ".ascii")%string).
(** the metadata a directory holds *)
Definition stored_meta (tparse : string -> res tmeta) (d : path) (s : node) : res tmeta :=
  text <- read_file s (d ++ ["metadata.json"%string]) ;; tparse text.
(** metadata that names data.npy for every channel *)
Definition names_npy (m : tmeta) : Prop :=
  (forall c x, In (c, x) (chans_md m) -> cm_files x = ["data.npy"%string]) /\
  forall c, In c (chans m) -> In c (map fst (chans_md m)).
(** the named arrays of level data: level n is stored under the name "n" *)
Definition archive {A} (data : list (Z * A)) : list (string * A) := map (fun kv => (z_str (fst kv), snd kv)) data.
