(** Model of the data writers and readers: decimated, windowed and spectra data
    (decimate.py 805-877, window.py 1535-1607, spectra.py 764-836: the same code three
    times) and time data (time.py 708-1182).

    Simplifications: the serialisers (pydantic JSON, numpy npy/npz) are parameters; a
    history record is its creator; logging is dropped. Writing a file is a sequence of
    steps, so a crash may leave any prefix of the work. *)
From Coq Require Import String Ascii NArith.
From Verif Require Import Base.Prelude Base.PyString Base.Dec Base.FileSys Base.ListUtil Model.Sampling Model.Time.
Open Scope list_scope.
Open Scope Z_scope.

(** ResisticsWriter._check_dir, common.py 920-930 *)
Definition check_dir (overwrite : bool) (d : path) : prog bool :=
  e <~ preads (fun s => exists_ s d) ;;
  if (e : bool) && negb overwrite then pret false
  else _ <~ (if (e : bool) then pret tt else mkdir_parents d) ;; pret true.

(** str(n) and int(text) for integers in decimal notation (int() also accepts blanks, "+"
    and "_", which str never writes) *)
Definition z_str (z : Z) : string :=
  match z with
  | Zneg p => String "-"%char (dec (Npos p))
  | _ => dec (Z.to_N z)
  end.
Definition z_int (t : string) : res Z :=
  let (neg, u) := match t with String "-"%char u => (true, u) | _ => (false, t) end in
  match undec u with
  | Some n => Ok (if neg then - Z.of_N n else Z.of_N n)
  | None => Err ValueError
  end.

(** A metadata object: what it says, its processing history (creators), file_info. *)
Record pmeta (B : Type) := mkPMeta { pm_body : B; pm_hist : list string; pm_info : option string }.
Arguments mkPMeta {B}. Arguments pm_body {B}. Arguments pm_hist {B}. Arguments pm_info {B}.

Definition META_FILE : string := "metadata.json".
Definition NPZ_FILE : string := "data.npz".

Section Levels.
  Context {B A : Type}.
  Variable mser : pmeta B -> string.            (* metadata.json() *)
  Variable mparse : string -> res (pmeta B).    (* parse_file *)
  Variable zser : list (string * A) -> string.  (* np.savez_compressed *)
  Variable zparse : string -> res (list (string * A)).  (* np.load *)
  (** contents a crash may leave before the file is complete (the empty file comes on top) *)
  Variable inter : string -> list string.

  (** {str(x): y for x, y in data.items()} *)
  Fixpoint str_keys (data : list (Z * A)) (acc : list (string * A)) : list (string * A) :=
    match data with [] => acc | (x, y) :: t => str_keys t (set_assoc (z_str x) y acc) end.
  (** the value of a Python dict at an integer key *)
  Fixpoint zset (k : Z) (v : A) (l : list (Z * A)) : list (Z * A) :=
    match l with [] => [(k, v)] | (x, w) :: t => if Z.eqb x k then (x, v) :: t else (x, w) :: zset k v t end.
  (** {int(level): npz_file[level] for level in npz_file.files} *)
  Fixpoint int_keys (arc : list (string * A)) (acc : list (Z * A)) : res (list (Z * A)) :=
    match arc with
    | [] => Ok acc
    | (x, y) :: t => k <- z_int x ;; int_keys t (zset k y acc)
    end.

  (** SpectraDataWriter.run, spectra.py 767-793; DecimatedDataWriter.run, decimate.py 808-834;
      WindowedDataWriter.run, window.py 1538-1564. [who] is the record the writer adds, [now]
      the file_info written by WriteableMetadata.write, common.py 441-452 *)
  Definition write_levels (who now : string) (overwrite : bool) (d : path) (m : pmeta B) (data : list (Z * A)) : prog unit :=
    ok <~ check_dir overwrite d ;;
    if negb (ok : bool) then pfail WriteError
    else
      let arc := zser (str_keys data []) in
      _ <~ write_file (d ++ [NPZ_FILE]) (inter arc) arc ;;
      let text := mser (mkPMeta (pm_body m) (pm_hist m ++ [who]) (Some now)) in
      write_file (d ++ [META_FILE]) (inter text) text.

  (** SpectraDataReader.run, spectra.py 799-836; decimate.py 840-877; window.py 1570-1607;
      with metadata_only=True *)
  Definition read_levels_md (d : path) (s : node) : res (pmeta B) :=
    if negb (exists_ s d) then Err ReadError
    else text <- read_file s (d ++ [META_FILE]) ;; mparse text.
  (** and with metadata_only=False *)
  Definition read_levels (who : string) (d : path) (s : node) : res (pmeta B * list (Z * A)) :=
    m <- read_levels_md d s ;;
    z <- read_file s (d ++ [NPZ_FILE]) ;;
    arc <- zparse z ;;
    data <- int_keys arc [] ;;
    Ok (mkPMeta (pm_body m) (pm_hist m ++ [who]) (pm_info m), data).
End Levels.

(** ** Time data *)

(** Path.suffix of a file name: from the last dot, unless it is the first or last character *)
Fixpoint rfind_dot (t : string) : option nat :=
  match t with
  | EmptyString => None
  | String c u => match rfind_dot u with
                  | Some i => Some (S i)
                  | None => if Ascii.eqb c "."%char then Some O else None
                  end
  end.
Definition suffix (name : string) : string :=
  match rfind_dot name with
  | Some i => if (Nat.ltb 0 i && Nat.ltb i (String.length name - 1))%bool
              then substring i (String.length name - i) name else ""%string
  | None => ""%string
  end.
(** the last component of a path *)
Definition last_name (p : path) : string := last p ""%string.

(** chans_metadata[c].data_files = files *)
Definition set_files (c : chan) (files : list string) (l : list (chan * chan_md)) : list (chan * chan_md) :=
  map (fun kv => if String.eqb (fst kv) c then (fst kv, mkChanMd files (cm_info (snd kv))) else kv) l.
Definition with_chans_md (m : tmeta) (l : list (chan * chan_md)) : tmeta :=
  mkMeta (fs m) (chans m) (n_chans m) (n_samples m) (first_time m) (last_time m) (info m) l (history m).
(** metadata[c], time.py 128-167 *)
Definition chan_meta (m : tmeta) (c : chan) : res chan_md :=
  if chan_in c (chans m) then match lookup c (chans_md m) with Some x => Ok x | None => Err KeyError end
  else Err ChannelNotFoundError.

Section TimeFiles.
  Variable rnd : Q -> Q.
  Variable tser : tmeta -> string.             (* metadata.json(); file_info is dropped *)
  Variable tparse : string -> res tmeta.       (* TimeMetadata.parse_file *)
  Variable nser : string * list (list cell) -> string.          (* np.save *)
  Variable nparse : string -> res (string * list (list cell)).  (* np.load *)
  Variable savetxt : list cell -> string.                       (* np.savetxt(fmt="%.6f") *)
  Variable inter : string -> list string.

  (** the loop over the channels, time.py 1142-1143 *)
  Fixpoint set_all_files (cs : list chan) (files : list string) (m : tmeta) : res tmeta :=
    match cs with
    | [] => Ok m
    | c :: t => _ <- chan_meta m c ;; set_all_files t files (with_chans_md m (set_files c files (chans_md m)))
    end.
  (** TimeWriterNumpy.run, time.py 1118-1146 *)
  Definition write_numpy (overwrite : bool) (d : path) (td : tdata) : prog unit :=
    ok <~ check_dir overwrite d ;;
    if negb (ok : bool) then pfail WriteError
    else
      let text := nser (dtype td, rows td) in
      _ <~ write_file (d ++ ["data.npy"%string]) (inter text) text ;;
      m <~ pres (fun _ => set_all_files (chans (meta td)) ["data.npy"%string] (meta td)) ;;
      let text := tser (with_history m (history m ++ [CWriter])) in
      write_file (d ++ [META_FILE]) (inter text) text.

  (** the loop of TimeWriterAscii.run, time.py 1176-1180 *)
  Fixpoint write_ascii_chans (d : path) (td : tdata) (cs : list chan) (m : tmeta) : prog tmeta :=
    match cs with
    | [] => pret m
    | c :: t =>
        let cp := pjoin d (lower c ++ ".ascii")%string in
        x <~ pres (fun _ => get_chan td c) ;;
        _ <~ write_file cp (inter (savetxt x)) (savetxt x) ;;
        _ <~ pres (fun _ => chan_meta m c) ;;
        write_ascii_chans d td t (with_chans_md m (set_files c [last_name cp] (chans_md m)))
    end.
  (** TimeWriterAscii.run, time.py 1154-1182 *)
  Definition write_ascii (overwrite : bool) (d : path) (td : tdata) : prog unit :=
    ok <~ check_dir overwrite d ;;
    if negb (ok : bool) then pfail WriteError
    else
      m <~ write_ascii_chans d td (chans (meta td)) (meta td) ;;
      let text := tser (with_history m (history m ++ [CWriter])) in
      write_file (d ++ [META_FILE]) (inter text) text.

  (** TimeReader._check_data_files, time.py 833-843 (is_file, common.py 25-45) *)
  Definition check_data_files (s : node) (d : path) (m : tmeta) : bool :=
    forallb (fun kv => forallb (fun f => is_file_ s (pjoin d f)) (cm_files (snd kv))) (chans_md m).
  (** TimeReader._check_extensions, time.py 845-853 *)
  Definition check_extensions (ext : string) (d : path) (m : tmeta) : bool :=
    forallb (fun kv => forallb (fun f => String.eqb (suffix (last_name (pjoin d f))) ext) (cm_files (snd kv))) (chans_md m).
  (** TimeReaderJSON.read_metadata, time.py 958-994; [ext] is the extension attribute, ".txt"
      for TimeReaderAscii (1006) and ".npy" for TimeReaderNumpy (1068) *)
  Definition read_metadata (ext : string) (d : path) (s : node) : res tmeta :=
    text <- read_file s (d ++ [META_FILE]) ;;
    m <- match tparse text with Err KeyError => Err MetadataReadError | r => r end ;;
    if negb (check_data_files s d m) then Err TimeDataReadError
    else if negb (check_extensions ext d m) then Err TimeDataReadError
    else Ok m.
  (** the data file of the first channel: the only one read (time.py 1034, 1100) *)
  Definition first_data_file (m : tmeta) : res string :=
    match chans m with
    | [] => Err IndexError
    | c :: _ => match lookup c (chans_md m) with
                | None => Err KeyError
                | Some x => match cm_files x with [] => Err IndexError | f :: _ => Ok f end
                end
    end.
  (** TimeReader.run with TimeReaderNumpy, time.py 713-766 and 1072-1108; the data is a memory
      map of the file, here its content when reading (see [read_numpy_map]) *)
  Definition read_numpy (from_time to_time : option time) (from_sample to_sample : option Z) (d : path) (s : node) : res tdata :=
    m <- read_metadata ".npy" d s ;;
    '(a, b) <- get_read_samples rnd m from_time to_time from_sample to_sample ;;
    f <- first_data_file m ;;
    text <- read_file s (pjoin d f) ;;
    x <- nparse text ;;
    read_data_numpy rnd m (fst x) (snd x) a b.
  (** TimeReader.run with TimeReaderAscii, time.py 713-766 and 1010-1055, up to loading the
      text: [loadtxt] is np.loadtxt followed by the metadata of lines 1047-1055, modelled in
      Model/AsciiData.v *)
  Definition read_ascii {X} (loadtxt : tmeta -> string -> Z -> Z -> res X) (ext : string)
    (from_time to_time : option time) (from_sample to_sample : option Z) (d : path) (s : node) : res X :=
    m <- read_metadata ext d s ;;
    '(a, b) <- get_read_samples rnd m from_time to_time from_sample to_sample ;;
    f <- first_data_file m ;;
    text <- read_file s (pjoin d f) ;;
    loadtxt m text a b.

  (** ** The memory map: np.load(mmap_mode="r")[:, a : b + 1], time.py 1101 *)
  Inductive source :=
  | Memory (dt : string) (data : list (list cell))
  | Mapped (file : path) (dt : string) (a b : Z).
  (** the elements seen at a later moment: those of the file as it is then; a file that has
      become shorter than the map ends the process (SIGBUS), here RuntimeErr *)
  Definition elements (x : source) (s : node) : res (list (list cell)) :=
    match x with
    | Memory _ data => Ok data
    | Mapped p _ a b =>
        match look s p with
        | Some (File c) => match nparse c with
                           | Ok z => Ok (map (slice a (b + 1)) (snd z))
                           | Err _ => Err RuntimeErr
                           end
        | _ => Err RuntimeErr
        end
    end.
  Definition source_dtype (x : source) : string := match x with Memory dt _ => dt | Mapped _ dt _ _ => dt end.
  (** TimeReaderNumpy: metadata and map *)
  Definition read_numpy_map (from_time to_time : option time) (from_sample to_sample : option Z) (d : path) (s : node) : res (tmeta * source) :=
    m <- read_metadata ".npy" d s ;;
    '(a, b) <- get_read_samples rnd m from_time to_time from_sample to_sample ;;
    f <- first_data_file m ;;
    text <- read_file s (pjoin d f) ;;
    x <- nparse text ;;
    m' <- get_return_metadata rnd m a b ;;
    Ok (with_history m' (history m' ++ [CReader]), Mapped (pjoin d f) (fst x) a b).
  (** TimeWriterNumpy.run on such data: np.save truncates the file, then reads the elements *)
  Definition write_numpy_map (overwrite : bool) (d : path) (m : tmeta) (x : source) : prog unit :=
    ok <~ check_dir overwrite d ;;
    if negb (ok : bool) then pfail WriteError
    else
      _ <~ write_file (d ++ ["data.npy"%string]) [] ""%string ;;
      data <~ pres (elements x) ;;
      let text := nser (source_dtype x, data) in
      _ <~ write_file (d ++ ["data.npy"%string]) (inter text) text ;;
      m <~ pres (fun _ => set_all_files (chans m) ["data.npy"%string] m) ;;
      let text := tser (with_history m (history m ++ [CWriter])) in
      write_file (d ++ [META_FILE]) (inter text) text.
End TimeFiles.
