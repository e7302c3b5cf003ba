(** Reading recordings from text files: resistics/time.py 997-1059 (TimeReaderAscii) and
    the part of numpy.loadtxt (numpy 1.21, the locked version) it calls.
    Simplifications: a delimiter is one character; python's float() is a parameter; a file
    with fewer lines than are to be skipped raises StopIteration, here RuntimeErr. *)
From Coq Require Import String Ascii.
From Verif Require Import Base.Prelude Base.ListUtil Base.Rounding Base.B32 Base.NdArray Base.PyString Model.Time.
Open Scope list_scope.

Definition newline : ascii := ascii_of_nat 10.
Definition return_char : ascii := ascii_of_nat 13.
(** the lines a text file is iterated in *)
Fixpoint drop_last_empty (l : list string) : list string :=
  match l with
  | [] => []
  | [x] => match x with EmptyString => [] | _ => [x] end
  | x :: t => x :: drop_last_empty t
  end.
Definition file_lines (text : string) : list string := drop_last_empty (split_char newline text).
(** regex_comments.split(line, maxsplit=1)[0] with the default comments="#" *)
Fixpoint cut_comment (s : string) : string :=
  match s with
  | EmptyString => EmptyString
  | String c t => if Ascii.eqb c "#"%char then EmptyString else String c (cut_comment t)
  end.
(** line.strip("\r\n"): the newline is gone, a carriage return may be left at both ends *)
Fixpoint lstrip_cr (s : string) : string :=
  match s with String c t => if Ascii.eqb c return_char then lstrip_cr t else s | EmptyString => s end.
Fixpoint rstrip_cr (s : string) : string :=
  match s with
  | EmptyString => EmptyString
  | String c t => match rstrip_cr t with
                  | EmptyString => if Ascii.eqb c return_char then EmptyString else String c EmptyString
                  | t' => String c t'
                  end
  end.
(** loadtxt's split_line *)
Definition split_line (delimiter : option ascii) (line : string) : list string :=
  match rstrip_cr (lstrip_cr (cut_comment line)) with
  | EmptyString => []
  | l => match delimiter with None => words l | Some c => split_char c l end
  end.

(** a.T of an array of rank at most two *)
Definition columns {A} (n : nat) (rows : list (list A)) : list (list A) :=
  map (fun c => flat_map (fun r => match nth_error r c with Some x => [x] | None => [] end) rows) (seq 0 n).
Definition transpose {A} (a : nd A) : res (nd A) :=
  match a with
  | Sc x => Ok (Sc x)
  | Ax l => match scalars l with
            | Some _ => Ok a
            | None => rows <- mapM (fun r => match r with Ax v => match scalars v with Some x => Ok x | None => Err RuntimeErr end
                                                        | Sc _ => Err RuntimeErr end) l ;;
                      Ok (nd2 (columns (match rows with r :: _ => length r | [] => O end) rows))
            end
  end.

Section Loadtxt.
  Variable rnd : Q -> Q.
  Variable pyfloat : string -> res cell.   (* float(s), None for nan; ValueError if s is not a number *)
  Variable delimiter : option ascii.       (* time.py 1007 *)
  Variable n_header : Z.                   (* time.py 1008 *)

  (** a number of the file, stored as dtype float32 (time.py 1035) *)
  Definition convert (s : string) : res cell := x <- pyfloat s ;; Ok (option_map b32 x).
  (** loadtxt's read_data: empty lines are passed over, but count for max_rows *)
  Fixpoint parse_rows (n : nat) (lines : list string) : res (list (list cell)) :=
    match lines with
    | [] => Ok []
    | l :: t =>
        match split_line delimiter l with
        | [] => parse_rows n t
        | vals => if negb (Nat.eqb (length vals) n) then Err ValueError
                  else r <- mapM convert vals ;; rs <- parse_rows n t ;; Ok (r :: rs)
        end
    end.
  Fixpoint from_first (lines : list string) : list string :=
    match lines with
    | [] => []
    | l :: t => match split_line delimiter l with [] => from_first t | _ => lines end
    end.
  (** np.loadtxt(path, dtype=float32, delimiter, skiprows, max_rows), ndmin=0 *)
  Definition loadtxt (skiprows max_rows : Z) (text : string) : res (nd cell) :=
    let lines := file_lines text in
    if (Z.of_nat (length lines) <? skiprows)%Z then Err RuntimeErr
    else match from_first (skipn (Z.to_nat skiprows) lines) with
         | [] => Ok (Ax [])
         | l :: t => rows <- parse_rows (length (split_line delimiter l)) (firstn (Z.to_nat max_rows) (l :: t)) ;;
                     Ok (squeeze (nd2 rows))
         end.

  (** TimeData whose data attribute may have any shape *)
  Record any_data := mkAny { ad_meta : tmeta; ad_dtype : string; ad_data : nd cell }.
  (** TimeReaderAscii.read_data, time.py 1035-1059, from the content of the file *)
  Definition read_data_ascii (m : tmeta) (text : string) (read_from read_to : Z) : res any_data :=
    let n_samples := (read_to - read_from + 1)%Z in
    data <- loadtxt (read_from + n_header)%Z n_samples text ;;
    data <- transpose data ;;
    m' <- get_return_metadata rnd m read_from read_to ;;
    Ok (mkAny (with_history m' (history m' ++ [CReader])) "float32"%string data).
End Loadtxt.
(** TimeData.get_chan, time.py 527-548 *)
Definition any_chan (x : any_data) (c : chan) : res (nd cell) :=
  if chan_in c (chans (ad_meta x)) then
    match chan_index (chans (ad_meta x)) c with
    | Some i => match nd_nth (ad_data x) i with Some v => Ok v | None => Err IndexError end
    | None => Err KeyError
    end
  else Err ChannelNotFoundError.
