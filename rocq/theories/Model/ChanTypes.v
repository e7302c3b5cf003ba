(** Model of channel types: resistics/common.py 14-15, 201-290, 424-432; resistics/time.py 27-85
    (ChanMetadata), 88-272 (TimeMetadata) and 275-371 (get_time_metadata).

    Simplifications: only the fields name, chan_type, chans, n_chans and chans_metadata; values
    have the declared types, so pydantic's coercions do nothing. *)
From Coq Require Import String Ascii.
From Verif Require Import Base.Prelude Base.ListUtil Base.FileSys Model.Gather.
Open Scope list_scope.

(** common.py 14-15 *)
Definition ELECTRIC_CHANS : list string := ["Ex"; "Ey"; "E1"; "E2"; "E3"; "E4"]%string.
Definition MAGNETIC_CHANS : list string := ["Hx"; "Hy"; "Hz"; "Bx"; "By"; "Bz"]%string.
Definition name_in (c : string) (l : list string) : bool := existsb (String.eqb c) l.
(** common.py 201-225, 228-252 *)
Definition is_electric (chan : string) : bool := if name_in chan ELECTRIC_CHANS then true else false.
Definition is_magnetic (chan : string) : bool := if name_in chan MAGNETIC_CHANS then true else false.
(** common.py 255-290 *)
Definition get_chan_type (chan : string) : res string :=
  if is_electric chan then Ok "electric"%string
  else if is_magnetic chan then Ok "magnetic"%string
  else Err ValueError.

(** the dictionary a channel is made of, and ChanMetadata *)
Record chan_dict := mkChanDict { cd_name : option string; cd_type : option string }.
Record chan_meta := mkChanMeta { ch_name : string; ch_type : string }.
(** ChanMetadata(...): the validators of time.py 69-77 run in the order of the fields. A ValueError
    of a validator becomes a ValidationError; the KeyError of values["name"] is not caught *)
Definition make_chan_metadata (d : chan_dict) : res chan_meta :=
  match cd_name d, cd_type d with
  | Some n, Some t => Ok (mkChanMeta n t)
  | Some n, None => match get_chan_type n with Ok t => Ok (mkChanMeta n t) | Err _ => Err ValidationError end
  | None, Some _ => Err ValidationError
  | None, None => Err KeyError
  end.
(** time.py 79-85 *)
Definition electric (c : chan_meta) : bool := String.eqb (ch_type c) "electric".
Definition magnetic (c : chan_meta) : bool := String.eqb (ch_type c) "magnetic".

(** TimeMetadata *)
Record time_meta := mkTimeMeta { tm_chans : list string; tm_n_chans : Z; tm_chans_metadata : list (string * chan_meta) }.
(** Metadata.validate_n_chans, common.py 427-432 *)
Definition validate_n_chans (value : option Z) (chans : list string) : Z :=
  match value with None => Z.of_nat (List.length chans) | Some n => n end.
(** {chan: ChanMetadata(...) for chan in chans}: a repeated channel keeps one entry *)
Fixpoint chans_metadata_of (chans_dict : list (string * chan_dict)) (chans : list string) (acc : list (string * chan_meta)) : res (list (string * chan_meta)) :=
  match chans with
  | [] => Ok acc
  | c :: t => d <- match assoc c chans_dict with Some d => Ok d | None => Err KeyError end ;;
              cm <- make_chan_metadata d ;;
              chans_metadata_of chans_dict t (set_assoc c cm acc)
  end.
(** get_time_metadata 368-371 *)
Definition get_time_metadata (chans : list string) (n_chans : option Z) (chans_dict : list (string * chan_dict)) : res time_meta :=
  cms <- chans_metadata_of chans_dict chans [] ;;
  Ok (mkTimeMeta chans (validate_n_chans n_chans chans) cms).

(** self.chans_metadata[x] *)
Definition meta_of (tm : time_meta) (c : string) : res chan_meta :=
  match assoc c (tm_chans_metadata tm) with Some m => Ok m | None => Err KeyError end.
(** [x for x in self.chans if test(self.chans_metadata[x])] *)
Fixpoint select_chans (test : chan_meta -> bool) (tm : time_meta) (chans : list string) : res (list string) :=
  match chans with
  | [] => Ok []
  | c :: t => m <- meta_of tm c ;; r <- select_chans test tm t ;; Ok (if test m then c :: r else r)
  end.
(** get_chan_types 184-201 *)
Definition get_chan_types (tm : time_meta) : list string := sorted_set (map (fun kv => ch_type (snd kv)) (tm_chans_metadata tm)).
(** 203-224, 226-242, 244-260 *)
Definition get_chans_with_type (tm : time_meta) (chan_type : string) : res (list string) := select_chans (fun m => String.eqb (ch_type m) chan_type) tm (tm_chans tm).
Definition get_electric_chans (tm : time_meta) : res (list string) := select_chans electric tm (tm_chans tm).
Definition get_magnetic_chans (tm : time_meta) : res (list string) := select_chans magnetic tm (tm_chans tm).
(** 262-272 *)
Definition any_electric (tm : time_meta) : res bool := l <- get_electric_chans tm ;; Ok (negb (Nat.eqb (List.length l) 0)).
Definition any_magnetic (tm : time_meta) : res bool := l <- get_magnetic_chans tm ;; Ok (negb (Nat.eqb (List.length l) 0)).
