(** Model of resistics processes as pydantic (version 1) models: the registry of classes,
    construction, dict() and validate (common.py 703-847; TransferFunction, transfunc.py
    66-300).

    Simplifications: fields that hold no process have a coercion function of their own
    ([FPlain]), which also stands for their validators and may look at the fields before;
    pydantic ignores unknown keys (its default). A validation returns, besides the result,
    the caller's object as it is afterwards. *)
From Coq Require Import String.
From Verif Require Import Base.Prelude Base.FileSys.
Open Scope list_scope.

(** Python values: plain data, lists, dictionaries with string keys, process objects and
    transfer functions (class, attribute name, other attributes) *)
Inductive val : Type :=
| VStr (t : string)
| VOther (t : string)
| VList (l : list val)
| VDict (d : list (string * val))
| VObj (cls name : string) (fields : list (string * val))
| VTf (cls name : string) (fields : list (string * val)).

(** declared fields: plain data, a process, a list of processes, a transfer function;
    [declared] is the class in the annotation *)
Inductive ftype :=
| FPlain (coerce : list (string * val) -> val -> res val)
| FProcess (declared : string)
| FProcesses (declared : string)
| FTf.
Record fdecl := mkF { f_name : string; f_type : ftype; f_default : option val }.
(** a class: its name, itself and all its ancestors, its fields besides name *)
Record cls := mkCls { c_name : string; c_bases : list string; c_fields : list fdecl }.
(** ResisticsProcess._types: one dictionary for all classes (common.py 712) *)
Definition registry := list (string * cls).
(** __init_subclass__, common.py 715-726: a class replaces an earlier one of the same name *)
Definition register (reg : registry) (c : cls) : registry := set_assoc (c_name c) c reg.

Fixpoint dict_del {A} (k : string) (d : list (string * A)) : list (string * A) :=
  match d with [] => [] | (x, v) :: t => if String.eqb x k then dict_del k t else (x, v) :: dict_del k t end.

(** what validating an argument gives: as given; as a process; as a list of processes; as a
    transfer function; each with the argument as it is afterwards *)
Record arg := mkArg { a_raw : val; a_one : res val * val; a_many : res val * val; a_tf : res val * val }.

Fixpoint all_ok {A} (l : list (res A)) : res (list A) :=
  match l with [] => Ok [] | r :: t => x <- r ;; xs <- all_ok t ;; Ok (x :: xs) end.
(** one field, given the fields before it: its value, and the argument afterwards *)
Definition field_value (f : fdecl) (prev : list (string * val)) (a : option arg) : res val * option val :=
  match a with
  | None => (match f_default f with
             | Some v => match f_type f with FPlain co => co prev v | _ => Ok v end
             | None => Err ValidationError
             end, None)
  | Some a => match f_type f with
              | FPlain co => (co prev (a_raw a), Some (a_raw a))
              | FProcess _ => (fst (a_one a), Some (snd (a_one a)))
              | FProcesses _ => (fst (a_many a), Some (snd (a_many a)))
              | FTf => (fst (a_tf a), Some (snd (a_tf a)))
              end
  end.
(** all fields are validated, then errors are raised *)
Fixpoint field_values (fs : list fdecl) (prev : list (string * val)) (args : list (string * arg)) : list (string * (res val * option val)) :=
  match fs with
  | [] => []
  | f :: t => let r := field_value f prev (assoc (f_name f) args) in
              (f_name f, r) :: field_values t (match fst r with Ok v => prev ++ [(f_name f, v)] | Err _ => prev end) args
  end.
Definition construct_as (mk : string -> string -> list (string * val) -> val) (c : cls) (name : option string) (args : list (string * arg)) : res val :=
  xs <- all_ok (map (fun kv => fst (snd kv)) (field_values (c_fields c) [] args)) ;;
  (* validate_name, common.py 825-830, transfunc.py 265-270 *)
  Ok (mk (c_name c) (match name with Some n => n | None => c_name c end) (combine (map f_name (c_fields c)) xs)).
Definition construct := construct_as VObj.
Definition construct_tf := construct_as VTf.
(** the dictionary of arguments afterwards *)
Definition after (c : cls) (args : list (string * arg)) : list (string * val) :=
  map (fun kv => (fst kv, match assoc (fst kv) (field_values (c_fields c) [] args) with
                          | Some (_, Some v) => v
                          | _ => a_raw (snd kv)
                          end)) args.

Section Validate.
  (** the classes: ResisticsProcess._types, TransferFunction._types, and TransferFunction,
      which is not in its own dictionary *)
  Variable reg treg : registry.
  Variable tbase : cls.

  (** transfer functions have plain fields only *)
  Definition plain_arg (v : val) : arg := mkArg v (Err TypeError, v) (Err TypeError, v) (Err TypeError, v).
  Definition plain_args (d : list (string * val)) : list (string * arg) := map (fun kv => (fst kv, plain_arg (snd kv))) d.
  (** TransferFunction.validate, transfunc.py 153-263, called on TransferFunction: the name
      "TransferFunction" is special, there errors are not caught *)
  Definition validate_tf (v : val) : res val * val :=
    match v with
    | VTf _ _ _ => (Ok v, v)
    | VDict d =>
        match assoc "name"%string d with
        | None => (Err KeyError, v)
        | Some nm =>
            let rest := dict_del "name"%string d in
            match nm with
            | VStr n => if String.eqb n "TransferFunction" then (construct_tf tbase None (plain_args rest), VDict rest)
                        else match assoc n treg with
                             | Some c => (match construct_tf c None (plain_args rest) with Ok o => Ok o | Err _ => Err ValueError end, VDict rest)
                             | None => (Err ValueError, VDict rest)
                             end
            | _ => (Err ValueError, VDict rest)
            end
        end
    | _ => (Err ValueError, v)
    end.
  (** ResisticsProcess.validate, common.py 733-823; the class on which it is called is not used *)
  Fixpoint validate (v : val) : res val * val :=
    match v with
    | VObj _ _ _ => (Ok v, v)
    | VDict d =>
        let args := map (fun kv => match kv with
                                   | (k, x) => (k, mkArg x (validate x)
                                       (match x with
                                        | VList l => let rs := map validate l in
                                                     (ys <- all_ok (map fst rs) ;; Ok (VList ys), VList (map snd rs))
                                        | _ => (Err ValidationError, x)
                                        end)
                                       (validate_tf x))
                                   end) d in
        match assoc "name"%string d with
        | None => (Err KeyError, v)
        | Some nm =>
            let rest := dict_del "name"%string args in
            match nm with
            | VStr n => match assoc n reg with
                        | Some c => (match construct c None rest with Ok o => Ok o | Err _ => Err ValueError end, VDict (after c rest))
                        | None => (Err ValueError, VDict (dict_del "name"%string d))
                        end
            | _ => (Err ValueError, VDict (dict_del "name"%string d))
            end
        end
    | _ => (Err ValueError, v)
    end.
  Definition validate_list (v : val) : res val * val :=
    match v with
    | VList l => let rs := map validate l in (ys <- all_ok (map fst rs) ;; Ok (VList ys), VList (map snd rs))
    | _ => (Err ValidationError, v)
    end.
  Definition arg_of (v : val) : arg := mkArg v (validate v) (validate_list v) (validate_tf v).
  Definition args_of (d : list (string * val)) : list (string * arg) := map (fun kv => (fst kv, arg_of (snd kv))) d.
  (** a class called with a name and keyword arguments; also Configuration, config.py 28-151 *)
  Definition make (c : cls) (name : option string) (d : list (string * val)) : res val := construct c name (args_of d).
End Validate.

(** BaseModel.dict(): nested objects become dictionaries; the field name comes first *)
Fixpoint to_dict (v : val) : val :=
  match v with
  | VObj _ n fs | VTf _ n fs => VDict (("name"%string, VStr n) :: map (fun kv => (fst kv, to_dict (snd kv))) fs)
  | VList l => VList (map to_dict l)
  | VDict d => VDict (map (fun kv => (fst kv, to_dict (snd kv))) d)
  | _ => v
  end.
