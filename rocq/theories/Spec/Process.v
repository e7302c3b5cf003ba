(** Specification vocabulary for processes. *)
From Coq Require Import String.
From Verif Require Import Base.Prelude Base.FileSys Model.Process.
Open Scope list_scope.

(** the classes of an installation *)
Record classes := mkClasses { k_reg : registry; k_treg : registry; k_tbase : cls }.
(** the class of a transfer function with the given name *)
Definition tf_class (k : classes) (n : string) : option cls :=
  if String.eqb n "TransferFunction" then Some (k_tbase k) else assoc n (k_treg k).

(** plain values that the fields accept unchanged *)
Inductive plain_fields : list (string * val) -> list fdecl -> list (string * val) -> Prop :=
| plain_nil prev : plain_fields prev [] []
| plain_cons prev f v fds fs co : f_type f = FPlain co -> co prev v = Ok v -> to_dict v = v ->
    plain_fields (prev ++ [(f_name f, v)]) fds fs -> plain_fields prev (f :: fds) ((f_name f, v) :: fs).
(** a transfer function whose name is the name of its class *)
Inductive ordinary_tf (k : classes) : val -> Prop :=
| ordinary_tf_obj n cl fs : tf_class k n = Some cl -> plain_fields [] (c_fields cl) fs -> ordinary_tf k (VTf n n fs).
(** an object of a registered class whose name is the class name, with one value per declared
    field: plain values that the field accepts unchanged, ordinary objects in process fields *)
Inductive ordinary (k : classes) : val -> Prop :=
| ordinary_obj c fs cl : assoc c (k_reg k) = Some cl -> ordinary_fields k [] (c_fields cl) fs -> ordinary k (VObj c c fs)
with ordinary_fields (k : classes) : list (string * val) -> list fdecl -> list (string * val) -> Prop :=
| ordinary_nil prev : ordinary_fields k prev [] []
| ordinary_cons prev f v fds fs : ordinary_field k prev (f_type f) v ->
    ordinary_fields k (prev ++ [(f_name f, v)]) fds fs -> ordinary_fields k prev (f :: fds) ((f_name f, v) :: fs)
with ordinary_field (k : classes) : list (string * val) -> ftype -> val -> Prop :=
| ordinary_plain prev co v : co prev v = Ok v -> to_dict v = v -> ordinary_field k prev (FPlain co) v
| ordinary_one prev d v : ordinary k v -> ordinary_field k prev (FProcess d) v
| ordinary_many prev d l : Forall (ordinary k) l -> ordinary_field k prev (FProcesses d) (VList l)
| ordinary_tfun prev v : ordinary_tf k v -> ordinary_field k prev FTf v.

(** plain fields accept what they have accepted once (and hold no objects) *)
Definition stable (t : ftype) : Prop :=
  match t with FPlain co => forall prev x y, co prev x = Ok y -> co prev y = Ok y /\ to_dict y = y | _ => True end.
(** a class as Python makes it: field names are distinct and none is called name; fields are
    stable, default processes are ordinary *)
Definition class_ok (k : classes) (c : cls) : Prop :=
  NoDup (map f_name (c_fields c)) /\ ~ In "name"%string (map f_name (c_fields c)) /\
  forall f, In f (c_fields c) -> stable (f_type f) /\
    (forall v, f_default f = Some v -> (exists co, f_type f = FPlain co) \/ ordinary_field k [] (f_type f) v).
Definition tf_class_ok (c : cls) : Prop :=
  NoDup (map f_name (c_fields c)) /\ ~ In "name"%string (map f_name (c_fields c)) /\
  forall f, In f (c_fields c) -> stable (f_type f) /\ exists co, f_type f = FPlain co.
(** registries as Python fills them: a class is found under its own name *)
Definition classes_ok (k : classes) : Prop :=
  (forall n c, assoc n (k_reg k) = Some c -> c_name c = n /\ class_ok k c) /\
  (forall n c, tf_class k n = Some c -> c_name c = n /\ tf_class_ok c).
(** data in which every object is ordinary; dictionaries and lists read from a JSON file
    contain no objects at all *)
Fixpoint sound (k : classes) (v : val) : Prop :=
  match v with
  | VObj _ _ _ => ordinary k v
  | VTf _ _ _ => ordinary_tf k v
  | VList l => fold_right (fun x p => sound k x /\ p) True l
  | VDict d => fold_right (fun kv p => sound k (snd kv) /\ p) True d
  | _ => True
  end.
(** the class of an object, and whether it is (a child of) the declared class *)
Definition class_of (v : val) : option string := match v with VObj c _ _ | VTf c _ _ => Some c | _ => None end.
Definition instance_of (reg : registry) (v : val) (declared : string) : Prop :=
  exists c cl, class_of v = Some c /\ assoc c reg = Some cl /\ In declared (c_bases cl).
Definition keys (v : val) : list string := match v with VDict d => map fst d | _ => [] end.
