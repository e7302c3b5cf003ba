(** A file system as a tree, and programs as sequences of atomic steps on it.

    Not modelled: symbolic links, permissions, other processes, the caches of the
    operating system (a finished step is on disk). *)
From Coq Require Import String Ascii.
From Verif Require Import Base.Prelude.
Local Open Scope list_scope.

Inductive node : Type :=
| File (content : string)
| Dir (entries : list (string * node)).

(** absolute paths: the components below the root *)
Definition path := list string.

Fixpoint assoc {A} (k : string) (l : list (string * A)) : option A :=
  match l with
  | [] => None
  | (x, v) :: t => if String.eqb x k then Some v else assoc k t
  end.
Fixpoint set_assoc {A} (k : string) (v : A) (l : list (string * A)) : list (string * A) :=
  match l with
  | [] => [(k, v)]
  | (x, w) :: t => if String.eqb x k then (x, v) :: t else (x, w) :: set_assoc k v t
  end.

Fixpoint look (n : node) (p : path) : option node :=
  match p with
  | [] => Some n
  | x :: q => match n with
              | Dir es => match assoc x es with Some m => look m q | None => None end
              | File _ => None
              end
  end.
(** the tree with [v] at path [p]; unchanged when the parent of [p] is no directory *)
Fixpoint put (n : node) (p : path) (v : node) : node :=
  match p with
  | [] => v
  | x :: q => match n with
              | Dir es => match assoc x es, q with
                          | Some m, _ => Dir (set_assoc x (put m q v) es)
                          | None, [] => Dir (set_assoc x v es)
                          | None, _ => n
                          end
              | File _ => n
              end
  end.

(** a program: the states after each atomic step, the final state and the result *)
Definition prog (A : Type) := node -> list node * (node * res A).
Definition pret {A} (a : A) : prog A := fun s => ([], (s, Ok a)).
Definition pfail {A} (e : exn) : prog A := fun s => ([], (s, Err e)).
Definition pbind {A B} (p : prog A) (f : A -> prog B) : prog B := fun s =>
  let '(t1, (s1, r)) := p s in
  match r with
  | Ok a => let '(t2, sr) := f a s1 in (t1 ++ t2, sr)
  | Err e => (t1, (s1, Err e))
  end.
Notation "x <~ p ;; k" := (pbind p (fun x => k)) (at level 100, p at next level, right associativity).
Definition pstep (s' : node) : prog unit := fun _ => ([s'], (s', Ok tt)).
Definition preads {A} (f : node -> A) : prog A := fun s => ([], (s, Ok (f s))).
Definition pres {A} (f : node -> res A) : prog A := fun s => ([], (s, f s)).

Definition final {A} (p : prog A) (s : node) : node := fst (snd (p s)).
Definition result {A} (p : prog A) (s : node) : res A := snd (snd (p s)).
(** the states in which a crash may leave the file system *)
Definition crash_states {A} (p : prog A) (s : node) : list node := s :: fst (p s).

(** Path.exists, is_dir, is_file *)
Definition exists_ (s : node) (p : path) : bool := match look s p with Some _ => true | None => false end.
Definition is_dir_ (s : node) (p : path) : bool := match look s p with Some (Dir _) => true | _ => false end.
Definition is_file_ (s : node) (p : path) : bool := match look s p with Some (File _) => true | _ => false end.
(** Path.iterdir: the names in the directory *)
Definition iterdir (s : node) (p : path) : list string :=
  match look s p with Some (Dir es) => map fst es | _ => [] end.
Definition read_file (s : node) (p : path) : res string :=
  match look s p with Some (File c) => Ok c | Some (Dir _) => Err OSError | None => Err FileNotFoundError end.

(** Path.mkdir() *)
Definition mkdir (p : path) : prog unit := fun s =>
  if exists_ s p then pfail OSError s
  else match look s (removelast p) with
       | Some (Dir _) => pstep (put s p (Dir [])) s
       | Some (File _) => pfail OSError s
       | None => pfail FileNotFoundError s
       end.
(** Path.mkdir(parents=True): the missing ancestors are made first *)
Fixpoint mkdir_parents_from (done rest : path) : prog unit :=
  match rest with
  | [] => pfail OSError
  | x :: more => fun s =>
      let q := done ++ [x] in
      match look s q, more with
      | Some (Dir _), _ :: _ => mkdir_parents_from q more s
      | Some _, _ => pfail OSError s
      | None, [] => pstep (put s q (Dir [])) s
      | None, _ => (_ <~ pstep (put s q (Dir [])) ;; mkdir_parents_from q more) s
      end
  end.
Definition mkdir_parents (p : path) : prog unit := mkdir_parents_from [] p.

(** opening for writing truncates the file; [inter] are the contents a crash may leave
    before the writing is complete *)
Fixpoint psteps (l : list node) : prog unit :=
  match l with [] => pret tt | s' :: t => _ <~ pstep s' ;; psteps t end.
Definition write_file (p : path) (inter : list string) (content : string) : prog unit := fun s =>
  match look s p, look s (removelast p) with
  | Some (Dir _), _ => pfail OSError s
  | _, Some (Dir _) => psteps (map (fun c => put s p (File c)) (""%string :: inter ++ [content])) s
  | _, Some (File _) => pfail OSError s
  | _, None => pfail FileNotFoundError s
  end.

(** Path / string: the string is split at "/", empty and "." components are dropped, an
    absolute string replaces the path (pathlib, Posix) *)
Fixpoint split_slash (s : string) : list string :=
  match s with
  | EmptyString => [""%string]
  | String c t => if Ascii.eqb c "/"%char then ""%string :: split_slash t
                  else match split_slash t with h :: r => String c h :: r | [] => [String c ""] end
  end.
Definition parts (s : string) : list string :=
  filter (fun x => negb (String.eqb x ""%string || String.eqb x "."%string)) (split_slash s).
Definition pjoin (p : path) (s : string) : path :=
  match s with
  | String "/"%char _ => parts s
  | _ => p ++ parts s
  end.

(** what is at a path: nothing, a file with its content, or a directory *)
Inductive kind := KFile (c : string) | KDir.
Definition kind_of (n : node) : kind := match n with File c => KFile c | Dir _ => KDir end.
Definition kind_at (s : node) (p : path) : option kind := option_map kind_of (look s p).
