(** The string methods of Python used by resistics, on ASCII strings. *)
From Coq Require Import String Ascii.
From Verif Require Import Base.Prelude.
Local Open Scope string_scope.

(** characters removed by strip() and separating split(): space, \t \n \v \f \r and
    the separators 28-31 *)
Definition is_space (c : ascii) : bool :=
  let n := N_of_ascii c in ((n =? 32) || ((9 <=? n) && (n <=? 13)) || ((28 <=? n) && (n <=? 31)))%N.
Fixpoint lstrip (s : string) : string :=
  match s with String c t => if is_space c then lstrip t else s | EmptyString => s end.
(** trailing white space *)
Fixpoint rstrip (s : string) : string :=
  match s with
  | EmptyString => EmptyString
  | String c t => match rstrip t with
                  | EmptyString => if is_space c then EmptyString else String c EmptyString
                  | t' => String c t'
                  end
  end.
Definition strip (s : string) : string := rstrip (lstrip s).

(** lower() *)
Definition lower_char (c : ascii) : ascii :=
  let n := N_of_ascii c in if ((65 <=? n) && (n <=? 90))%N then ascii_of_N (n + 32) else c.
Fixpoint lower (s : string) : string :=
  match s with EmptyString => EmptyString | String c t => String (lower_char c) (lower t) end.

(** sub in s *)
Fixpoint contains (sub s : string) : bool :=
  prefix sub s || match s with EmptyString => false | String _ t => contains sub t end.

(** s.split(c) for a single character *)
Fixpoint split_char (c : ascii) (s : string) : list string :=
  match s with
  | EmptyString => [""]
  | String x t => if Ascii.eqb x c then "" :: split_char c t
                  else match split_char c t with
                       | h :: r => String x h :: r
                       | [] => [String x ""]
                       end
  end.
(** s.split(): maximal runs of characters that are not white space *)
Fixpoint words_acc (cur : string) (s : string) : list string :=
  match s with
  | EmptyString => match cur with EmptyString => [] | _ => [cur] end
  | String x t => if is_space x then match cur with EmptyString => words_acc "" t | _ => cur :: words_acc "" t end
                  else words_acc (cur ++ String x "") t
  end.
Definition words (s : string) : list string := words_acc "" s.
