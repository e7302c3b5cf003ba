(** Model of the tipper, resistics/transfunc.py 561-606.

    Simplifications: numbers are real numbers (Coq's Reals), so np.sqrt, np.arctan and np.pi
    are the exact functions and there is no negative zero; nan is None. Plotting is not modelled. *)
From Coq Require Import String Reals List.
From Verif Require Import Base.Prelude Base.FileSys.
Import ListNotations.
Open Scope list_scope.
Open Scope R_scope.

(** Component, regression.py / transfunc.py 17-60: real and imaginary parts, one number per frequency *)
Record rcomponent := mkRComp { c_real : list R; c_imag : list R }.
Definition components := list (string * rcomponent).
(** components[key] *)
Definition component_of (key : string) (cs : components) : res rcomponent :=
  match assoc key cs with Some c => Ok c | None => Err KeyError end.
(** an operation of numpy on two one dimensional arrays: equal lengths, or one of length 1
    that is used for every element of the other *)
Definition broadcast {B} (f : R -> R -> B) (x y : list R) : res (list B) :=
  if Nat.eqb (length x) (length y) then Ok (map (fun p => f (fst p) (snd p)) (combine x y))
  else match x, y with
       | [a], _ => Ok (map (fun b => f a b) y)
       | _, [b] => Ok (map (fun a => f a b) x)
       | _, _ => Err ValueError
       end.
(** get_length 590-594 *)
Definition get_length (cs : components) : res (list R) :=
  tx <- component_of "HzHx" cs ;;
  ty <- component_of "HzHy" cs ;;
  broadcast (fun a b => sqrt (a ^ 2 + b ^ 2)) (c_real tx) (c_real ty).
(** np.arctan(b / a) * 180 / np.pi: a division by zero gives an infinity or nan *)
Definition degrees_of_ratio (a b : R) : option R :=
  if Req_EM_T a 0 then
    (if Rlt_dec 0 b then Some (PI / 2 * 180 / PI)
     else if Rlt_dec b 0 then Some (- (PI / 2) * 180 / PI)
     else None)
  else Some (atan (b / a) * 180 / PI).
(** get_real_angle 596-600 *)
Definition get_real_angle (cs : components) : res (list (option R)) :=
  tx <- component_of "HzHx" cs ;;
  ty <- component_of "HzHy" cs ;;
  broadcast degrees_of_ratio (c_real tx) (c_real ty).
(** get_imag_angle 602-606 *)
Definition get_imag_angle (cs : components) : res (list (option R)) :=
  tx <- component_of "HzHx" cs ;;
  ty <- component_of "HzHy" cs ;;
  broadcast degrees_of_ratio (c_imag tx) (c_imag ty).
