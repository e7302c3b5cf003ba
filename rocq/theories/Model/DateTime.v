(** Datetimes and their string form, resistics/sampling.py 23-180.
    The calendar type itself is attotime's attodatetime (not part of the repository): a
    native datetime (year .. microsecond) and the nanoseconds below the microsecond as a
    Decimal. *)
From Coq Require Import String Ascii NArith Nnat.
From Verif Require Import Base.Prelude Base.Dec.
Open Scope string_scope.
Open Scope N_scope.

(** attodatetime. [dt_yocto] counts the yoctoseconds below the second (24 decimal digits:
    six of microsecond, six of picosecond, six of attosecond, six of yoctosecond) and
    [dt_rest] is what the Decimal holds beyond, as a fraction of a yoctosecond. *)
Record dtime := mkDT
  { dt_year : N; dt_month : N; dt_day : N; dt_hour : N; dt_min : N; dt_sec : N;
    dt_yocto : N; dt_rest : Q }.

(** the proleptic Gregorian calendar of Python's datetime *)
Definition leap (y : N) : bool := (y mod 4 =? 0) && (negb (y mod 100 =? 0) || (y mod 400 =? 0)).
Definition month_days (y m : N) : N :=
  if m =? 2 then (if leap y then 29 else 28)
  else if (m =? 4) || (m =? 6) || (m =? 9) || (m =? 11) then 30 else 31.
(** the values datetime's constructor accepts (everything else is a ValueError) *)
Definition dt_ok (t : dtime) : bool :=
  (1 <=? dt_year t) && (dt_year t <=? 9999) && (1 <=? dt_month t) && (dt_month t <=? 12)
  && (1 <=? dt_day t) && (dt_day t <=? month_days (dt_year t) (dt_month t))
  && (dt_hour t <=? 23) && (dt_min t <=? 59) && (dt_sec t <=? 59)
  && (dt_yocto t <? 10 ^ 24) && Qle_bool 0 (dt_rest t) && Qltb (dt_rest t) 1.

(** the four six digit groups %f, %o, %q and %v *)
Definition grp_f (y : N) : N := y / 10 ^ 18.
Definition grp_o (y : N) : N := y / 10 ^ 12 mod 10 ^ 6.
Definition grp_q (y : N) : N := y / 10 ^ 6 mod 10 ^ 6.
Definition grp_v (y : N) : N := y mod 10 ^ 6.

(** datetime_to_string, sampling.py 52-72: strftime("%Y-%m-%d %H:%M:%S.%f_%o_%q_%v").
    %Y is not padded (glibc), the other fields are. Digits beyond %v are cut. *)
Definition datetime_to_string (t : dtime) : string :=
  dec (dt_year t) ++ String "-" (fixed 2 (dt_month t) (String "-" (fixed 2 (dt_day t) (String " "
  (fixed 2 (dt_hour t) (String ":" (fixed 2 (dt_min t) (String ":" (fixed 2 (dt_sec t) (String "."
  (fixed 6 (grp_f (dt_yocto t)) (String "_" (fixed 6 (grp_o (dt_yocto t)) (String "_"
  (fixed 6 (grp_q (dt_yocto t)) (String "_" (fixed 6 (grp_v (dt_yocto t)) ""))))))))))))))))).

(** the longest run of at most [w] digits at the front *)
Fixpoint munch (w : nat) (s : string) : string * string :=
  match w, s with
  | S w', String c r => if is_digit c then let '(d, r') := munch w' r in (String c d, r') else ("", s)
  | _, _ => ("", s)
  end.
(** one numeric directive of between [lo] and [w] digits. The separators of the format are no
    digits, so the greedy match is the only one the regular expression of strptime has. *)
Definition field (lo w : nat) (s : string) : res (N * string) :=
  let '(d, r) := munch w s in
  if (String.length d <? lo)%nat then Err ValueError
  else match undec d with Some n => Ok (n, r) | None => Err ValueError end.
Definition lit (c : ascii) (s : string) : res string :=
  match s with String c' r => if Ascii.eqb c c' then Ok r else Err ValueError | EmptyString => Err ValueError end.
(** %f: one to six digits, padded with zeros on the right *)
Definition field_f (s : string) : res (N * string) :=
  let '(d, r) := munch 6 s in
  match undec d with Some n => Ok (n * 10 ^ N.of_nat (6 - String.length d), r) | None => Err ValueError end.

(** datetime_from_string, sampling.py 75-101: strptime with the same format. %Y has four digits,
    the other date and time fields one or two, %f up to six; %o, %q and %v are read as exactly six
    digits. Not modelled: a run of several blanks, or a blank instead of the day's leading zero,
    both of which strptime also takes. A ValueError is also what text left over and a day that
    does not exist give. *)
Definition datetime_from_string (s : string) : res dtime :=
  '(y, s) <- field 4 4 s ;; s <- lit "-" s ;;
  '(mo, s) <- field 1 2 s ;; s <- lit "-" s ;;
  '(d, s) <- field 1 2 s ;; s <- lit " " s ;;
  '(h, s) <- field 1 2 s ;; s <- lit ":" s ;;
  '(mi, s) <- field 1 2 s ;; s <- lit ":" s ;;
  '(se, s) <- field 1 2 s ;; s <- lit "." s ;;
  '(f, s) <- field_f s ;; s <- lit "_" s ;;
  '(o, s) <- field 6 6 s ;; s <- lit "_" s ;;
  '(q, s) <- field 6 6 s ;; s <- lit "_" s ;;
  '(v, s) <- field 6 6 s ;;
  match s with
  | String _ _ => Err ValueError
  | EmptyString =>
      let t := mkDT y mo d h mi se (f * 10 ^ 18 + o * 10 ^ 12 + q * 10 ^ 6 + v) 0 in
      if dt_ok t then Ok t else Err ValueError
  end.

(** pd.Timestamp: the calendar fields down to the whole nanosecond *)
Record stamp := mkStamp { st_year : N; st_month : N; st_day : N; st_hour : N; st_min : N; st_sec : N;
                          st_micro : N; st_nano : N }.
(** what a caller can hand to [to_datetime]: a string, a pandas Timestamp, a native datetime (no
    nanoseconds), or an attodatetime (the [else: pass] branch) *)
Inductive dlike := DStr (s : string) | DStamp (t : stamp) | DNative (t : stamp) | DAtto (t : dtime).

(** [RSDateTime(year, .., microsecond, nanosecond)], sampling.py 145-154 *)
Definition of_stamp (t : stamp) : res dtime :=
  let r := mkDT (st_year t) (st_month t) (st_day t) (st_hour t) (st_min t) (st_sec t)
                (st_micro t * 10 ^ 18 + st_nano t * 10 ^ 15) 0 in
  if dt_ok r then Ok r else Err ValueError.

Section ToDatetime.
  (** pd.Timestamp(string) *)
  Variable pandas : string -> res stamp.
  (** to_datetime, sampling.py 104-154. Rebuilding an attodatetime from its own fields gives an
      equal one. *)
  Definition to_datetime (x : dlike) : res dtime :=
    match x with
    | DStr s => match datetime_from_string s with
                | Ok t => Ok t
                | Err ValueError => t <- pandas s ;; of_stamp t
                | Err e => Err e
                end
    | DNative t => of_stamp (mkStamp (st_year t) (st_month t) (st_day t) (st_hour t) (st_min t) (st_sec t) (st_micro t) 0)
    | DStamp t => of_stamp t
    | DAtto t => if dt_ok t then Ok t else Err ValueError
    end.
  (** HighResDateTime.validate, sampling.py 39-46: an attodatetime is kept as it is *)
  Definition validate (x : dlike) : res dtime :=
    match x with DAtto t => Ok t | _ => to_datetime x end.
End ToDatetime.
