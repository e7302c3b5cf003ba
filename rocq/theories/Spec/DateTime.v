(** Small specification for datetimes: which instants exist, and the moment they denote. *)
From Coq Require Import String NArith.
From Verif Require Import Base.Prelude Base.Dec Model.DateTime.
Open Scope N_scope.

(** a moment of the Gregorian calendar with a year of four digits *)
Definition calendar (t : dtime) : Prop :=
  1000 <= dt_year t <= 9999 /\ 1 <= dt_month t <= 12 /\
  1 <= dt_day t <= month_days (dt_year t) (dt_month t) /\
  dt_hour t < 24 /\ dt_min t < 60 /\ dt_sec t < 60 /\ dt_yocto t < 10 ^ 24 /\
  (0 <= dt_rest t)%Q /\ (dt_rest t < 1)%Q.
(** nothing beyond the yoctosecond *)
Definition yocto_exact (t : dtime) : Prop := dt_rest t = 0%Q.
(** the last whole yoctosecond not after [t] *)
Definition cut (t : dtime) : dtime :=
  mkDT (dt_year t) (dt_month t) (dt_day t) (dt_hour t) (dt_min t) (dt_sec t) (dt_yocto t) 0.

(** days from 1 January of year 1 to the first day of a year, of a month, and to a day, and the
    yoctoseconds from there: the moment denoted *)
Definition days_to_year (y : N) : N := 365 * (y - 1) + (y - 1) / 4 - (y - 1) / 100 + (y - 1) / 400.
Fixpoint days_to_month (y : N) (k : nat) : N :=
  match k with O => 0 | S k' => days_to_month y k' + month_days y (N.of_nat (S k')) end.
Definition day_number (t : dtime) : N :=
  days_to_year (dt_year t) + days_to_month (dt_year t) (N.to_nat (dt_month t) - 1) + (dt_day t - 1).
Definition instant (t : dtime) : N :=
  (((day_number t * 24 + dt_hour t) * 60 + dt_min t) * 60 + dt_sec t) * 10 ^ 24 + dt_yocto t.
(** [a] is before [b], reading the fields from the year down *)
Definition before (a b : dtime) : Prop :=
  let lt f k := f a < f b \/ (f a = f b /\ k) in
  lt dt_year (lt dt_month (lt dt_day (lt dt_hour (lt dt_min (lt dt_sec (dt_yocto a < dt_yocto b)))))).

(** ** the strings read as dates *)
(** [s] is a decimal numeral of [lo] to [hi] digits, of value [n] *)
Definition numeral (lo hi : nat) (n : N) (s : string) : Prop :=
  (lo <= String.length s <= hi)%nat /\ all_digits s = true /\ undec s = Some n.
(** [s] is "year-month-day hour:minute:second.f_o_q_v" for the moment [t]: a year of four digits,
    one or two digits for the next five fields, one to six decimals of the second in [f], and the
    next three times six of them in [o], [q] and [v] *)
Definition writes (t : dtime) (s : string) : Prop :=
  exists y mo d h mi se f o q v nf no nq nv,
    s = (y ++ "-" ++ mo ++ "-" ++ d ++ " " ++ h ++ ":" ++ mi ++ ":" ++ se ++ "." ++ f ++ "_" ++ o ++ "_" ++ q ++ "_" ++ v)%string /\
    numeral 4 4 (dt_year t) y /\ numeral 1 2 (dt_month t) mo /\ numeral 1 2 (dt_day t) d /\
    numeral 1 2 (dt_hour t) h /\ numeral 1 2 (dt_min t) mi /\ numeral 1 2 (dt_sec t) se /\
    numeral 1 6 nf f /\ numeral 6 6 no o /\ numeral 6 6 nq q /\ numeral 6 6 nv v /\
    dt_yocto t = nf * 10 ^ N.of_nat (6 - String.length f) * 10 ^ 18 + no * 10 ^ 12 + nq * 10 ^ 6 + nv.
(** a moment of the calendar, the year from 1 *)
Definition a_date (t : dtime) : Prop :=
  1 <= dt_year t <= 9999 /\ 1 <= dt_month t <= 12 /\
  1 <= dt_day t <= month_days (dt_year t) (dt_month t) /\ dt_hour t < 24 /\ dt_min t < 60 /\ dt_sec t < 60.
