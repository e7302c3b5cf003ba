(** Property C06: datetime strings. *)
From Coq Require Import String Ascii NArith Nnat.
From Verif Require Import Base.Prelude Base.Rounding Base.Dec Model.Sampling Model.DateTime Spec.DateTime Proofs.DateTime.
Open Scope string_scope.
Open Scope N_scope.

Definition noon : dtime := mkDT 2021 2 28 12 30 59 61035156250000000001 0.

(** Every calendar moment of yoctosecond resolution comes back from its string. *)
Theorem C06_round_trip : forall t, calendar t -> yocto_exact t ->
  datetime_from_string (datetime_to_string t) = Ok t.
Proof. intros t C E. rewrite (from_to t C), (cut_exact t E). reflexivity. Qed.
Print Assumptions C06_round_trip.
Example C06_round_trip_ex : dt_ok noon = true /\
  datetime_to_string noon = "2021-02-28 12:30:59.000061_035156_250000_000001" /\
  datetime_from_string "2021-02-28 12:30:59.000061_035156_250000_000001" = Ok noon.
Proof. repeat match goal with |- _ /\ _ => apply conj end; vm_compute; reflexivity. Qed.
Example C06_calendar_ex : calendar noon /\ yocto_exact noon.
Proof. split; [apply ok_calendar; [vm_compute; reflexivity|vm_compute; discriminate]|reflexivity]. Qed.

(** Distinct moments have distinct strings; [instant] counts yoctoseconds on the calendar. *)
Theorem C06_distinct : forall a b, calendar a -> calendar b -> yocto_exact a -> yocto_exact b ->
  a <> b -> datetime_to_string a <> datetime_to_string b.
Proof. intros a b A B Ea Eb N E. apply N. rewrite <- (cut_exact a Ea), <- (cut_exact b Eb). exact (string_inj a b A B E). Qed.
Print Assumptions C06_distinct.
Theorem C06_same_string_same_moment : forall a b, calendar a -> calendar b ->
  (datetime_to_string a = datetime_to_string b <-> instant a = instant b).
Proof.
  intros a b A B. split; intro E.
  - pose proof (string_inj a b A B E) as C. change (instant (cut a) = instant (cut b)). rewrite C. reflexivity.
  - pose proof (instant_inj a b A B E) as C. change (datetime_to_string (cut a) = datetime_to_string (cut b)). rewrite C. reflexivity.
Qed.
Print Assumptions C06_same_string_same_moment.
Theorem C06_calendar_order : forall a b, calendar a -> calendar b -> before a b -> instant a < instant b.
Proof. exact before_instant. Qed.
Print Assumptions C06_calendar_order.
Example C06_instant_ex :
  instant (mkDT 2021 3 1 0 0 0 0 0) = instant (mkDT 2021 2 28 23 59 59 999999999999999999999999 0) + 1 /\
  instant (mkDT 2021 1 1 0 0 0 0 0) = instant (mkDT 2020 1 1 0 0 0 0 0) + 366 * 86400 * 10 ^ 24 /\
  instant (mkDT 1970 1 1 0 0 0 0 0) = 62135596800 * 10 ^ 24.
Proof. repeat match goal with |- _ /\ _ => apply conj end; vm_compute; reflexivity. Qed.

(** The same through to_datetime and through a field of a metadata object read back from JSON,
    whatever pandas makes of the string. *)
Theorem C06_metadata_field : forall pandas t, calendar t -> yocto_exact t ->
  to_datetime pandas (DStr (datetime_to_string t)) = Ok t /\
  validate pandas (DStr (datetime_to_string t)) = Ok t.
Proof. intros pandas t C E. split; cbn [to_datetime validate]; rewrite (from_to t C), (cut_exact t E); reflexivity. Qed.
Print Assumptions C06_metadata_field.

(** Only dates that exist are ever returned, and times given by pandas are kept to the nanosecond
    and survive being written. *)
Theorem C06_accepted_is_date : forall s t, datetime_from_string s = Ok t -> dt_ok t = true.
Proof. exact from_valid. Qed.
Print Assumptions C06_accepted_is_date.
Example C06_not_a_date :
  datetime_from_string "2021-02-29 00:00:00.000000_000000_000000_000000" = Err ValueError /\
  datetime_from_string "2021-02-28 00:00:00" = Err ValueError /\
  datetime_from_string "2021-02-28 00:00:60.000000_000000_000000_000000" = Err ValueError /\
  datetime_from_string "2021-2-28 0:0:1.5_000000_000000_000000" = Ok (mkDT 2021 2 28 0 0 1 500000000000000000000000 0).
Proof. repeat match goal with |- _ /\ _ => apply conj end; vm_compute; reflexivity. Qed.
(** The strings accepted are exactly those of the format that denote a date, and each is read as
    the moment it denotes: one-digit fields and fewer than six decimals included. *)
Theorem C06_format : forall s t, datetime_from_string s = Ok t <-> (writes t s /\ a_date t /\ yocto_exact t).
Proof. exact from_iff. Qed.
Print Assumptions C06_format.
Example C06_format_ex :
  let t := mkDT 2021 2 28 0 0 1 500000000000000000000000 0 in
  writes t "2021-2-28 0:0:1.5_000000_000000_000000" /\ writes t "2021-02-28 00:0:01.5000_000000_000000_000000" /\ a_date t.
Proof. repeat apply conj; try (apply (proj1 (C06_format _ _)); vm_compute; reflexivity); vm_compute; try reflexivity; discriminate. Qed.
(** every string that is not written in this format is handed to pandas, whatever the string is *)
Theorem C06_other_strings : forall pandas s, (forall t, ~ (writes t s /\ a_date t /\ yocto_exact t)) ->
  datetime_from_string s = Err ValueError /\ to_datetime pandas (DStr s) = (t <- pandas s ;; to_datetime pandas (DStamp t)).
Proof.
  intros pandas s N. assert (E : datetime_from_string s = Err ValueError).
  { pose proof (from_value_error s) as V. destruct (datetime_from_string s) as [t|e] eqn:F; [exfalso; apply (N t); apply from_iff; exact F|cbn in V; rewrite V; reflexivity]. }
  split; [exact E|]. cbn [to_datetime]. rewrite E. reflexivity.
Qed.
Print Assumptions C06_other_strings.
Example C06_other_strings_ex : (forall t, ~ (writes t "2021-02-28" /\ a_date t /\ yocto_exact t)) /\
  to_datetime (fun _ => Ok (mkStamp 2021 2 28 0 0 0 0 0)) (DStr "2021-02-28") = Ok (mkDT 2021 2 28 0 0 0 0 0).
Proof. split; [|vm_compute; reflexivity]. intros t K. apply (proj2 (from_iff _ _)) in K. vm_compute in K. discriminate K. Qed.
Theorem C06_timestamp : forall pandas s t, to_datetime pandas (DStamp s) = Ok t -> 1000 <= st_year s ->
  st_micro s < 10 ^ 6 -> st_nano s < 1000 ->
  dt_yocto t / 10 ^ 18 = st_micro s /\ dt_yocto t / 10 ^ 15 mod 1000 = st_nano s /\
  (dt_year t, dt_month t, dt_day t, dt_hour t, dt_min t, dt_sec t) = (st_year s, st_month s, st_day s, st_hour s, st_min s, st_sec s) /\
  to_datetime pandas (DStr (datetime_to_string t)) = Ok t.
Proof.
  intros pandas s t H Y M Na. cbn [to_datetime] in H. unfold of_stamp in H.
  match type of H with (if dt_ok ?r then _ else _) = _ => destruct (dt_ok r) eqn:O; [|discriminate]; pose proof (ok_calendar r O Y) as C end.
  injection H as <-. cbn [dt_yocto dt_year dt_month dt_day dt_hour dt_min dt_sec].
  assert (A : forall x y, y < 1000 -> (x * 10 ^ 18 + y * 10 ^ 15) / 10 ^ 18 = x).
  { intros x y L. rewrite N.add_comm, N.div_add by discriminate. rewrite N.div_small; [apply N.add_0_l|]. change (10 ^ 18) with (1000 * 10 ^ 15). lia. }
  assert (B : forall x y, y < 1000 -> (x * 10 ^ 18 + y * 10 ^ 15) / 10 ^ 15 mod 1000 = y).
  { intros x y L. replace (x * 10 ^ 18 + y * 10 ^ 15) with ((y + x * 1000) * 10 ^ 15) by (change (10 ^ 18) with (1000 * 10 ^ 15); lia).
    rewrite N.div_mul by discriminate. rewrite N.mod_add by discriminate. apply N.mod_small, L. }
  split; [apply A, Na|]. split; [apply B, Na|]. split; [reflexivity|].
  apply C06_metadata_field; [exact C|reflexivity].
Qed.
Print Assumptions C06_timestamp.
Example C06_timestamp_ex : to_datetime (fun _ => Err ValueError) (DStamp (mkStamp 2021 1 1 0 0 0 61 35)) = Ok (mkDT 2021 1 1 0 0 0 61035000000000000000 0).
Proof. vm_compute. reflexivity. Qed.

(** A datetime finer than a yoctosecond never comes back from its string: what is written is cut. *)
Theorem C06_finer_is_cut : forall t, calendar t -> ~ yocto_exact t ->
  datetime_from_string (datetime_to_string t) = Ok (cut t) /\ cut t <> t.
Proof.
  intros t C N. split; [exact (from_to t C)|]. intros E. apply N. unfold yocto_exact. rewrite <- E. reflexivity.
Qed.
Print Assumptions C06_finer_is_cut.
(** Such datetimes are the normal case: the second sample of a recording of 3 Hz that starts at
    midnight is 1/3 s after it, and to_timedelta(1/3) in binary64 is no whole number of
    yoctoseconds (exact sums; attotime's Decimals keep 28 digits, four beyond the yoctosecond). *)
Definition third : Q := Qred (period b64 3).
Definition second_sample : dtime :=
  let y := (third * inject_Z (10 ^ 24))%Q in mkDT 2021 1 1 0 0 0 (Z.to_N (qfloor y)) (Qred (y - inject_Z (qfloor y))).
Theorem C06_third_of_a_second_refuted :
  ~ (forall t, dt_ok t = true -> 1000 <= dt_year t -> datetime_from_string (datetime_to_string t) = Ok t).
Proof.
  intros H. specialize (H second_sample ltac:(vm_compute; reflexivity) ltac:(vm_compute; discriminate)).
  revert H. vm_compute. discriminate.
Qed.
Print Assumptions C06_third_of_a_second_refuted.
(** Before the year 1000 the string has no four digit year (glibc), and is not read back. *)
Theorem C06_year_below_1000_refuted : exists t, dt_ok t = true /\ yocto_exact t /\
  datetime_from_string (datetime_to_string t) = Err ValueError.
Proof. exists (mkDT 999 1 1 0 0 0 0 0). repeat apply conj; vm_compute; reflexivity. Qed.
Print Assumptions C06_year_below_1000_refuted.
