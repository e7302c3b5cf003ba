(** Specification vocabulary for time data. *)
From Coq Require Import String.
From Verif Require Import Base.Prelude Base.Rounding Base.ListUtil Model.Sampling Model.Time Spec.Sampling.
Open Scope Q_scope.

(** Metadata and data of a TimeData describe the same recording: at least one
    channel, one row per channel, every row has n_samples entries, and the last time
    is the time of sample n_samples - 1. *)
Definition consistent (rnd : Q -> Q) (td : tdata) : Prop :=
  let m := meta td in
  rows td <> [] /\
  length (rows td) = length (chans m) /\
  n_chans m = Z.of_nat (length (chans m)) /\
  (forall r, In r (rows td) -> Z.of_nat (length r) = n_samples m) /\
  last_time m == stamp (first_time m) (period rnd (fs m)) (n_samples m - 1).

(** What is assumed about scipy: filters keep the length, decimation by q keeps every
    q-th sample, polyphase resampling by up/down gives ceil(n * up / down) samples. *)
Record good_oracles (orc : oracles) : Prop := {
  go_filter : forall b o c x y, o_filter orc b o c x = Ok y -> length y = length x;
  go_decimate : forall q x y, o_decimate orc q x = Ok y ->
     (1 <= q)%Z /\ Z.of_nat (length y) = ((Z.of_nat (length x) + q - 1) / q)%Z;
  go_resample : forall up down x y, o_resample orc up down x = Ok y ->
     (1 <= up)%Z /\ (1 <= down)%Z /\
     Z.of_nat (length y) = ((Z.of_nat (length x) * up + down - 1) / down)%Z;
  go_isqrt : forall n, (0 <= n)%Z -> (Z.sqrt n <= o_isqrt orc n)%Z
}.

(** The entries of [row] whose time stamps lie in the closed interval [from, to]. *)
Fixpoint samples_between_from (k : Z) (first dt from to : Q) (row : list cell) : list cell :=
  match row with
  | [] => []
  | v :: t =>
    let s := stamp first dt k in
    let rest := samples_between_from (k + 1) first dt from to t in
    if Qle_bool from s && Qle_bool s to then v :: rest else rest
  end.
Definition samples_between := samples_between_from 0.

(** Number of samples 0..n-1 with a time stamp in the interval, as a list of indices *)
Definition in_interval (first dt from to : Q) (k : Z) : Prop :=
  from <= stamp first dt k /\ stamp first dt k <= to.

(** ceil(a / b) on integers *)
Definition ceil_div (a b : Z) : Z := qceil (inject_Z a / inject_Z b).

(** product of a list of integers *)
Fixpoint prodZ (l : list Z) : Z := match l with [] => 1%Z | x :: t => (x * prodZ t)%Z end.

(** The value an interpolation of NaN gaps must give at the missing position [i] of
    row [l]: on the straight line between the nearest numbers on both sides, or the
    nearest number when there are numbers on one side only. *)
Inductive gap_value (l : list cell) (i : nat) (v : Q) : Prop :=
| gap_between j k a b : (j < i < k)%nat ->
    nth_error l j = Some (Some a) -> nth_error l k = Some (Some b) ->
    (forall q, (j < q < k)%nat -> nth_error l q = Some None) ->
    v == a + (b - a) * (inject_Z (Z.of_nat (i - j)) / inject_Z (Z.of_nat (k - j))) -> gap_value l i v
| gap_left k b : (i < k)%nat -> nth_error l k = Some (Some b) ->
    (forall q, (q < k)%nat -> nth_error l q = Some None) -> v == b -> gap_value l i v
| gap_right j a : (j < i)%nat -> nth_error l j = Some (Some a) ->
    (forall q x, (j < q)%nat -> nth_error l q <> Some (Some x)) -> v == a -> gap_value l i v.

(** sum of a list of numbers *)
Definition sumQ (l : list Q) : Q := fold_right Qplus 0 l.

(** a row without NaN holding the numbers [xs] *)
Definition holds (xs : list Q) (r : list cell) : Prop := r = map Some xs.

(** equality of elements as numbers (different fractions may denote the same number) *)
Definition ceq (a b : cell) : Prop :=
  match a, b with Some x, Some y => x == y | None, None => True | _, _ => False end.
Definition rows_eq (d d' : list (list cell)) : Prop := Forall2 (Forall2 ceq) d d'.

(** the row of channel [c] *)
Definition row_of (td : tdata) (c : chan) (r : list cell) : Prop :=
  exists i, nth_error (chans (meta td)) i = Some c /\ nth_error (rows td) i = Some r.

(** A process with the parameters its constructor accepts: Decimate takes a factor
    >= 1 (time.py 2029), a single step limit >= 2, Resample a positive frequency. *)
Definition valid_proc (p : proc) : Prop :=
  match p with
  | PDecimate f k => (1 <= f)%Z /\ (2 <= k)%Z
  | PResample f => 0 < f
  | PShift s => 0 < s
  | _ => True
  end.

(** a consistent recording with at least one sample *)
Definition usable (rnd : Q -> Q) (td : tdata) : Prop :=
  consistent rnd td /\ 0 < fs (meta td) /\ (1 <= n_samples (meta td))%Z.

(** what one channel becomes *)
Definition filled (r r' : list cell) : Prop :=
  length r' = length r /\
  (forall i v, nth_error r i = Some (Some v) -> nth_error r' i = Some (Some v)) /\
  (forall i, nth_error r i = Some None -> exists v, nth_error r' i = Some (Some v) /\ gap_value r i v).

(** the amount the user asked for, for channel [c] *)
Definition amount (a : addarg) (default : Q) (c : chan) : Q :=
  match a with
  | AScalar v => v
  | ADict d => match lookup c d with Some v => v | None => default end
  end.

(** the opposite amounts *)
Definition neg_arg (a : addarg) : addarg :=
  match a with AScalar v => AScalar (- v) | ADict d => ADict (map (fun kv => (fst kv, - snd kv)) d) end.
