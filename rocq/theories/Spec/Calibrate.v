(** Specification vocabulary for calibration. *)
From Coq Require Import String Ascii Permutation Sorted.
From Verif Require Import Base.Prelude Base.ListUtil Base.Interp Base.NdArray Base.Cplx Base.PyString
  Model.Time Model.Spectra Model.Calibrate Spec.Spectra.
Open Scope list_scope. Open Scope Q_scope.

(** [cal] is what the first succeeding reader delivers *)
Definition first_success (readers : list (chan -> res cal_data)) (c : chan) (cal : cal_data) : Prop :=
  exists before r after, readers = before ++ r :: after /\ r c = Ok cal /\ forall r', In r' before -> exists e, r' c = Err e.
Definition no_success (readers : list (chan -> res cal_data)) (c : chan) : Prop :=
  forall r, In r readers -> exists e, r c = Err e.

(** a calibration table: equally many frequencies, magnitudes and phases, frequencies increasing *)
Definition good_cal (cal : cal_data) : Prop :=
  cal_freq cal <> [] /\ length (cal_mag cal) = length (cal_freq cal) /\ length (cal_phase cal) = length (cal_freq cal) /\
  ascending (cal_freq cal).

(** windows x channels x frequencies *)
Definition shaped {A} (x : list (list (list A))) (n_chans n_freqs : nat) : Prop :=
  forall w, In w x -> length w = n_chans /\ forall r, In r w -> length r = n_freqs.

(** [row'] is [row] divided, frequency by frequency, by the interpolated response *)
Definition response_removed (cis : Q -> cq) (cdiv : cq -> cq -> cq) (cal : cal_data) (freqs : list Q) (row row' : list cq) : Prop :=
  length row' = length row /\
  forall j f z, nth_error freqs j = Some f -> nth_error row j = Some z ->
    exists mag phs, interpolates (combine (cal_freq cal) (cal_mag cal)) f mag /\
      interpolates (combine (cal_freq cal) (cal_phase cal)) f phs /\
      nth_error row' j = Some (cdiv z (cscale mag (cis phs))).

(** rows sorted by frequency *)
Definition by_freq (l : list (Q * Q * Q)) : Prop := StronglySorted (fun a b => fst (fst a) <= fst (fst b)) l.

(** [y] is [x] with every row (window w, channel c) related by [R c] *)
Definition rowwise {A B} (R : nat -> A -> B -> Prop) (x : list (list A)) (y : list (list B)) : Prop :=
  length y = length x /\
  forall w win, nth_error x w = Some win -> exists win', nth_error y w = Some win' /\
     forall c row, nth_error win c = Some row -> exists row', nth_error win' c = Some row' /\ R c row row'.
(** what has to happen to the row of channel number [c] *)
Definition row_fate (cis : Q -> cq) (cdiv : cq -> cq -> cq) (chans : list chan) (readers : list (chan -> res cal_data))
  (selected : chan -> Prop) (freqs : list Q) (c : nat) (row row' : list cq) : Prop :=
  forall name, nth_error chans c = Some name ->
    (~ selected name -> row' = row) /\ (no_success readers name -> row' = row) /\
    (selected name -> forall cal, first_success readers name cal -> response_removed cis cdiv cal freqs row row').
(** the channels picked by the configuration: all, or the listed ones *)
Definition is_selected (sel : option (list chan)) (c : chan) : Prop := match sel with None => True | Some l => In c l end.

(** ** text files *)
(** the line splits into three numbers *)
Definition row_values (parse_float : string -> option Q) (line : string) (v : Q * Q * Q) : Prop :=
  exists a b c, words line = [a; b; c] /\ parse_float a = Some (fst (fst v)) /\ parse_float b = Some (snd (fst v)) /\ parse_float c = Some (snd v).
(** the text after the first equals sign (up to the next one), without surrounding space *)
Definition no_eq (s : string) : Prop := forall i, String.get i s <> Some "="%char.
Definition assigns (line v : string) : Prop :=
  exists a b rest, line = (a ++ "=" ++ b ++ rest)%string /\ no_eq a /\ no_eq b /\ (rest = ""%string \/ exists t, rest = ("=" ++ t)%string) /\ v = strip b.
(** the last and the first of [lines] with the property *)
Definition last_with (P : string -> Prop) (lines : list string) (l : string) : Prop :=
  exists a b, lines = a ++ l :: b /\ P l /\ forall l', In l' b -> ~ P l'.
Definition first_with (P : string -> Prop) (lines : list string) (l : string) : Prop :=
  exists a b, lines = a ++ l :: b /\ P l /\ forall l', In l' a -> ~ P l'.
Definition mentions (key l : string) : Prop := contains key (lower l) = true.
(** [v] is assigned by the last line with the property, [default] when there is none *)
Definition last_value (P : string -> Prop) (g : string -> string) (lines : list string) (default v : string) : Prop :=
  ((forall l, In l lines -> ~ P l) /\ v = default) \/ exists l, last_with P lines l /\ assigns (g l) v.
(** a row with its phase in radians *)
Definition in_radians (to_radians : Q -> Q) (degrees : bool) (r : Q * Q * Q) : Q * Q * Q :=
  (fst (fst r), snd (fst r), if degrees then to_radians (snd r) else snd r).

(** every level holds a full array of the recorded shape; one frequency per level only with at most one window *)
Definition calibratable (d : spec_data cq) (x : Z -> list (list (list cq))) : Prop :=
  forall l, (0 <= l < sm_n_levels (sd_md d))%Z -> exists m, sd_level_md d l = Ok m /\ sd_at d l = Ok (nd3 (x l)) /\
    shaped (x l) (length (sm_chans (sd_md d))) (length (sl_freqs m)) /\ (length (sl_freqs m) <> 1%nat \/ (length (x l) <= 1)%nat).
