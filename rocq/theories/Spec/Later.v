(** Specification for C97: the same recording made [d] seconds later. Times are numbers of seconds;
    the history is left out (C13 says what it holds). *)
From Coq Require Import String.
From Verif Require Import Base.Prelude Base.NdArray Base.Cplx Model.Sampling Model.Time Model.Decimate Model.Window Model.Spectra Model.Calibrate Model.Pipeline.
Open Scope list_scope. Open Scope Q_scope.

Definition later_time (d : Q) (t t' : time) : Prop := t' == t + d.
(** the same recording, [d] seconds later *)
Definition later (d : Q) (a b : tdata) : Prop :=
  rows b = rows a /\ dtype b = dtype a /\ fs (meta b) = fs (meta a) /\ chans (meta b) = chans (meta a) /\ n_chans (meta b) = n_chans (meta a) /\
  n_samples (meta b) = n_samples (meta a) /\ info (meta b) = info (meta a) /\ chans_md (meta b) = chans_md (meta a) /\
  later_time d (first_time (meta a)) (first_time (meta b)) /\ later_time d (last_time (meta a)) (last_time (meta b)).
(** the same configuration; a Subsection names times, so it names later ones *)
Definition later_proc (d : Q) (p : proc) : proc := match p with PSubsection f t => PSubsection (f + d) (t + d) | _ => p end.
Definition later_config (d : Q) (c : config) : config :=
  mkConfig (cf_name c) (map (later_proc d) (cf_time c)) (cf_dec c) (cf_resample c) (cf_max_single c) (cf_win c) (cf_target c) (cf_spec c) (cf_cal_chans c) (cf_tf c).
(** the same spectra, [d] seconds later *)
Definition later_spec {A} (d : Q) (a b : spec_data A) : Prop :=
  sd_data b = sd_data a /\ sm_fs (sd_md b) = sm_fs (sd_md a) /\ sm_chans (sd_md b) = sm_chans (sd_md a) /\ sm_n_levels (sd_md b) = sm_n_levels (sd_md a) /\
  sm_info (sd_md b) = sm_info (sd_md a) /\ sm_levels (sd_md b) = sm_levels (sd_md a) /\
  later_time d (sm_first (sd_md a)) (sm_first (sd_md b)) /\ later_time d (sm_last (sd_md a)) (sm_last (sd_md b)) /\
  later_time d (sm_ref (sd_md a)) (sm_ref (sd_md b)).
(** the same exception, or results that are related *)
Inductive alike {A B} (R : A -> B -> Prop) : res A -> res B -> Prop :=
| alike_ok a b : R a b -> alike R (Ok a) (Ok b)
| alike_err e : alike R (Err e) (Err e).
(** the same project: names, sampling frequencies, every recording [d] seconds later *)
Definition later_meas (d : Q) (a b : string * (Q * res tdata)) : Prop :=
  fst b = fst a /\ fst (snd b) = fst (snd a) /\ alike (later d) (snd (snd a)) (snd (snd b)).
Definition later_site (d : Q) (a b : string * raw_site) : Prop := fst b = fst a /\ Forall2 (later_meas d) (snd a) (snd b).
Definition later_project (d : Q) (a b : raw_project) : Prop := Forall2 (later_site d) a b.
(** the same command with the later reference time *)
Definition later_command (d : Q) (a b : command) : Prop :=
  cm_config b = later_config d (cm_config a) /\ cm_cal b = cm_cal a /\ later_time d (cm_ref a) (cm_ref b) /\ cm_site b = cm_site a /\ cm_meas b = cm_meas a.
