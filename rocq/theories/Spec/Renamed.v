(** Specification for C103: projects with the same evaluation data under other names and in another order. *)
From Coq Require Import String.
From Verif Require Import Base.Prelude Base.ListUtil Base.NdArray Model.Time Model.Spectra Model.Gather Spec.Gather.
Open Scope list_scope. Open Scope Z_scope.
(** [d] is the evaluation data of a measurement of the site at the sampling frequency *)
Definition data_of {A} (proj : project A) (site : string) (fs : Q) (d : spec_data A) : Prop :=
  exists st name f, find (fun x => String.eqb (fst x) site) proj = Some (site, st) /\ In (name, (f, Ok d)) st /\ Qeq_bool f fs = true.
(** the sites exist in both projects and have the same evaluation data; names and order are free *)
Definition same_data {A} (fs : Q) (sites : list string) (proj proj' : project A) : Prop :=
  forall site, In site sites ->
    (exists st st', find (fun x => String.eqb (fst x) site) proj = Some (site, st) /\ find (fun x => String.eqb (fst x) site) proj' = Some (site, st') /\
                    NoDup (map fst st) /\ NoDup (map fst st')) /\
    forall d, data_of proj site fs d <-> data_of proj' site fs d.
(** no window of a site belongs to two measurements with different data *)
Definition separate {A} (fs : Q) (sites : list string) (proj : project A) : Prop :=
  forall site d d' level g, In site sites -> data_of proj site fs d -> data_of proj site fs d' -> 0 <= level ->
    has_window (sd_md d) level g -> has_window (sd_md d') level g -> d = d'.
(** the evaluation data of the site are as written by resistics and have the channels *)
Definition good_data {A} (n : Z) (fs : Q) (proj : project A) (site : string) (cs : list chan) : Prop :=
  forall d, data_of proj site fs d -> good_evals n d /\ incl cs (sm_chans (sd_md d)).
