(** Specification vocabulary for gathering. *)
From Coq Require Import String Sorted.
From Verif Require Import Base.Prelude Base.ListUtil Base.NdArray
  Model.Time Model.Decimate Model.Window Model.Spectra Model.Calibrate Model.Gather Spec.Calibrate.
Open Scope list_scope. Open Scope Z_scope.

(** the measurement has the global window [g] at the level *)
Definition has_window (md : spec_md) (level g : Z) : Prop :=
  level < sm_n_levels md /\ exists m, nth_error (sm_levels md) (Z.to_nat level) = Some m /\
    sl_offset m <= g < sl_offset m + sl_n_wins m.
(** [name] is the first measurement (in the order of the site) with the window *)
Definition supplies (ms : list (string * spec_md)) (level g : Z) (name : string) : Prop :=
  exists before md after, ms = before ++ (name, md) :: after /\ has_window md level g /\
    forall n' md', In (n', md') before -> ~ has_window md' level g.
(** increasing without repetition *)
Definition increasing_z (l : list Z) : Prop := StronglySorted Z.lt l.
(** as many level descriptions as levels *)
Definition levels_ok (md : spec_md) : Prop := Z.of_nat (length (sm_levels md)) = sm_n_levels md.
(** the measurements of a site with readable evaluation data at a sampling frequency *)
Definition site_measurements {A} (proj : project A) (site_name : string) (fs : Q) (ms : list (string * spec_md)) : Prop :=
  exists st, find (fun s => String.eqb (fst s) site_name) proj = Some (site_name, st) /\
    ms = flat_map (fun x : string * (Q * res (spec_data A)) =>
           if Qeq_bool (fst (snd x)) fs then match snd (snd x) with Ok d => [(fst x, sd_md d)] | Err _ => [] end else []) st.

(** every selected site has a measurement with the level *)
Definition all_sites_have {A} (proj : project A) (fs : Q) (names : list string) (level : Z) : Prop :=
  forall site, In site names -> exists ms n md, site_measurements proj site fs ms /\ In (n, md) ms /\ level < sm_n_levels md.

(** evaluation data as written by resistics: per level a full array windows x channels x
    frequencies agreeing with the metadata, with at least [n] frequencies *)
Definition good_evals {A} (n : Z) (d : spec_data A) : Prop :=
  sm_chans (sd_md d) <> [] /\ levels_ok (sd_md d) /\
  forall l, 0 <= l < sm_n_levels (sd_md d) -> exists m x,
    nth_error (sm_levels (sd_md d)) (Z.to_nat l) = Some m /\ sd_at d l = Ok (nd3 x) /\
    Z.of_nat (length x) = sl_n_wins m /\ shaped x (length (sm_chans (sd_md d))) (Z.to_nat (sl_n_freqs m)) /\ n <= sl_n_freqs m.
(** entry (window, channel, frequency) *)
Definition coef {A} (x : list (list (list A))) (w c f : nat) : option A :=
  match nth_error x w with
  | Some win => match nth_error win c with Some r => nth_error r f | None => None end
  | None => None
  end.
(** [row] holds the coefficients of the channels, in order, for local window [w] and frequency [f] of the level *)
Definition window_row {A} (d : spec_data A) (chans : list chan) (level w f : Z) (row : list A) : Prop :=
  exists x, sd_at d level = Ok (nd3 x) /\
    Forall2 (fun c z => exists i, nth_error (sm_chans (sd_md d)) i = Some c /\
                          (forall j, (j < i)%nat -> nth_error (sm_chans (sd_md d)) j <> Some c) /\
                          coef x (Z.to_nat w) i (Z.to_nat f) = Some z) chans row.
(** the data gathered for a site: for every level and evaluation frequency of the selection, row [r]
    holds the channels of the [r]-th selected window, taken from the measurement the table names
    for the site, at the window's position within that measurement *)
Definition gathered_from {A} (proj : project A) (s : selection) (site_name : string) (chans : list chan) (data : list (Z * list (list A))) : Prop :=
  exists st col, find (fun x => String.eqb (fst x) site_name) proj = Some (site_name, st) /\
    nth_error (sel_sites s) col = Some site_name /\
    forall level f t, 0 <= level < sel_n_levels s -> 0 <= f < dp_per_level (sel_params s) -> sel_table s level = Ok t ->
      exists rows, find (fun kv => Z.eqb (fst kv) (dp_per_level (sel_params s) * level + f)) data
                     = Some (dp_per_level (sel_params s) * level + f, rows) /\
        length rows = length t /\
        forall r g names, nth_error t r = Some (g, names) ->
          exists name fs d m row, nth_error names col = Some name /\ In (name, (fs, Ok d)) st /\
            nth_error (sm_levels (sd_md d)) (Z.to_nat level) = Some m /\ 0 <= g - sl_offset m < sl_n_wins m /\
            nth_error rows r = Some row /\ window_row d chans level (g - sl_offset m) f row.

(** every readable measurement of the site at the sampling frequency is as written by resistics and has the
    channels; measurement names (directories) are distinct *)
Definition good_site {A} (proj : project A) (p : dec_params) (site_name : string) (chans : list chan) : Prop :=
  forall st, find (fun x => String.eqb (fst x) site_name) proj = Some (site_name, st) ->
    NoDup (map fst st) /\
    forall name fs d, In (name, (fs, Ok d)) st -> Qeq_bool fs (dp_fs p) = true ->
      good_evals (dp_per_level p) d /\ incl chans (sm_chans (sd_md d)).
(** an optional site name and its default *)
Definition or_else (o : option string) (d : string) : string := match o with Some x => x | None => d end.
(** every level has exactly [P] frequencies and at least one window *)
Definition quick_shape {A} (P : Z) (d : spec_data A) : Prop :=
  forall l m, 0 <= l < sm_n_levels (sd_md d) -> nth_error (sm_levels (sd_md d)) (Z.to_nat l) = Some m -> sl_n_freqs m = P /\ 1 <= sl_n_wins m.
