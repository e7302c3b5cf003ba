(** Vocabulary for transfer functions between sites. *)
From Coq Require Import String.
From Verif Require Import Base.Prelude Base.ListUtil Base.NdArray Base.Cplx
  Model.Time Model.Decimate Model.Spectra Model.Calibrate Model.Gather Model.Regression Spec.Calibrate Spec.Gather Spec.Regression.
Open Scope list_scope. Open Scope Z_scope.

(** [row] holds the coefficients of the site's channels, at evaluation frequency [f] of the level, in the window with
    global index [g]; the window is taken from the first measurement (of those at sampling frequency [fs]) that has it *)
Definition site_row (pr : project cq) (fs : Q) (site : string) (chans : list chan) (level g f : Z) (row : list cq) : Prop :=
  exists st ms name fs' d m, find (fun x => String.eqb (fst x) site) pr = Some (site, st) /\
    site_measurements pr site fs ms /\ supplies ms level g name /\ In (name, (fs', Ok d)) st /\
    nth_error (sm_levels (sd_md d)) (Z.to_nat level) = Some m /\ window_row d chans level (g - sl_offset m) f row.
(** in every window the sites have in common, the outputs are [Zt level f] applied to the inputs *)
Definition related (pr : project cq) (fs : Q) (tf : tf_chans) (out_site in_site : string) (Zt : Z -> Z -> list (list cq)) : Prop :=
  forall level f g orow irow, site_row pr fs out_site (tf_out tf) level g f orow -> site_row pr fs in_site (tf_in tf) level g f irow ->
    Forall2 (fun Zo z => ceq z (cdot Zo irow)) (Zt level f) orow.
(** the windows the three sites have in common determine the tensor at frequency [f] of the level *)
Definition windows_determine (pr : project cq) (fs : Q) (tf : tf_chans) (out_site in_site cross_site : string) (level f : Z) : Prop :=
  forall D, length D = length (tf_in tf) ->
    (forall g orow irow crow c, site_row pr fs out_site (tf_out tf) level g f orow -> site_row pr fs in_site (tf_in tf) level g f irow ->
       site_row pr fs cross_site (tf_cross tf) level g f crow -> In c crow ->
       ceq (cdot D (map (fun x => ctimes x (conj_ c)) irow)) c0) ->
    Forall (fun d => ceq d c0) D.
