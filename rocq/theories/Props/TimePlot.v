(** Property C90: figures of recordings and of decimated data. *)
From Coq Require Import String Sorted Permutation.
From Verif Require Import Base.Prelude Base.B32 Base.ListUtil Base.NdArray Model.Sampling Model.Time Model.Decimate Model.Window Model.Timestamps Model.Display
  Model.SpectraPlot Model.TimePlot Spec.Time Spec.Display Spec.TimePlot Proofs.Spectra Proofs.TimePlot Props.Display.
Open Scope list_scope. Open Scope Z_scope.

(** ** C90 *)
(** a recording: a panel per channel, and in it one curve with the channel's samples at the times of get_timestamps *)
Theorem C90_recording : forall rnd nt ndl lttbc ycast lm, picks_points lttbc -> forall td colour name max_pts, recording max_pts td -> described td ->
  exists f, time_plot rnd nt ndl b32 lttbc ycast lm td None None colour name max_pts = Ok f /\ fg_titles f = chans (meta td) /\
    length (fg_curves f) = length (chans (meta td)) /\
    forall i c cv, nth_error (chans (meta td)) i = Some c -> nth_error (fg_curves f) i = Some cv ->
      panel f cv = Some c /\ cv_name cv = name /\ cv_colour cv = colour /\ cv_legend cv = Nat.eqb i 0 /\ shows_chan rnd nt ndl ycast max_pts td c cv.
Proof.
  intros rnd nt ndl lttbc ycast lm P td colour name max_pts R D. rewrite default_is_all.
  destruct (fresh_spec rnd nt ndl lttbc ycast lm P td (chans (meta td)) colour name max_pts R D (incl_refl _) (incl_refl _) (le_n _)) as (new & E & F).
  eexists. split; [exact E|]. split; [reflexivity|]. split; [cbn; rewrite <- (Forall2_length' _ _ _ F), combine_length, seq_length; apply Nat.min_id|].
  intros i c cv Hc Hcv. destruct (Forall2_nth_error _ _ _ i (i, c) F) as (cv' & Hcv' & A1 & A2 & A3 & A4 & A5); [apply nth_combine_seq; exact Hc|].
  cbn [fg_curves] in Hcv. rewrite Hcv in Hcv'. injection Hcv' as <-. split; [|split; [exact A2|split; [exact A3|split; [exact A4|exact A5]]]].
  unfold panel. cbn [fg_titles]. rewrite A1. cbn [fst]. replace (Z.to_nat (Z.of_nat i + 1 - 1)) with i by lia. exact Hc.
Qed.
Print Assumptions C90_recording.
(** added to a figure: the curves there stay, each of the figure's channels that the data has gets a curve in its panel *)
Theorem C90_added : forall rnd nt ndl lttbc ycast lm, picks_points lttbc -> forall td f colour name max_pts, recording max_pts td ->
  exists new, time_plot rnd nt ndl b32 lttbc ycast lm td (Some f) (Some (fg_titles f)) colour name max_pts = Ok (mkFigure (fg_titles f) (fg_curves f ++ new)) /\
    (forall cv, In cv new -> exists c, panel f cv = Some c /\ In c (chans (meta td)) /\ cv_name cv = name /\ cv_colour cv = colour /\ shows_chan rnd nt ndl ycast max_pts td c cv) /\
    (forall i c, nth_error (fg_titles f) i = Some c -> In c (chans (meta td)) -> exists cv, In cv new /\ cv_row cv = Z.of_nat i + 1).
Proof.
  intros rnd nt ndl lttbc ycast lm P td f colour name max_pts R.
  destruct (overlay_spec rnd nt ndl lttbc ycast lm P td f (fg_titles f) colour name max_pts R (le_n _)) as (new & E & F). exists new. split; [exact E|]. split.
  - intros cv Hcv. apply In_nth_error in Hcv. destruct Hcv as (k & Hk). destruct (nth_error (drawn_from 0 td (fg_titles f)) k) as [[i c]|] eqn:Ek.
    + destruct (Forall2_nth_error _ _ _ k _ F Ek) as (cv' & H' & A1 & A2 & A3 & _ & A5). rewrite Hk in H'. injection H' as <-. apply nth_error_In in Ek. apply drawn_from_in in Ek. destruct Ek as (I & _ & T).
      rewrite Nat.sub_0_r in T. exists c. split; [unfold panel; rewrite A1; cbn [fst]; replace (Z.to_nat (Z.of_nat i + 1 - 1)) with i by lia; exact T|]. split; [exact I|]. split; [exact A2|]. split; [exact A3|exact A5].
    + apply nth_error_None in Ek. rewrite (Forall2_length' _ _ _ F) in Ek. assert (k < length new)%nat by (apply nth_error_Some; congruence). lia.
  - intros i c T I. assert (D : In (i, c) (drawn_from 0 td (fg_titles f))) by (apply drawn_from_in; rewrite Nat.sub_0_r; split; [exact I|split; [lia|exact T]]).
    apply In_nth_error in D. destruct D as (k & Hk). destruct (Forall2_nth_error _ _ _ k _ F Hk) as (cv & H' & A1 & _). exists cv. split; [exact (nth_error_In _ _ H')|exact A1].
Qed.
Print Assumptions C90_added.
(** decimated data of up to ten levels: a panel per channel and in it one curve per level *)
Theorem C90_decimated : forall rnd nt ndl lttbc ycast lm, picks_points lttbc -> forall d dt max_pts, dd_chans d <> [] -> NoDup (dd_chans d) -> dd_n_levels d <= 10 ->
  (forall l, 0 <= l < dd_n_levels d -> exists m x, decimated_level max_pts d l m x) ->
  exists css, dec_plot rnd nt ndl b32 lttbc ycast lm d dt max_pts = Ok (mkFigure (dd_chans d) (concat css)) /\ Z.of_nat (length css) = Z.max 0 (dd_n_levels d) /\
    forall l cs m x, nth_error css l = Some cs -> decimated_level max_pts d (Z.of_nat l) m x -> length cs = length (dd_chans d) /\
      forall i c cv, nth_error cs i = Some cv -> nth_error (dd_chans d) i = Some c -> cv_row cv = Z.of_nat i + 1 /\ cv_name cv = CLevel (Z.of_nat l) (lm_fs m) /\ cv_colour cv = inr (Z.of_nat l) /\
        shows_level rnd nt ndl ycast max_pts d (Z.of_nat l) x c cv.
Proof. exact dec_plot_spec. Qed.
Print Assumptions C90_decimated.
Theorem C90_many_levels_refuted : forall rnd nt ndl lttbc ycast lm, picks_points lttbc -> forall d dt max_pts, dd_chans d <> [] -> NoDup (dd_chans d) -> 10 < dd_n_levels d ->
  (forall l, 0 <= l < dd_n_levels d -> exists m x, decimated_level max_pts d l m x) ->
  dec_plot rnd nt ndl b32 lttbc ycast lm d dt max_pts = Err StopIteration.
Proof. exact dec_plot_many. Qed.
Print Assumptions C90_many_levels_refuted.
(** asking for some of the channels only: KeyError *)
Theorem C90_some_channels_refuted : forall rnd nt ndl lttbc ycast lm td cs colour name max_pts c, In c (chans (meta td)) -> ~ In c cs ->
  time_plot rnd nt ndl b32 lttbc ycast lm td None (Some cs) colour name max_pts = Err KeyError.
Proof. exact omitted_spec. Qed.
Print Assumptions C90_some_channels_refuted.
(** asking for the channels in another order: the panel titled with one channel shows another *)
Theorem C90_order_refuted : forall rnd nt ndl lttbc ycast lm, picks_points lttbc -> forall td cs colour name max_pts i c c', recording max_pts td -> described td ->
  Permutation cs (chans (meta td)) -> nth_error (chans (meta td)) i = Some c -> nth_error cs i = Some c' -> c <> c' ->
  exists f cv, time_plot rnd nt ndl b32 lttbc ycast lm td None (Some cs) colour name max_pts = Ok f /\ nth_error (fg_curves f) i = Some cv /\
    panel f cv = Some c /\ shows_chan rnd nt ndl ycast max_pts td c' cv.
Proof.
  intros rnd nt ndl lttbc ycast lm P td cs colour name max_pts i c c' R D PM Hc Hc' _.
  destruct (fresh_spec rnd nt ndl lttbc ycast lm P td cs colour name max_pts R D) as (new & E & F).
  - intros x Hx. exact (Permutation_in _ PM Hx).
  - intros x Hx. exact (Permutation_in _ (Permutation_sym PM) Hx).
  - apply Nat.eq_le_incl. exact (Permutation_length PM).
  - destruct (Forall2_nth_error _ _ _ i (i, c') F) as (cv & H' & A1 & _ & _ & _ & A5); [apply nth_combine_seq; exact Hc'|].
    eexists _, cv. split; [exact E|]. split; [exact H'|]. split; [|exact A5]. unfold panel. cbn [fg_titles]. rewrite A1. cbn [fst]. replace (Z.to_nat (Z.of_nat i + 1 - 1)) with i by lia. exact Hc.
Qed.
Print Assumptions C90_order_refuted.

(** *** instances *)
Definition ex_td : tdata := mkData (mkMeta 2 ["Ex"; "Hy"]%string 2 3 0 1 ""%string [("Ex"%string, mkChanMd [] ""%string); ("Hy"%string, mkChanMd [] ""%string)] [])
  "float64"%string [[Some 1; None; Some 3]; [Some 4; Some 5; Some 6]]%Q.
Definition ns (q : Q) : Z := qfloor (q * 1000000000).
Definition no_lttb (row : list cell) (k : Z) : res (list Z * list cell) := Err ValueError.
Lemma ex_recording : recording (Some 3) ex_td /\ described ex_td.
Proof.
  split.
  - split; [discriminate|]. split; [repeat constructor; cbn; intros H; repeat destruct H as [H|H]; try discriminate; contradiction|]. split; [reflexivity|]. split; [reflexivity|].
    intros r [<-|[<-|[]]]; (split; [reflexivity|left; cbn; lia]).
  - intros c [<-|[<-|[]]]; eexists; reflexivity.
Qed.
Example C90_ex : time_plot (fun q => q) ns ns b32 first_points Qred no_lttb ex_td None None (inl "blue"%string) (CName "TimeData") (Some 3) =
  Ok (mkFigure ["Ex"; "Hy"]%string
    [mkCurve 1 [0; 500000000; 1000000000] [Some 1; None; Some 3]%Q (CName "TimeData") (inl "blue"%string) true;
     mkCurve 2 [0; 500000000; 1000000000] [Some 4; Some 5; Some 6]%Q (CName "TimeData") (inl "blue"%string) false]).
Proof. vm_compute. reflexivity. Qed.
Example C90_some_ex : time_plot (fun q => q) ns ns b32 first_points Qred no_lttb ex_td None (Some ["Hy"]%string) (inl "blue"%string) (CName "TimeData") (Some 3) = Err KeyError.
Proof.
  apply C90_some_channels_refuted with (c := "Ex"%string); [left; reflexivity|]. intros [H|[]]. discriminate H.
Qed.
Example C90_order_ex : exists f cv, time_plot (fun q => q) ns ns b32 first_points Qred no_lttb ex_td None (Some ["Hy"; "Ex"]%string) (inl "blue"%string) (CName "TimeData") (Some 3) = Ok f /\
  nth_error (fg_curves f) 0 = Some cv /\ panel f cv = Some "Ex"%string /\ shows_chan (fun q => q) ns ns Qred (Some 3) ex_td "Hy"%string cv.
Proof.
  apply (C90_order_refuted _ _ _ _ _ _ first_points_ok ex_td ["Hy"; "Ex"]%string _ _ (Some 3) 0%nat "Ex"%string "Hy"%string (proj1 ex_recording) (proj2 ex_recording)); [constructor|reflexivity|reflexivity|discriminate].
Qed.
Definition ex_dd (n : Z) : dec_data := mkDecData [] ["Ex"; "Hy"]%string n 0 1 ""%string (map (fun l => mkLevelMd 2 3 0 1) (arange n)) []
  (map (fun l => (l, [[Some 1; None; Some 3]; [Some 4; Some 5; Some 6]]%Q)) (arange n)).
Lemma ex_levels n l : 0 <= l < n -> exists m x, decimated_level None (ex_dd n) l m x.
Proof.
  intros H. exists (mkLevelMd 2 3 0 1), [[Some 1; None; Some 3]; [Some 4; Some 5; Some 6]]%Q. split; [exact H|]. split; [|split; [|split; [reflexivity|split; [reflexivity|]]]].
  - cbn [ex_dd dd_levels_md]. rewrite nth_error_map, Sampling.arange_nth by lia. reflexivity.
  - cbn [ex_dd dd_data]. assert (I : In l (arange n)) by (apply CalibrateFinal.arange_in; exact H). induction (arange n) as [|a t IH]; [contradiction|]. cbn [map find fst].
    destruct (Z.eqb_spec a l) as [->|N]; [reflexivity|]. apply IH. destruct I as [I|I]; [contradiction|exact I].
  - intros r [<-|[<-|[]]]; (split; [reflexivity|left; exact I]).
Qed.
Example C90_decimated_ex : exists f, dec_plot (fun q => q) ns ns b32 first_points Qred no_lttb (ex_dd 2) "float64"%string None = Ok f /\ fg_titles f = ["Ex"; "Hy"]%string /\
  map cv_row (fg_curves f) = [1; 2; 1; 2] /\ map cv_name (fg_curves f) = [CLevel 0 2; CLevel 0 2; CLevel 1 2; CLevel 1 2].
Proof. eexists. split; [vm_compute; reflexivity|]. repeat split; vm_compute; reflexivity. Qed.
Example C90_many_ex : dec_plot (fun q => q) ns ns b32 first_points Qred no_lttb (ex_dd 11) "float64"%string None = Err StopIteration.
Proof.
  apply C90_many_levels_refuted; [exact first_points_ok|discriminate| |reflexivity|apply ex_levels].
  repeat constructor; cbn; intros H; repeat destruct H as [H|H]; try discriminate; contradiction.
Qed.
