(** Proofs for C90: figures of time data. *)
From Coq Require Import String Sorted.
From Verif Require Import Base.Prelude Base.B32 Base.ListUtil Base.NdArray Model.Sampling Model.Time Model.Decimate Model.Window Model.Timestamps Model.Display
  Model.SpectraPlot Model.TimePlot Spec.Time Spec.Display Spec.SpectraPlot Spec.TimePlot
  Proofs.Sampling Proofs.Spectra Proofs.Calibrate Proofs.CalibrateFinal Proofs.DecParams Proofs.Display Proofs.TimeMeta Proofs.TimeData Proofs.SpectraPlot Proofs.Timestamps.
Open Scope list_scope. Open Scope Z_scope.

Lemma all_some_inv {A} (l : list (option A)) v : all_some l = Some v -> l = map Some v.
Proof.
  revert v. induction l as [|[x|] t IH]; intros v H; cbn in H; [injection H as <-; reflexivity| |discriminate].
  destruct (all_some t) as [w|]; [|discriminate]. injection H as <-. cbn. f_equal. apply IH. reflexivity.
Qed.
Lemma all_some_full {A} (l : list (option A)) : ~ In None l -> exists v, all_some l = Some v.
Proof.
  induction l as [|[x|] t IH]; intros H; [eexists; reflexivity| |exfalso; apply H; left; reflexivity].
  destruct IH as (v & E); [intros I; apply H; right; exact I|]. cbn. rewrite E. eexists. reflexivity.
Qed.

Section P.
  Variables (rnd : Q -> Q) (nt ndl : Q -> Z) (lttbc : list Q -> list Q -> Z -> res (list Q * list Q)) (ycast : Q -> Q)
    (lm : list cell -> Z -> res (list Z * list cell)).
  Hypothesis P : picks_points lttbc.

  Lemma arange_seq n : arange (Z.of_nat n) = map Z.of_nat (seq 0 n).
  Proof. unfold arange. rewrite Nat2Z.id. reflexivity. Qed.
  Lemma chan_lttb_spec (row : list cell) max_pts : drawable max_pts row ->
    exists ps ys, chan_lttb b32 lttbc ycast lm row max_pts = Ok (map Z.of_nat ps, ys) /\ drawn ycast max_pts row ps ys /\ (forall p, In p ps -> (p < length row)%nat).
  Proof.
    assert (ALL : forall p, In p (seq 0 (length row)) -> (p < length row)%nat) by (intros p Hp; apply in_seq in Hp; lia).
    intros D. destruct D as [F|(k & -> & K & N & NM)].
    - exists (seq 0 (length row)), row. split; [|split; [left; split; [exact F|split; reflexivity]|exact ALL]].
      unfold chan_lttb. destruct (all_some row) as [ys|] eqn:E.
      + apply all_some_inv in E. subst row. rewrite !map_length in *. destruct max_pts as [k|]; cbn [fits] in F.
        * unfold apply_lttb, lttb_downsample. rewrite arange_length, Nat2Z.id, Nat.eqb_refl. cbn [negb].
          destruct (Z.geb_spec k (Z.of_nat (length ys))); [|lia]. cbn [bind]. rewrite arange_seq. reflexivity.
        * cbn [apply_lttb bind]. rewrite arange_seq. reflexivity.
      + destruct max_pts as [k|]; cbn [fits] in F; [destruct (Z.geb_spec k (Z.of_nat (length row))); [|lia]|]; rewrite arange_seq; reflexivity.
    - destruct (all_some_full row NM) as (ys & E). unfold chan_lttb. rewrite E. apply all_some_inv in E. subst row. rewrite map_length in *.
      destruct (lttb_points lttbc ycast P ys (Some k)) as (ps & conv & PT & I & AL); [left; exact K|exact N|]. rewrite AL. cbn [bind].
      exists ps, (map Some (map (fun p => conv (nth p ys 0%Q)) ps)). split; [reflexivity|]. split; [|exact I].
      cbn [points] in PT. destruct (Z.leb_spec (Z.of_nat (length ys)) k) as [L|L].
      + destruct PT as [-> ->]. left. rewrite map_length. split; [cbn; lia|]. split; [reflexivity|]. rewrite all_points. reflexivity.
      + destruct PT as [C ->]. right. exists k. rewrite map_length. split; [reflexivity|]. split; [exact L|]. split; [exact C|]. rewrite map_map.
        clear -I. induction ps as [|p ps IH]; cbn [map]; constructor; [|apply IH; intros; apply I; right; assumption].
        exists (nth p ys 0%Q). split; [|reflexivity]. rewrite nth_error_map, (nth_error_nth' _ 0%Q) by (apply I; left; reflexivity). reflexivity.
  Qed.
  Lemma stamps_at first f n ps : (0 < f)%Q -> 0 <= n -> (forall p, In p ps -> Z.of_nat p < n) ->
    exists xs all, stamps_of rnd nt ndl first f n (Some (map Z.of_nat ps)) true = Ok (Estimated xs) /\ stamps_of rnd nt ndl first f n None true = Ok (Estimated all) /\
      Forall2 (fun p t => nth_error all p = Some t) ps xs.
  Proof.
    intros F N I. destruct (est_all rnd nt ndl first f n F N) as (all & EA & LA & NA). destruct (est_some rnd nt ndl first f n (map Z.of_nat ps) F) as (xs & EX & LX & NX).
    exists xs, all. split; [exact EX|]. split; [exact EA|]. rewrite map_length in LX. clear EX EA. revert xs LX NX.
    induction ps as [|p ps IH]; intros [|t xs] LX NX; cbn in LX; try discriminate LX; constructor.
    - assert (H := NX 0%nat (Z.of_nat p) eq_refl). cbn in H. injection H as ->. rewrite <- (Nat2Z.id p) at 1. apply NA. specialize (I p (or_introl eq_refl)). lia.
    - apply IH; [intros; apply I; right; assumption|lia|]. intros i k Hk. exact (NX (S i) k Hk).
  Qed.
  Lemma chan_in_iff c cs : chan_in c cs = true <-> In c cs.
  Proof. unfold chan_in. rewrite existsb_exists. split; [intros (x & I & E); apply String.eqb_eq in E; subst; exact I|intros I; exists c; split; [exact I|apply String.eqb_refl]]. Qed.
  Lemma plot_chan_spec td n name colour max_pts idx c : recording max_pts td -> In c (chans (meta td)) -> Z.of_nat idx < n ->
    exists cv, plot_chan rnd nt ndl b32 lttbc ycast lm td n name colour max_pts (Z.of_nat idx, c) = Ok (Some cv) /\
      cv_row cv = Z.of_nat idx + 1 /\ cv_name cv = name /\ cv_colour cv = colour /\ cv_legend cv = Nat.eqb idx 0 /\ shows_chan rnd nt ndl ycast max_pts td c cv.
  Proof.
    intros (NE & ND & LR & F & R) I N. assert (I' := I). apply In_nth_error in I'. destruct I' as (i & Hi).
    destruct (nth_error (rows td) i) as [row|] eqn:Er; [|apply nth_error_None in Er; assert (i < length (chans (meta td)))%nat by (apply nth_error_Some; unfold chan in *; congruence); unfold chan in *; lia].
    unfold plot_chan. rewrite (proj2 (chan_in_iff _ _) I). cbn [negb].
    rewrite (get_chan_row td c row ND) by (exists i; split; assumption). cbn [bind]. destruct (R row (nth_error_In _ _ Er)) as [LN D].
    destruct (chan_lttb_spec row max_pts D) as (ps & ys & E & DR & LP). rewrite E. cbn [bind].
    destruct (stamps_at (first_time (meta td)) (fs (meta td)) (n_samples (meta td)) ps F ltac:(lia)) as (xs & all & EX & EA & FA); [intros p Hp; specialize (LP p Hp); lia|].
    unfold time_timestamps. rewrite EX. cbn [bind]. rewrite Z.gtb_ltb. destruct (Z.ltb_spec n (Z.of_nat idx + 1)); [lia|]. eexists. split; [reflexivity|]. cbn.
    split; [reflexivity|]. split; [reflexivity|]. split; [reflexivity|]. split; [destruct idx; reflexivity|].
    exists i, row, ps. split; [exact Hi|]. split; [exact Er|]. split; [exact DR|]. cbn. clear -EA FA. induction FA as [|p t ps xs H FA IH]; constructor; [|exact IH].
    exists all. split; [exact EA|exact H].
  Qed.
  (** positions of the channels drawn *)
  Fixpoint drawn_from (s : nat) (td : tdata) (cs : list chan) : list (nat * chan) :=
    match cs with [] => [] | c :: t => if chan_in c (chans (meta td)) then (s, c) :: drawn_from (S s) td t else drawn_from (S s) td t end.
  Lemma plot_chans_spec td n name colour max_pts cs : recording max_pts td -> forall s, Z.of_nat (s + length cs) <= n ->
    exists l, mapM (plot_chan rnd nt ndl b32 lttbc ycast lm td n name colour max_pts) (combine (map Z.of_nat (seq s (length cs))) cs) = Ok l /\
      Forall2 (fun ic cv => cv_row cv = Z.of_nat (fst ic) + 1 /\ cv_name cv = name /\ cv_colour cv = colour /\ cv_legend cv = Nat.eqb (fst ic) 0 /\ shows_chan rnd nt ndl ycast max_pts td (snd ic) cv)
        (drawn_from s td cs) (somes l).
  Proof.
    intros R. induction cs as [|c cs IH]; intros s N; [exists []; split; [reflexivity|constructor]|]. cbn [length seq map combine mapM drawn_from].
    destruct (IH (S s) ltac:(cbn [length] in N; lia)) as (l & E & F). destruct (chan_in c (chans (meta td))) eqn:C.
    - destruct (plot_chan_spec td n name colour max_pts s c R (proj1 (chan_in_iff _ _) C) ltac:(cbn [length] in N; lia)) as (cv & E' & H). rewrite E'. cbn [bind]. rewrite E. cbn [bind].
      exists (Some cv :: l). split; [reflexivity|]. cbn [somes]. constructor; [exact H|exact F].
    - unfold plot_chan at 1. rewrite C. cbn [negb bind]. rewrite E. cbn [bind]. exists (None :: l). split; [reflexivity|]. exact F.
  Qed.
  Lemma drawn_from_all td cs : incl cs (chans (meta td)) -> forall s, drawn_from s td cs = combine (seq s (length cs)) cs.
  Proof.
    induction cs as [|c cs IH]; intros H s; [reflexivity|]. cbn. rewrite (proj2 (chan_in_iff _ _) (H c (or_introl eq_refl))). f_equal. apply IH. intros x Hx. apply H. right. exact Hx.
  Qed.
  Lemma drawn_from_in td cs : forall s i c, In (i, c) (drawn_from s td cs) <-> In c (chans (meta td)) /\ (s <= i)%nat /\ nth_error cs (i - s) = Some c.
  Proof.
    induction cs as [|a cs IH]; intros s i c; cbn [drawn_from]; [split; [contradiction|intros (_ & _ & H); destruct (i - s)%nat; discriminate]|].
    assert (G : In (i, c) (drawn_from (S s) td cs) <-> In c (chans (meta td)) /\ (s < i)%nat /\ nth_error (a :: cs) (i - s) = Some c).
    { rewrite IH. split; intros (A & B & C); (split; [exact A|]); (split; [lia|]); [replace (i - s)%nat with (S (i - S s)) by lia; exact C|replace (i - s)%nat with (S (i - S s)) in C by lia; exact C]. }
    destruct (chan_in a (chans (meta td))) eqn:E.
    - cbn [In]. rewrite G. split.
      + intros [H|(A & B & C)]; [injection H as <- <-; split; [apply chan_in_iff; exact E|split; [lia|rewrite Nat.sub_diag; reflexivity]]|split; [exact A|split; [lia|exact C]]].
      + intros (A & B & C). destruct (Nat.eq_dec s i) as [->|N]; [left; rewrite Nat.sub_diag in C; cbn in C; congruence|right; split; [exact A|split; [lia|exact C]]].
    - rewrite G. split; intros (A & B & C); (split; [exact A|]); (split; [|exact C]); [lia|].
      destruct (Nat.eq_dec s i) as [->|N]; [|lia]. rewrite Nat.sub_diag in C. cbn in C. injection C as ->. apply chan_in_iff in A. congruence.
  Qed.
  (** drawn into a figure *)
  Lemma overlay_spec td f cs colour name max_pts : recording max_pts td -> (length cs <= length (fg_titles f))%nat ->
    exists new, time_plot rnd nt ndl b32 lttbc ycast lm td (Some f) (Some cs) colour name max_pts = Ok (mkFigure (fg_titles f) (fg_curves f ++ new)) /\
      Forall2 (fun ic cv => cv_row cv = Z.of_nat (fst ic) + 1 /\ cv_name cv = name /\ cv_colour cv = colour /\ cv_legend cv = Nat.eqb (fst ic) 0 /\ shows_chan rnd nt ndl ycast max_pts td (snd ic) cv)
        (drawn_from 0 td cs) new.
  Proof.
    intros R L. unfold time_plot. cbn [bind]. rewrite arange_seq. destruct (plot_chans_spec td (Z.of_nat (length (fg_titles f))) name colour max_pts cs R 0%nat ltac:(lia)) as (l & E & F).
    rewrite E. cbn [bind]. exists (somes l). split; [reflexivity|exact F].
  Qed.
  Lemma fresh_spec td cs colour name max_pts : recording max_pts td -> described td -> incl cs (chans (meta td)) -> incl (chans (meta td)) cs ->
    (length cs <= length (chans (meta td)))%nat ->
    exists new, time_plot rnd nt ndl b32 lttbc ycast lm td None (Some cs) colour name max_pts = Ok (mkFigure (chans (meta td)) new) /\
      Forall2 (fun ic cv => cv_row cv = Z.of_nat (fst ic) + 1 /\ cv_name cv = name /\ cv_colour cv = colour /\ cv_legend cv = Nat.eqb (fst ic) 0 /\ shows_chan rnd nt ndl ycast max_pts td (snd ic) cv)
        (combine (seq 0 (length cs)) cs) new.
  Proof.
    intros R D I I' L. unfold time_plot. replace (forallb _ cs) with true.
    2:{ symmetry. apply forallb_forall. intros c Hc. destruct (D c (I c Hc)) as (m & ->). reflexivity. }
    unfold get_time_fig. destruct (chans (meta td)) as [|c0 ct] eqn:EC; [destruct R as (NE & _); congruence|]. rewrite <- EC in *.
    replace (forallb _ (chans (meta td))) with true. 2:{ symmetry. apply forallb_forall. intros c Hc. apply chan_in_iff. exact (I' c Hc). }
    cbn [bind fg_titles fg_curves]. rewrite arange_seq. destruct (plot_chans_spec td (Z.of_nat (length (chans (meta td)))) name colour max_pts cs R 0%nat ltac:(unfold chan in *; lia)) as (l & E & F).
    rewrite E. cbn [bind app]. exists (somes l). split; [reflexivity|]. rewrite drawn_from_all in F by exact I. exact F.
  Qed.
  Lemma default_is_all td colour name max_pts : time_plot rnd nt ndl b32 lttbc ycast lm td None None colour name max_pts =
    time_plot rnd nt ndl b32 lttbc ycast lm td None (Some (chans (meta td))) colour name max_pts.
  Proof. reflexivity. Qed.
  Lemma nth_combine_seq {A} (l : list A) i c : nth_error l i = Some c -> nth_error (combine (seq 0 (length l)) l) i = Some (i, c).
  Proof.
    intros H. apply nth_combine. split; [|exact H]. assert (i < length l)%nat by (apply nth_error_Some; congruence). rewrite (nth_error_nth' _ 0%nat) by (rewrite seq_length; lia). rewrite seq_nth by lia. reflexivity.
  Qed.
  Lemma omitted_spec td cs colour name max_pts c : In c (chans (meta td)) -> ~ In c cs ->
    time_plot rnd nt ndl b32 lttbc ycast lm td None (Some cs) colour name max_pts = Err KeyError.
  Proof.
    intros I N. unfold time_plot. destruct (forallb _ cs); [|reflexivity]. unfold get_time_fig. destruct (chans (meta td)) as [|c0 ct] eqn:EC; [contradiction|]. rewrite <- EC in *.
    replace (forallb _ (chans (meta td))) with false; [reflexivity|]. symmetry. apply not_true_is_false. intros H. rewrite forallb_forall in H. specialize (H c I). apply chan_in_iff in H. contradiction.
  Qed.

  (** ** decimated data *)
  Lemma level_td_spec d dt l m x max_pts : dd_chans d <> [] -> NoDup (dd_chans d) -> decimated_level max_pts d l m x ->
    exists td, level_time_data d dt l = Ok td /\ recording max_pts td /\ chans (meta td) = dd_chans d /\ fs (meta td) = lm_fs m /\
      forall c cv, shows_chan rnd nt ndl ycast max_pts td c cv -> shows_level rnd nt ndl ycast max_pts d l x c cv.
  Proof.
    intros NE ND (L & M & X & LX & F & R). unfold level_time_data. rewrite Spectra.py_nth_nat by lia. rewrite M, X. eexists. split; [reflexivity|]. cbn [meta chans fs].
    split; [split; [exact NE|split; [exact ND|split; [exact LX|split; [exact F|exact R]]]]|]. split; [reflexivity|]. split; [reflexivity|].
    intros c cv (i & row & ps & H1 & H2 & H3 & H4). exists i, row, ps. split; [exact H1|]. split; [exact H2|]. split; [exact H3|].
    clear -H4 L M. induction H4 as [|p t ps xs (all & A & B) FA IH]; constructor; [|exact IH]. exists all. split; [|exact B].
    unfold dec_timestamps. destruct (Z.geb_spec l (dd_n_levels d)); [lia|]. rewrite Spectra.py_nth_nat by lia. rewrite M. exact A.
  Qed.
  Lemma plot_levels_spec d dt max_pts : dd_chans d <> [] -> NoDup (dd_chans d) -> forall levels f, fg_titles f = dd_chans d ->
    (forall l, In l levels -> l < 10 /\ exists m x, decimated_level max_pts d l m x) ->
    exists css, plot_levels rnd nt ndl b32 lttbc ycast lm d dt max_pts levels f = Ok (mkFigure (dd_chans d) (fg_curves f ++ concat css)) /\
      Forall2 (fun l cs => forall m x, decimated_level max_pts d l m x -> Forall2 (fun ic cv => cv_row cv = Z.of_nat (fst ic) + 1 /\ cv_name cv = CLevel l (lm_fs m) /\ cv_colour cv = inr l /\
          cv_legend cv = Nat.eqb (fst ic) 0 /\ shows_level rnd nt ndl ycast max_pts d l x (snd ic) cv)
        (combine (seq 0 (length (dd_chans d))) (dd_chans d)) cs) levels css.
  Proof.
    intros NE ND. induction levels as [|l levels IH]; intros f T H.
    - exists []. cbn. rewrite app_nil_r. rewrite <- T. destruct f; split; [reflexivity|constructor].
    - destruct (H l (or_introl eq_refl)) as (L10 & m & x & D). destruct (level_td_spec d dt l m x max_pts NE ND D) as (td & E & R & C & FS & S). cbn [plot_levels]. rewrite E. cbn [bind].
      unfold next_colour, n_colours. destruct (Z.ltb_spec l 10); [|lia]. cbn [bind].
      destruct (overlay_spec td f (dd_chans d) (inr l) (CLevel l (fs (meta td))) max_pts R ltac:(rewrite T; lia)) as (new & E1 & F1). rewrite E1. cbn [bind].
      destruct (IH (mkFigure (fg_titles f) (fg_curves f ++ new)) T) as (css & E2 & F2); [intros; apply H; right; assumption|]. exists (new :: css). rewrite E2. cbn [fg_curves concat]. rewrite app_assoc. split; [reflexivity|].
      constructor; [|exact F2]. intros m' x' D'. assert (m' = m /\ x' = x) as [-> ->].
      { destruct D as (_ & A & B & _). destruct D' as (_ & A' & B' & _). split; congruence. }
      rewrite drawn_from_all in F1 by (rewrite C; apply incl_refl). rewrite FS in F1. clear -F1 S. induction F1 as [|ic cv ics cvs (A1 & A2 & A3 & A4 & A5) F1 IH]; constructor; [|exact IH].
      repeat (split; [assumption|]). exact (S _ _ A5).
  Qed.
  Lemma dec_plot_spec d dt max_pts : dd_chans d <> [] -> NoDup (dd_chans d) -> dd_n_levels d <= 10 ->
    (forall l, 0 <= l < dd_n_levels d -> exists m x, decimated_level max_pts d l m x) ->
    exists css, dec_plot rnd nt ndl b32 lttbc ycast lm d dt max_pts = Ok (mkFigure (dd_chans d) (concat css)) /\ Z.of_nat (length css) = Z.max 0 (dd_n_levels d) /\
      forall l cs m x, nth_error css l = Some cs -> decimated_level max_pts d (Z.of_nat l) m x -> length cs = length (dd_chans d) /\
        forall i c cv, nth_error cs i = Some cv -> nth_error (dd_chans d) i = Some c -> cv_row cv = Z.of_nat i + 1 /\ cv_name cv = CLevel (Z.of_nat l) (lm_fs m) /\ cv_colour cv = inr (Z.of_nat l) /\
          shows_level rnd nt ndl ycast max_pts d (Z.of_nat l) x c cv.
  Proof.
    intros NE ND N H. unfold dec_plot, get_time_fig. destruct (dd_chans d) as [|c0 ct] eqn:EC; [congruence|]. rewrite <- EC in *.
    replace (forallb _ (dd_chans d)) with true by (symmetry; apply forallb_forall; intros c Hc; apply chan_in_iff; exact Hc). cbn [bind].
    destruct (plot_levels_spec d dt max_pts NE ND (arange (dd_n_levels d)) (mkFigure (dd_chans d) []) eq_refl) as (css & E & F).
    { intros l Hl. apply arange_in in Hl. split; [lia|exact (H l Hl)]. }
    exists css. split; [exact E|]. split; [rewrite <- (Forall2_length' _ _ _ F), arange_length; lia|]. intros l cs m x Hl D.
    assert (HL : (l < Z.to_nat (dd_n_levels d))%nat) by (destruct D as (D & _); lia).
    destruct (Forall2_nth_error _ _ _ l (Z.of_nat l) F) as (cs' & Hcs & G); [apply arange_nth; exact HL|]. rewrite Hl in Hcs. injection Hcs as <-. specialize (G m x D).
    split; [rewrite <- (Forall2_length' _ _ _ G), combine_length, seq_length; lia|]. intros i c cv Hcv Hc.
    destruct (Forall2_nth_error _ _ _ i (i, c) G) as (cv' & Hcv' & A1 & A2 & A3 & A4 & A5); [apply nth_combine_seq; exact Hc|]. rewrite Hcv in Hcv'. injection Hcv' as <-.
    split; [exact A1|]. split; [exact A2|]. split; [exact A3|exact A5].
  Qed.
  Lemma plot_levels_app d dt max_pts l1 : forall l2 f, plot_levels rnd nt ndl b32 lttbc ycast lm d dt max_pts (l1 ++ l2) f =
    bind (plot_levels rnd nt ndl b32 lttbc ycast lm d dt max_pts l1 f) (plot_levels rnd nt ndl b32 lttbc ycast lm d dt max_pts l2).
  Proof.
    induction l1 as [|l l1 IH]; intros l2 f; [reflexivity|]. cbn [app plot_levels]. destruct (level_time_data d dt l); [|reflexivity]. cbn [bind]. destruct (next_colour l); [|reflexivity]. cbn [bind].
    destruct (time_plot _ _ _ _ _ _ _ _ _ _ _ _ _); [|reflexivity]. cbn [bind]. apply IH.
  Qed.
  Lemma dec_plot_many d dt max_pts : dd_chans d <> [] -> NoDup (dd_chans d) -> 10 < dd_n_levels d ->
    (forall l, 0 <= l < dd_n_levels d -> exists m x, decimated_level max_pts d l m x) ->
    dec_plot rnd nt ndl b32 lttbc ycast lm d dt max_pts = Err StopIteration.
  Proof.
    intros NE ND N H. unfold dec_plot, get_time_fig. destruct (dd_chans d) as [|c0 ct] eqn:EC; [congruence|]. rewrite <- EC in *.
    replace (forallb _ (dd_chans d)) with true by (symmetry; apply forallb_forall; intros c Hc; apply chan_in_iff; exact Hc). cbn [bind].
    destruct (arange_split (dd_n_levels d) 10 ltac:(lia)) as (l2 & ->). rewrite plot_levels_app.
    destruct (plot_levels_spec d dt max_pts NE ND (arange 10) (mkFigure (dd_chans d) []) eq_refl) as (css & E & _).
    { intros l Hl. apply arange_in in Hl. split; [lia|apply H; lia]. }
    rewrite E. cbn [bind plot_levels]. destruct (H 10 ltac:(lia)) as (m & x & D). destruct (level_td_spec d dt 10 m x max_pts NE ND D) as (td & E' & _). rewrite E'. reflexivity.
  Qed.
End P.
