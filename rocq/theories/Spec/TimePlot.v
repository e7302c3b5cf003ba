(** Specification vocabulary for the figures of time data (C90). *)
From Coq Require Import String.
From Verif Require Import Base.Prelude Base.B32 Base.ListUtil Base.NdArray Model.Sampling Model.Time Model.Decimate Model.Window Model.Timestamps Model.TimePlot
  Spec.Display.
Open Scope list_scope. Open Scope Z_scope.

(** the number of points is not limited, or the limit is not reached *)
Definition fits (max_pts : option Z) (n : nat) : Prop := match max_pts with Some k => Z.of_nat n <= k | None => True end.
(** what can be drawn: everything when it fits; else the limit must be accepted by the downsampling package, the indices
    exact in float32 and no value missing *)
Definition drawable (max_pts : option Z) (row : list cell) : Prop :=
  fits max_pts (length row) \/
  exists k, max_pts = Some k /\ 3 <= k /\ Z.of_nat (length row) <= 2 ^ 24 /\ ~ In None row.
(** the samples [ps] of a channel are drawn with the values [ys]: all samples when they fit, else a choice of as many as
    allowed with the first and the last, through float32 *)
Definition drawn (ycast : Q -> Q) (max_pts : option Z) (row : list cell) (ps : list nat) (ys : list cell) : Prop :=
  (fits max_pts (length row) /\ ps = seq 0 (length row) /\ ys = row) \/
  (exists k, max_pts = Some k /\ k < Z.of_nat (length row) /\ chosen (length row) (Z.to_nat k) ps /\
     Forall2 (fun p y => exists v, nth_error row p = Some (Some v) /\ y = Some (ycast (b32 v))) ps ys).
(** [stamp td p t]: get_timestamps() has the time [t] at sample [p] *)
Definition stamp (rnd : Q -> Q) (nt ndl : Q -> Z) (td : tdata) (p : nat) (t : Z) : Prop :=
  exists all, time_timestamps rnd nt ndl td None true = Ok (Estimated all) /\ nth_error all p = Some t.
(** the curve shows the samples of channel [c] at their times *)
Definition shows_chan (rnd : Q -> Q) (nt ndl : Q -> Z) (ycast : Q -> Q) (max_pts : option Z) (td : tdata) (c : chan) (cv : curve) : Prop :=
  exists i row ps, nth_error (chans (meta td)) i = Some c /\ nth_error (rows td) i = Some row /\
    drawn ycast max_pts row ps (cv_y cv) /\ Forall2 (stamp rnd nt ndl td) ps (cv_x cv).
(** the panel of a curve *)
Definition panel (f : figure) (cv : curve) : option chan := nth_error (fg_titles f) (Z.to_nat (cv_row cv - 1)).
(** a recording: distinct channels, a row of n_samples values for each, a positive sampling frequency *)
Definition recording (max_pts : option Z) (td : tdata) : Prop :=
  chans (meta td) <> [] /\ NoDup (chans (meta td)) /\ length (rows td) = length (chans (meta td)) /\ (0 < fs (meta td))%Q /\
  forall r, In r (rows td) -> Z.of_nat (length r) = n_samples (meta td) /\ drawable max_pts r.
(** metadata for every channel *)
Definition described (td : tdata) : Prop := forall c, In c (chans (meta td)) -> exists m, lookup c (chans_md (meta td)) = Some m.
(** likewise for a level of decimated data *)
Definition level_stamp (rnd : Q -> Q) (nt ndl : Q -> Z) (d : dec_data) (level : Z) (p : nat) (t : Z) : Prop :=
  exists all, dec_timestamps rnd nt ndl d level None true = Ok (Estimated all) /\ nth_error all p = Some t.
Definition shows_level (rnd : Q -> Q) (nt ndl : Q -> Z) (ycast : Q -> Q) (max_pts : option Z) (d : dec_data) (level : Z) (x : list (list cell)) (c : chan) (cv : curve) : Prop :=
  exists i row ps, nth_error (dd_chans d) i = Some c /\ nth_error x i = Some row /\
    drawn ycast max_pts row ps (cv_y cv) /\ Forall2 (level_stamp rnd nt ndl d level) ps (cv_x cv).
Definition decimated_level (max_pts : option Z) (d : dec_data) (level : Z) (m : level_md) (x : list (list cell)) : Prop :=
  0 <= level < dd_n_levels d /\ nth_error (dd_levels_md d) (Z.to_nat level) = Some m /\
  find (fun kv => Z.eqb (fst kv) level) (dd_data d) = Some (level, x) /\ length x = length (dd_chans d) /\ (0 < lm_fs m)%Q /\
  forall r, In r x -> Z.of_nat (length r) = lm_n_samples m /\ drawable max_pts r.
