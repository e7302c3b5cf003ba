(** Model of the figures of time data: TimeData.plot (time.py 636-699), get_time_fig (plot.py 157-183) and
    DecimatedData.plot (decimate.py 666-703).

    Simplifications: of a figure the panel titles and the curves (row, points, legend, colour) are modelled; legends
    are values; plotly's limits on the number of panels (a spacing of 0.05 allows 21) are not modelled, its plain
    Exception for a panel that does not exist is RuntimeErr; downsampling data with missing values is a parameter;
    decimated data have metadata for all their channels (it is part of [dd_info]). *)
From Coq Require Import String.
From Verif Require Import Base.Prelude Base.ListUtil Base.NdArray Model.Sampling Model.Time Model.Decimate Model.Window Model.Timestamps Model.Display
  Model.SpectraPlot.
Open Scope list_scope. Open Scope Z_scope.

Inductive curve_name := CName (s : string) | CLevel (level : Z) (fs : Q).
Record curve := mkCurve { cv_row : Z; cv_x : list Z; cv_y : list cell; cv_name : curve_name; cv_colour : string + Z; cv_legend : bool }.
Record figure := mkFigure { fg_titles : list chan; fg_curves : list curve }.

(** get_time_fig, plot.py 157-183; [labelled] are the keys of y_axis_label; make_subplots needs a row *)
Definition get_time_fig (titles labelled : list chan) : res figure :=
  match titles with
  | [] => Err ValueError
  | _ => if forallb (fun c => chan_in c labelled) titles then Ok (mkFigure titles []) else Err KeyError
  end.

Section TimePlot.
  Variable rnd : Q -> Q.
  Variable ns_time ns_delta : Q -> Z.
  Variable f32 : Q -> Q.
  Variable lttbc : list Q -> list Q -> Z -> res (list Q * list Q).
  Variable ycast : Q -> Q.
  Variable lttb_missing : list cell -> Z -> res (list Z * list cell).   (* downsampling data with not-a-number values *)

  (** apply_lttb (plot.py 56-82) for the samples of a channel *)
  Definition chan_lttb (row : list cell) (max_pts : option Z) : res (list Z * list cell) :=
    match all_some row with
    | Some ys => '(is, ys') <- apply_lttb f32 lttbc ycast ys max_pts ;; Ok (is, map Some ys')
    | None =>
        match max_pts with
        | Some k => if k >=? Z.of_nat (length row) then Ok (arange (Z.of_nat (length row)), row) else lttb_missing row k
        | None => Ok (arange (Z.of_nat (length row)), row)
        end
    end.
  (** the body of the loop, time.py 685-698 *)
  Definition plot_chan (td : tdata) (n_rows : Z) (name : curve_name) (colour : string + Z) (max_pts : option Z) (ic : Z * chan) : res (option curve) :=
    let '(idx, c) := ic in
    if negb (chan_in c (chans (meta td))) then Ok None else
    row <- get_chan td c ;;
    '(is, ys) <- chan_lttb row max_pts ;;
    stamps <- time_timestamps rnd ns_time ns_delta td (Some is) true ;;
    match stamps with
    | High _ => Err TypeError
    | Estimated xs => if idx + 1 >? n_rows then Err RuntimeErr else Ok (Some (mkCurve (idx + 1) xs ys name colour (idx =? 0)))
    end.
  Fixpoint somes {A} (l : list (option A)) : list A := match l with [] => [] | Some x :: t => x :: somes t | None :: t => somes t end.
  (** TimeData.plot, time.py 636-699 *)
  Definition time_plot (td : tdata) (fig : option figure) (cs : option (list chan)) (colour : string + Z) (name : curve_name) (max_pts : option Z) : res figure :=
    match fig, cs with
    | Some _, None => Err ValueError
    | _, _ =>
        let cs := match cs with Some l => l | None => chans (meta td) end in
        f <- match fig with
             | Some f => Ok f
             | None => if forallb (fun c => match lookup c (chans_md (meta td)) with Some _ => true | None => false end) cs
                       then get_time_fig (chans (meta td)) cs else Err KeyError
             end ;;
        l <- mapM (plot_chan td (Z.of_nat (length (fg_titles f))) name colour max_pts) (combine (arange (Z.of_nat (length cs))) cs) ;;
        Ok (mkFigure (fg_titles f) (fg_curves f ++ somes l))
    end.

  (** the time data of a level, decimate.py 695-698 *)
  Definition level_time_data (d : dec_data) (dt : string) (level : Z) : res tdata :=
    match py_nth (dd_levels_md d) level with
    | None => Err IndexError
    | Some m =>
        match find (fun kv => Z.eqb (fst kv) level) (dd_data d) with
        | None => Err KeyError
        | Some (_, x) => Ok (mkData (mkMeta (lm_fs m) (dd_chans d) (Z.of_nat (length (dd_chans d))) (lm_n_samples m) (lm_first m) (lm_last m)
                                            ""%string [] []) dt x)
        end
    end.
  Fixpoint plot_levels (d : dec_data) (dt : string) (max_pts : option Z) (levels : list Z) (f : figure) : res figure :=
    match levels with
    | [] => Ok f
    | l :: t =>
        td <- level_time_data d dt l ;;
        colour <- next_colour l ;;
        f <- time_plot td (Some f) (Some (dd_chans d)) (inr colour) (CLevel l (fs (meta td))) max_pts ;;
        plot_levels d dt max_pts t f
    end.
  (** DecimatedData.plot, decimate.py 666-703 *)
  Definition dec_plot (d : dec_data) (dt : string) (max_pts : option Z) : res figure :=
    f <- get_time_fig (dd_chans d) (dd_chans d) ;;
    plot_levels d dt max_pts (arange (dd_n_levels d)) f.
End TimePlot.
