(** Model of the data shown by SpectraData.plot, plot_level_stack and plot_level_section (resistics/spectra.py 177-367).

    Simplifications: of a figure only the traces (position, points, legend, colour) are modelled, not the layout; legends
    are values, not text; means and logarithms are exact (np.absolute and np.log10 are parameters); a trace of not-a-number
    values is [None]; arrays with other than three axes (see C36) end in the IndexError of line 298. Durations and times of
    pandas are whole nanoseconds. pandas' Grouper is modelled for fixed frequencies (ticks). *)
From Coq Require Import String.
From Verif Require Import Base.Prelude Base.ListUtil Base.NdArray Base.Cplx Model.Sampling Model.Time Model.Decimate Model.Window
  Model.Spectra Model.Display.
Open Scope list_scope. Open Scope Z_scope.

Definition day_ns : Z := 86400000000000.
(** px.colors.qualitative.Plotly has ten colours; [next] of the exhausted iterator raises, 197 and 204, 253 and 257 *)
Definition n_colours : Z := 10.
Definition next_colour (k : Z) : res Z := if k <? n_colours then Ok k else Err StopIteration.

Inductive legend := LLevel (level : Z) (fs : Q) | LTime (t : Z).
Record trace := mkTrace { tr_row : Z; tr_x : list Q; tr_y : option (list Q); tr_legend : legend; tr_colour : Z; tr_show : bool }.

(** arrays with three axes *)
Fixpoint all_some {A} (l : list (option A)) : option (list A) :=
  match l with
  | [] => Some []
  | Some x :: t => option_map (cons x) (all_some t)
  | None :: _ => None
  end.
Definition as1 {A} (a : nd A) : option (list A) := match a with Ax l => scalars l | Sc _ => None end.
Definition as2 {A} (a : nd A) : option (list (list A)) := match a with Ax l => all_some (map as1 l) | Sc _ => None end.
Definition as3 {A} (a : nd A) : option (list (list (list A))) := match a with Ax l => all_some (map as2 l) | Sc _ => None end.

Fixpoint zip {A B C} (f : A -> B -> C) (a : list A) (b : list B) : list C :=
  match a, b with x :: s, y :: t => f x y :: zip f s t | _, _ => [] end.
(** np.mean(np.absolute(x), axis=0), 201 and 255: channels x frequencies; of no window: not a number *)
Definition mean_amplitude (cabs : cq -> Q) (x : list (list (list cq))) : option (list (list Q)) :=
  match map (map (map cabs)) x with
  | [] => None
  | w :: t => let n := inject_Z (Z.of_nat (length x)) in
              Some (map (map (fun s => s / n)%Q) (fold_left (zip (zip Qplus)) t w))
  end.

(** pandas: df.groupby(pd.Grouper(freq, offset)) for a sorted index: bins of length [freq] from the last multiple not
    after the first time, counted from midnight of the first day plus [offset]; bins without times are groups too.
    Each group has its label (the left edge) and positions. *)
Definition group_bins (freq offset : Z) (times : list Z) : res (list (Z * list Z)) :=
  if freq <=? 0 then Err ValueError else
  match times with
  | [] => Ok []
  | first :: _ =>
      let origin := first / day_ns * day_ns + offset in
      let edge := first - (first - origin) mod freq in
      let n_bins := (last times first - edge) / freq + 1 in
      Ok (map (fun i => let e := edge + i * freq in
                 (e, map fst (filter (fun kt : Z * Z => (e <=? snd kt) && (snd kt <? e + freq)) (combine (arange (Z.of_nat (length times))) times))))
              (arange n_bins))
  end.

Section Plots.
  Variable rnd : Q -> Q.
  Variable ns_time ns_delta : Q -> Z.
  Variable f32 : Q -> Q.                                            (* float64 to float32 *)
  Variable lttbc : list Q -> list Q -> Z -> res (list Q * list Q).  (* the package lttbc *)
  Variable ycast : Q -> Q.
  Variable cabs : cq -> Q.                                          (* np.absolute *)
  Variable log10 : Q -> Q.                                          (* np.log10 of a positive number *)

  (** _add_stack_data 261-309 *)
  Definition stack_trace (freqs : list Q) (lg : legend) (colour : Z) (max_pts : option Z) (idx : Z) (row : option (list Q)) : res trace :=
    match row with
    | None => Ok (mkTrace (idx + 1) freqs None lg colour (idx =? 0))
    | Some y =>
        '(indices, y') <- apply_lttb f32 lttbc ycast y max_pts ;;
        x <- mapM (fun i => match py_nth freqs i with Some f => Ok f | None => Err IndexError end) indices ;;
        Ok (mkTrace (idx + 1) x (Some y') lg colour (idx =? 0))
    end.
  Definition add_stack_data (freqs : list Q) (rows : list (option (list Q))) (lg : legend) (colour : Z) (max_pts : option Z) : res (list trace) :=
    mapM (fun ir : Z * option (list Q) => stack_trace freqs lg colour max_pts (fst ir) (snd ir)) (combine (arange (Z.of_nat (length rows))) rows).
  (** the rows of a stack: one per channel of the data *)
  Definition stack_rows (x ws : list (list (list cq))) : list (option (list Q)) :=
    match mean_amplitude cabs ws with
    | Some m => map Some m
    | None => map (fun _ => None) (match x with w :: _ => w | [] => [] end)
    end.
  Definition three (a : nd cq) : res (list (list (list cq))) := match as3 a with Some x => Ok x | None => Err IndexError end.

  (** SpectraData.plot 177-206 *)
  Definition plot_level (d : spec_data cq) (max_pts : option Z) (level : Z) : res (list trace) :=
    m <- sd_level_md d level ;;
    a <- sd_at d level ;;
    x <- three a ;;
    colour <- next_colour level ;;
    add_stack_data (sl_freqs m) (stack_rows x x) (LLevel level (sl_fs m)) colour max_pts.
  Definition plot (d : spec_data cq) (max_pts : option Z) : res (list trace) :=
    l <- mapM (plot_level d max_pts) (arange (sm_n_levels (sd_md d))) ;; Ok (concat l).

  (** floor("D") and ceil("D"), 240-241 *)
  Definition floor_day (t : Z) : Z := t / day_ns * day_ns.
  Definition ceil_day (t : Z) : Z := - (- t / day_ns) * day_ns.
  (** the windows of a group, self.data[level][group["local"]], 255 and 342 *)
  Definition pick_windows (x : list (list (list cq))) (is : list Z) : res (list (list (list cq))) :=
    mapM (fun i => match py_nth x i with Some w => Ok w | None => Err IndexError end) is.

  (** plot_level_stack 208-259 *)
  Definition plot_level_stack (d : spec_data cq) (level : Z) (max_pts : option Z) (grouping : option Z) (offset : Z) : res (list trace) :=
    let freq := match grouping with
                | Some g => g
                | None => ceil_day (ns_time (sm_last (sd_md d))) - floor_day (ns_time (sm_first (sd_md d)))
                end in
    m <- sd_level_md d level ;;
    times <- sd_get_timestamps rnd ns_time ns_delta d level ;;
    groups <- group_bins freq offset times ;;
    l <- mapM (fun kg : Z * (Z * list Z) =>
                 a <- sd_at d level ;;
                 x <- three a ;;
                 ws <- pick_windows x (snd (snd kg)) ;;
                 colour <- next_colour (fst kg) ;;
                 add_stack_data (sl_freqs m) (stack_rows x ws) (LTime (fst (snd kg))) colour max_pts)
              (combine (arange (Z.of_nat (length groups))) groups) ;;
    Ok (concat l).

  (** ** plot_level_section 311-367 *)
  Record heatmap := mkHeat { hm_row : Z; hm_x : list Z; hm_y : list Q; hm_z : list (list Q); hm_zmin : Z; hm_zmax : Z; hm_ticks : list Z }.
  (** one row of log10(df_data.values), 344-347; not a number, and the logarithm of zero, make np.arange raise in 350 *)
  Definition log_value (v : option Q) : res Q :=
    match v with Some v => if Qltb 0 v then Ok (log10 v) else Err ValueError | None => Err ValueError end.
  Definition qmins (l : list Q) (d : Q) : Q := fold_left (fun a b => if Qltb b a then b else a) l d.
  Definition qmaxs (l : list Q) (d : Q) : Q := fold_left (fun a b => if Qltb a b then b else a) l d.
  Definition channel_section (freqs : list Q) (freq : Z) (stacks : list (Z * option (list (list Q)))) (idx : nat) : res heatmap :=
    (* one column per group *)
    cols <- mapM (fun s : Z * option (list (list Q)) =>
                    match snd s with
                    | None => Ok (map (fun _ => None) freqs)
                    | Some m => match nth_error m idx with
                                | None => Err IndexError
                                | Some r => if Nat.eqb (length r) (length freqs) then Ok (map Some r) else Err ValueError
                                end
                    end) stacks ;;
    z <- mapM (fun i => mapM (fun c : list (option Q) => log_value (nth i c None)) cols) (seq 0 (length freqs)) ;;
    match concat z with
    | [] => Err ValueError
    | v :: t => let z_min := qceil (qmins t v) in let z_max := qfloor (qmaxs t v) in
                Ok (mkHeat (Z.of_nat idx + 1) (map (fun s => fst s + freq / 2) stacks) freqs z z_min z_max
                           (map (fun k => z_min + k) (arange (z_max + 1 - z_min))))
    end.
  Definition plot_level_section (d : spec_data cq) (level freq : Z) : res (list heatmap) :=
    m <- sd_level_md d level ;;
    times <- sd_get_timestamps rnd ns_time ns_delta d level ;;
    if (Z.of_nat (length (sm_chans (sd_md d))) =? 1) || (Z.of_nat (length (sm_chans (sd_md d))) =? 0) then Err ZeroDivisionError else
    groups <- group_bins freq 0 times ;;
    stacks <- mapM (fun g : Z * list Z =>
                      a <- sd_at d level ;; x <- three a ;; ws <- pick_windows x (snd g) ;; Ok (fst g, mean_amplitude cabs ws)) groups ;;
    mapM (channel_section (sl_freqs m) freq stacks) (seq 0 (length (sm_chans (sd_md d)))).
End Plots.
