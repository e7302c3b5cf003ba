(** Model of the tables of projects and decimation parameters: resistics/project.py 173-211 and 316-331, plot.py 85-130,
    decimate.py 318-329, gather.py 235-244.
    Simplifications: a table is the list of its rows (the index column, which repeats in the project's table, is dropped);
    colours, titles and layout of the timeline are dropped; astype(str) of the sampling frequencies only labels the bars. *)
From Coq Require Import String.
From Verif Require Import Base.Prelude Base.ListUtil Model.Sampling Model.Decimate Model.Gather Model.Project.
Open Scope list_scope. Open Scope Z_scope.

(** a row: name, fs, first_time, last_time (nanoseconds), site *)
Record trow := mkTRow { tr_name : string; tr_fs : Q; tr_first : Z; tr_last : Z; tr_site : string }.
(** the timeline: bars in order, x range, reference line *)
Record timeline := mkTimeline { tl_bars : list trow; tl_from : Z; tl_to : Z; tl_ref : option Z }.

Section Tables.
  Variable rnd : Q -> Q.
  Variable ns_time : Q -> Z.    (* pd.to_datetime(t.isoformat()) and to_timestamp(t), nanoseconds *)

  (** Site.to_dataframe, project.py 198-211 *)
  Definition site_table (s : psite) : list trow :=
    map (fun x : string * meas => let m := snd x in
           mkTRow (me_name m) (mm_fs (me_md m)) (ns_time (mm_first (me_md m))) (ns_time (mm_last (me_md m))) (st_name s)) (st_meas s).
  (** Project.to_dataframe 328-331 *)
  Definition project_table {M} (p : pproject M) : list trow := flat_map (fun x => site_table (snd x)) (pr_sites p).

  (** sort_values([y_col, "first_time"]), plot.py 120 *)
  Definition bar_leb (y : trow -> string) (a b : trow) : bool :=
    if String.eqb (y a) (y b) then tr_first a <=? tr_first b else String.leb (y a) (y b).
  Fixpoint insert_bar (y : trow -> string) (x : trow) (l : list trow) : list trow :=
    match l with [] => [x] | b :: t => if bar_leb y x b then x :: l else b :: insert_bar y x t end.
  Definition sort_bars (y : trow -> string) (l : list trow) : list trow := fold_right (insert_bar y) [] l.
  Definition min_of (x : Z) (l : list Z) : Z := fold_left Z.min l x.
  Definition max_of (x : Z) (l : list Z) : Z := fold_left Z.max l x.
  (** plot_timeline, plot.py 110-130; 0.1 * Timedelta truncates the float product to nanoseconds *)
  Definition plot_timeline (rows : list trow) (y : trow -> string) (ref : option Z) : res timeline :=
    match rows with
    | [] => Err ValueError
    | r :: t =>
      let lo := min_of (tr_first r) (map tr_first t) in
      let lo := match ref with Some x => if x <? lo then x else lo | None => lo end in
      let hi := max_of (tr_last r) (map tr_last t) in
      let pad := qtrunc (rnd (rnd (1 # 10) * rnd (inject_Z (hi - lo)))) in
      Ok (mkTimeline (sort_bars y rows) (lo - pad) (hi + pad) ref)
    end.
  (** Site.plot 175-180: the check 176-177 comes before plot_timeline *)
  Definition site_plot (s : psite) : res timeline := plot_timeline (site_table s) tr_name None.
  (** Project.plot 318-324 *)
  Definition project_plot {M} (ref : M -> Q) (p : pproject M) : res timeline := plot_timeline (project_table p) tr_site (Some (ns_time (ref (pr_md p)))).

  (** DecimationParameters.to_numpy, decimate.py 318-320: reshape *)
  Definition to_numpy (p : dec_params) : res (list (list Q)) :=
    if Z.of_nat (length (dp_eval_freqs p)) =? dp_n_levels p * dp_per_level p
    then Ok (map (fun l => slice (l * dp_per_level p) (l * dp_per_level p + dp_per_level p) (dp_eval_freqs p)) (arange (dp_n_levels p)))
    else Err ValueError.
  (** a column of another length than the table is refused *)
  Definition column {A} (n : nat) (l : list A) : res (list A) := if Nat.eqb (length l) n then Ok l else Err ValueError.
  (** to_dataframe 322-329: the rows *)
  Definition dec_table (p : dec_params) : res (list (list Q * (Q * (Z * Z)))) :=
    x <- to_numpy p ;;
    fs <- column (length x) (dp_dec_fs p) ;;
    fa <- column (length x) (dp_factors p) ;;
    inc <- column (length x) (dp_increments p) ;;
    Ok (combine x (combine fs (combine fa inc))).

  (** Selection.get_n_evals, gather.py 244 *)
  Definition get_n_evals (s : selection) : Z := sel_n_levels s * dp_per_level (sel_params s).
End Tables.
