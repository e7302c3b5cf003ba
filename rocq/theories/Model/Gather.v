(** Model of resistics/gather.py.

    Simplifications: a pandas Series is the list of its (index, value) pairs and a
    DataFrame the list of its rows, dtypes are not modelled; a project is the mapping of
    sites to their measurements, each with its sampling frequency and what reading its
    evals directory yields (metadata and data come from the same reading); no site is
    called "combined_index" (the code would overwrite its column); masks do nothing in
    the code (420-422); header fields copied from the first measurement are dropped. *)
From Coq Require Import String Ascii.
From Verif Require Import Base.Prelude Base.ListUtil Base.NdArray
  Model.Sampling Model.Time Model.Decimate Model.Window Model.Spectra Model.Calibrate.
Open Scope list_scope. Open Scope Z_scope.

(** ** sorted(list(set(...))) on strings (ASCII, code point order) *)
Definition str_leb (a b : string) : bool := String.leb a b.
Fixpoint insert_name (x : string) (l : list string) : list string :=
  match l with [] => [x] | y :: t => if str_leb x y then x :: l else y :: insert_name x t end.
Definition sort_names (l : list string) : list string := fold_right insert_name [] l.
Definition sorted_set (l : list string) : list string := sort_names (nodup string_dec l).

(** ** Windows of a site *)
Definition wins := list (Z * string).

(** level_wins[~index.duplicated(keep="first")] *)
Fixpoint dedupe (seen : list Z) (l : wins) : wins :=
  match l with
  | [] => []
  | (g, n) :: t => if existsb (Z.eqb g) seen then dedupe seen t else (g, n) :: dedupe (g :: seen) t
  end.
(** sort_index *)
Fixpoint insert_win (x : Z * string) (l : wins) : wins :=
  match l with [] => [x] | y :: t => if fst x <=? fst y then x :: l else y :: insert_win x t end.
Definition sort_wins (l : wins) : wins := fold_right insert_win [] l.

(** get_site_level_wins 153-163 *)
Definition level_md (md : spec_md) (level : Z) : res spec_level :=
  match py_nth (sm_levels md) level with Some m => Ok m | None => Err IndexError end.
Definition meas_wins (level : Z) (x : string * spec_md) : res wins :=
  if (level >=? sm_n_levels (snd x)) then Ok [] else
  m <- level_md (snd x) level ;;
  Ok (map (fun k => (sl_offset m + k, fst x)) (arange (sl_n_wins m))).
Definition level_wins (ms : list (string * spec_md)) (level : Z) : res wins :=
  l <- mapM (meas_wins level) ms ;;
  Ok (sort_wins (dedupe [] (concat l))).

(** max and min of a non-empty list *)
Definition zmax (l : list Z) : Z := match l with [] => 0 | x :: t => fold_left Z.max t x end.
Definition zmin (l : list Z) : Z := match l with [] => 0 | x :: t => fold_left Z.min t x end.

Section Gather.
  Variable A : Type.
  Definition site := list (string * (Q * res (spec_data A))).
  Definition project := list (string * site).

  (** proj[site_name], project.py 262-268 *)
  Definition get_site (proj : project) (name : string) : res site :=
    match find (fun s => String.eqb (fst s) name) proj with Some (_, s) => Ok s | None => Err SiteNotFoundError end.
  (** get_site_evals_metadata 72-87, with Site.get_measurements project.py 163-171 *)
  Definition evals_metadata (s : site) (fs : Q) : list (string * spec_md) :=
    flat_map (fun x : string * (Q * res (spec_data A)) =>
                if Qeq_bool (fst (snd x)) fs
                then match snd (snd x) with Ok d => [(fst x, sd_md d)] | Err _ => [] end
                else []) s.
  (** get_site_wins 194-203 *)
  Definition site_wins (proj : project) (name : string) (fs : Q) : res (list wins) :=
    s <- get_site proj name ;;
    let ms := evals_metadata s fs in
    if (Z.of_nat (length ms) =? 0) then Err ValueError else
    mapM (level_wins ms) (arange (zmax (map (fun x => sm_n_levels (snd x)) ms))).

  (** ** Selection 206-327: the columns of a table are the sites and one column per
      evaluation frequency, all True *)
  Record selection := mkSel {
    sel_sites : list string; sel_params : dec_params; sel_tables : list (list (Z * list string)) }.
  Definition sel_n_levels (s : selection) : Z := Z.of_nat (length (sel_tables s)).
  Definition sel_table (s : selection) (level : Z) : res (list (Z * list string)) :=
    match nth_error (sel_tables s) (Z.to_nat level) with
    | Some t => if (level <? 0) then Err KeyError else Ok t
    | None => Err KeyError
    end.
  (** level_table[eval_idx] *)
  Definition sel_has_eval (s : selection) (eval_idx : Z) : bool := (0 <=? eval_idx) && (eval_idx <? dp_per_level (sel_params s)).
  (** get_n_wins 267-271 *)
  Definition get_n_wins (s : selection) (level eval_idx : Z) : res Z :=
    if (level >=? sel_n_levels s) then Err ValueError else
    t <- sel_table s level ;;
    if sel_has_eval s eval_idx then Ok (Z.of_nat (length t)) else Err KeyError.
  (** get_eval_wins 324-327 *)
  Definition get_eval_wins (s : selection) (level eval_idx : Z) : res (list (Z * list string)) :=
    t <- sel_table s level ;;
    if sel_has_eval s eval_idx then Ok t else Err KeyError.
  (** the values of a site's column *)
  Definition col_of (s : selection) (site_name : string) : res nat :=
    match first_index site_name (sel_sites s) with Some i => Ok i | None => Err KeyError end.
  Definition in_col (i : nat) (r : Z * list string) : string := nth i (snd r) EmptyString.
  (** get_measurements 287-291 *)
  Definition sel_measurements (s : selection) (site_name : string) : res (list string) :=
    match sel_tables s with
    | [] => Ok []
    | _ => i <- col_of s site_name ;; Ok (sorted_set (map (in_col i) (concat (sel_tables s))))
    end.
  (** get_eval_freqs 302-305 *)
  Definition sel_eval_freqs (s : selection) : res (list Q) :=
    l <- mapM (level_eval_freqs (sel_params s)) (arange (sel_n_levels s)) ;; Ok (concat l).

  (** ** Selector.run 373-394 *)
  Definition find_win (w : wins) (g : Z) : option string :=
    match find (fun x => Z.eqb (fst x) g) w with Some (_, n) => Some n | None => None end.
  Fixpoint all_some {B} (l : list (option B)) : option (list B) :=
    match l with
    | [] => Some []
    | Some x :: t => option_map (cons x) (all_some t)
    | None :: _ => None
    end.
  (** DataFrame(data).dropna(): the rows whose index occurs in every series *)
  Definition join (ws : list wins) : list (Z * list string) :=
    match ws with
    | [] => []
    | w :: _ => flat_map (fun gn : Z * string => match all_some (map (fun w' => find_win w' (fst gn)) ws) with
                                                 | Some row => [(fst gn, row)]
                                                 | None => []
                                                 end) w
    end.
  Definition selector_run (proj : project) (site_names : list string) (p : dec_params) : res selection :=
    let names := sorted_set site_names in
    sw <- mapM (fun n => site_wins proj n (dp_fs p)) names ;;
    if (Z.of_nat (length sw) =? 0) then Err ValueError else
    let n_levels := zmin (map (fun w => Z.of_nat (length w)) sw) in
    let tables := map (fun l => join (map (fun w => nth (Z.to_nat l) w []) sw)) (arange n_levels) in
    _ <- mapM (get_site proj) names ;;
    Ok (mkSel names p tables).

  (** ** ProjectGather *)
  (** SiteCombinedData: channels, frequencies, number of evaluations, measurements, data *)
  Record combined := mkComb {
    cb_chans : list chan; cb_eval_freqs : list Q; cb_n_evals : Z; cb_meas : list string; cb_data : list (Z * list (list A)) }.
  Record gathered := mkGathered { g_out : combined; g_in : combined; g_cross : combined }.

  (** d[k] = v *)
  Definition dict_set {B} (k : Z) (v : B) (l : list (Z * B)) : list (Z * B) :=
    if existsb (fun kv => Z.eqb (fst kv) k) l then upd_key k v l else l ++ [(k, v)].

  (** np.empty: whatever is in memory *)
  Variable junk : Z -> nat -> nat -> list (list A).     (* key, rows, columns *)
  (** _get_empty_data 665-674 *)
  Definition empty_data (s : selection) (chans : list chan) : res (list (Z * list (list A))) :=
    let per_level := dp_per_level (sel_params s) in
    l <- mapM (fun li : Z * Z => n <- get_n_wins s (fst li) (snd li) ;;
                 let key := per_level * fst li + snd li in
                 Ok (key, junk key (Z.to_nat n) (length chans)))
           (list_prod (arange (sel_n_levels s)) (arange per_level)) ;;
    Ok (fold_left (fun d kv => dict_set (fst kv) (snd kv) d) l []).

  (** level_data[w, ..., ifreq] *)
  Definition row_at (x : nd A) (w ifreq : Z) : res (list A) :=
    match x with
    | Sc _ => Err IndexError
    | Ax ws => match py_nth ws w with
               | None => Err IndexError
               | Some win => y <- nd_last_at ifreq win ;;
                             match y with
                             | Ax l => match scalars l with Some v => Ok v | None => Err ValueError end
                             | Sc _ => Err ValueError
                             end
               end
    end.
  (** _get_indices 783-787: (row of the table, global index) pairs of the measurement *)
  Definition positions {B} (l : list B) : list (nat * B) := combine (seq 0 (length l)) l.
  Definition meas_rows (col : nat) (meas : string) (t : list (Z * list string)) : list (nat * Z) :=
    map (fun x : nat * (Z * list string) => (fst x, fst (snd x)))
        (filter (fun x => String.eqb (in_col col (snd x)) meas) (positions t)).
  (** data[key][combined_indices] = level_data[eval_data_indices, ..., ifreq] 723 *)
  Fixpoint assign_rows (x : nd A) (offset ifreq : Z) (rows : list (nat * Z)) (d : list (list A)) : res (list (list A)) :=
    match rows with
    | [] => Ok d
    | (r, g) :: rest => v <- row_at x (g - offset) ifreq ;; assign_rows x offset ifreq rest (upd_nth r v d)
    end.
  Fixpoint populate_freqs (s : selection) (col : nat) (meas : string) (ilevel : Z) (x : nd A) (m : spec_level)
    (ifreqs : list Z) (data : list (Z * list (list A))) : res (list (Z * list (list A))) :=
    match ifreqs with
    | [] => Ok data
    | ifreq :: rest =>
      t <- get_eval_wins s ilevel ifreq ;;
      let key := dp_per_level (sel_params s) * ilevel + ifreq in
      d <- dict_get key data ;;
      d' <- assign_rows x (sl_offset m) ifreq (meas_rows col meas t) d ;;
      populate_freqs s col meas ilevel x m rest (upd_key key d' data)
    end.
  (** _populate_data 711-724: the loop stops at the first level the measurement lacks *)
  Fixpoint populate (s : selection) (col : nat) (meas : string) (d : spec_data A) (chans : list chan)
    (levels : list Z) (data : list (Z * list (list A))) : res (list (Z * list (list A))) :=
    match levels with
    | [] => Ok data
    | ilevel :: rest =>
      if (ilevel >=? sm_n_levels (sd_md d)) then Ok data else
      x <- sd_get_chans d ilevel chans ;;
      m <- sd_level_md d ilevel ;;
      data' <- populate_freqs s col meas ilevel x m (arange (dp_per_level (sel_params s))) data ;;
      populate s col meas d chans rest data'
    end.
  (** SpectraDataReader().run(evals_path) 615-618 *)
  Definition read_evals (st : site) (meas : string) : res (spec_data A) :=
    match find (fun x => String.eqb (fst x) meas) st with Some (_, (_, r)) => r | None => Err ReadError end.
  Fixpoint populate_all (s : selection) (st : site) (col : nat) (chans : list chan) (meas : list string)
    (data : list (Z * list (list A))) : res (list (Z * list (list A))) :=
    match meas with
    | [] => Ok data
    | name :: rest =>
      d <- read_evals st name ;;
      data' <- populate s col name d chans (arange (sel_n_levels s)) data ;;
      populate_all s st col chans rest data'
    end.
  (** _get_site_data 609-639: without measurements the metadata are None (626 fails) *)
  Definition get_site_data (proj : project) (s : selection) (site_name : string) (chans : list chan) : res combined :=
    st <- get_site proj site_name ;;
    meas <- sel_measurements s site_name ;;
    data <- empty_data s chans ;;
    match meas with
    | [] => Err AttributeError
    | _ => col <- col_of s site_name ;;
           data' <- populate_all s st col chans meas data ;;
           freqs <- sel_eval_freqs s ;;
           Ok (mkComb chans freqs (Z.of_nat (length data')) meas data')
    end.
  (** the channels of a transfer function, transfunc.py *)
  Record tf_chans := mkTf { tf_out : list chan; tf_in : list chan; tf_cross : list chan }.
  (** run 561-576 *)
  Definition project_gather (proj : project) (s : selection) (tf : tf_chans) (out_name : string)
    (in_name cross_name : option string) : res gathered :=
    let in_name := match in_name with None => out_name | Some n => n end in
    let cross_name := match cross_name with None => in_name | Some n => n end in
    o <- get_site_data proj s out_name (tf_out tf) ;;
    i <- get_site_data proj s in_name (tf_in tf) ;;
    c <- get_site_data proj s cross_name (tf_cross tf) ;;
    Ok (mkGathered o i c).

  (** ** QuickGather 834-892 *)
  (** level[..., ifreq] as rows *)
  Definition as_rows (x : nd A) : res (list (list A)) :=
    match x with
    | Sc _ => Err IndexError
    | Ax l => mapM (fun r => match r with
                             | Ax v => match scalars v with Some w => Ok w | None => Err ValueError end
                             | Sc _ => Err ValueError
                             end) l
    end.
  Fixpoint quick_freqs (per_level ilevel : Z) (x : nd A) (ifreqs : list Z) (data : list (Z * list (list A))) : res (list (Z * list (list A))) :=
    match ifreqs with
    | [] => Ok data
    | ifreq :: rest =>
      y <- nd_last_at ifreq x ;; r <- as_rows y ;;
      quick_freqs per_level ilevel x rest (dict_set (per_level * ilevel + ifreq) r data)
    end.
  Fixpoint quick_levels (per_level : Z) (d : spec_data A) (chans : list chan) (levels : list Z) (data : list (Z * list (list A)))
    : res (list (Z * list (list A))) :=
    match levels with
    | [] => Ok data
    | l :: rest =>
      m <- sd_level_md d l ;;
      x <- sd_get_chans d l chans ;;
      data' <- quick_freqs per_level l x (arange (sl_n_freqs m)) data ;;
      quick_levels per_level d chans rest data'
    end.
  Definition quick_combined (meas : string) (p : dec_params) (d : spec_data A) (chans : list chan) : res combined :=
    let levels := arange (sm_n_levels (sd_md d)) in
    data <- quick_levels (dp_per_level p) d chans levels [] ;;
    ms <- mapM (sd_level_md d) levels ;;
    let freqs := concat (map sl_freqs ms) in
    Ok (mkComb chans freqs (Z.of_nat (length freqs)) [meas] data).
  Definition quick_gather (meas : string) (p : dec_params) (tf : tf_chans) (d : spec_data A) : res gathered :=
    o <- quick_combined meas p d (tf_out tf) ;;
    i <- quick_combined meas p d (tf_in tf) ;;
    c <- quick_combined meas p d (tf_cross tf) ;;
    Ok (mkGathered o i c).
End Gather.
Arguments get_site {A}. Arguments evals_metadata {A}. Arguments site_wins {A}. Arguments selector_run {A}.
Arguments row_at {A}. Arguments read_evals {A}. Arguments mkComb {A}. Arguments cb_chans {A}. Arguments cb_eval_freqs {A}.
Arguments cb_n_evals {A}. Arguments cb_meas {A}. Arguments cb_data {A}. Arguments mkGathered {A}. Arguments g_out {A}.
Arguments g_in {A}. Arguments g_cross {A}. Arguments empty_data {A}. Arguments assign_rows {A}. Arguments populate_freqs {A}.
Arguments populate {A}. Arguments populate_all {A}. Arguments get_site_data {A}. Arguments project_gather {A}.
Arguments as_rows {A}. Arguments quick_freqs {A}. Arguments quick_levels {A}. Arguments quick_combined {A}. Arguments quick_gather {A}.
