(** Model of resistics/window.py (without plotting and file access).

    Simplifications: history messages are dropped; [np.arange(n)] is empty for
    n <= 0; pandas timestamps are whole nanoseconds, obtained from times and from
    periods in seconds by the parameters [ns_time] and [ns_delta]; pd.date_range with
    a negative number of periods raises. *)
From Coq Require Import String.
From Verif Require Import Base.Prelude Base.Rounding Base.ListUtil Base.NdArray Model.Sampling Model.Time Model.Decimate.
Open Scope Q_scope.

(** One row of the window table, window.py 691-698 *)
Record win_row := mkWinRow {
  wr_global : Z; wr_local : Z; wr_from : Z; wr_to : Z; wr_start : Z; wr_end : Z }.

(** WindowParameters, 702-772 *)
Record win_params := mkWinParams {
  wp_n_levels : Z; wp_min_n_wins : Z; wp_win_sizes : list Z; wp_olap_sizes : list Z }.

(** WindowSetup, 880-886 *)
Record win_setup := mkWinSetup {
  ws_min_size : Z; ws_min_olap : Z; ws_win_factor : Z; ws_olap_proportion : Q;
  ws_min_n_wins : Z; ws_win_sizes : option (list Z); ws_olap_sizes : option (list Z) }.

(** WindowedLevelMetadata, 1004-1016 *)
Record win_level := mkWinLevel {
  wl_fs : Q; wl_n_wins : Z; wl_win_size : Z; wl_olap_size : Z; wl_offset : Z }.

(** WindowedData with WindowedMetadata, 1023-1077 *)
Record win_data := mkWinData {
  wd_fs : list Q; wd_chans : list chan; wd_n_levels : Z; wd_first : time; wd_last : time;
  wd_info : string; wd_levels : list win_level; wd_ref : time; wd_history : list creator;
  wd_data : list (Z * nd cell) }.

(** WindowerTarget, 1449-1451 *)
Record win_target := mkWinTarget { wt_target : Z; wt_min_size : Z; wt_olap_proportion : Q }.

Section Window.
  Variable rnd : Q -> Q.
  Variable ns_time : Q -> Z.    (* pd.to_datetime(t.isoformat()), nanoseconds *)
  Variable ns_delta : Q -> Z.   (* pd.Timedelta(x, "s"), nanoseconds *)

  (** win_duration 148, inc_duration 185 (float(win_size - 1) is exact) *)
  Definition win_duration (win_size : Z) (fs : Q) : tdelta := period rnd fs * inject_Z (win_size - 1).
  Definition inc_duration (win_size olap_size : Z) (fs : Q) : tdelta := period rnd fs * inject_Z (win_size - olap_size).

  (** win_to_datetime 235 *)
  Definition win_to_datetime (ref_time : time) (global_win : Z) (increment : tdelta) : time :=
    ref_time + inject_Z global_win * increment.

  (** to_seconds added up, 352-356 *)
  Definition total_seconds (d : tdelta) : Q :=
    let '(days, remaining) := to_seconds rnd d in rnd (inject_Z days + remaining).

  (** datetime_to_win 346-367 *)
  Definition datetime_to_win (ref_time t : time) (increment : tdelta) (m : method) : res Z :=
    if Qltb t ref_time then Err ValueError else
    let increment_seconds := total_seconds increment in
    let delta := total_seconds (t - ref_time) in
    if Qeq_bool increment_seconds 0 then Err ZeroDivisionError else
    let n := rnd (delta / increment_seconds) in
    Ok (if q_is_integer n then qfloor n
        else match m with
             | Mfloor => qfloor n
             | Mceil => qceil n
             | Mround => qround n
             end).

  (** the loop 482-487 *)
  Fixpoint adjust_last (attempts : nat) (ref_time last_time : time) (increment duration : tdelta) (last_win : Z) : Z :=
    match attempts with
    | O => last_win
    | S k => if Qle_bool (win_to_datetime ref_time last_win increment + duration) last_time then last_win
             else adjust_last k ref_time last_time increment duration (last_win - 1)
    end.

  (** get_first_and_last_win 476-490; 1 / fs raises for fs = 0 *)
  Definition get_first_and_last_win (ref_time : time) (m : level_md) (win_size olap_size : Z) : res (Z * Z) :=
    if Qeq_bool (lm_fs m) 0 then Err ZeroDivisionError else
    let duration := win_duration win_size (lm_fs m) in
    let increment := inc_duration win_size olap_size (lm_fs m) in
    first_win <- datetime_to_win ref_time (lm_first m) increment Mceil ;;
    last_win <- datetime_to_win ref_time (lm_last m) increment Mfloor ;;
    let last_win := adjust_last 2 ref_time (lm_last m) increment duration last_win in
    if Qltb (lm_last m) (win_to_datetime ref_time last_win increment + duration) then Err ValueError
    else Ok (first_win, last_win).

  (** datetime_array_estimate, sampling.py 931-936 *)
  Definition datetime_array_estimate (first_time : time) (fs : Q) (n_samples : Z) : res (list Z) :=
    if Qeq_bool fs 0 then Err ZeroDivisionError
    else if (n_samples <? 0)%Z then Err OutOfBoundsDatetime
    else Ok (map (fun k => (ns_time first_time + k * ns_delta (rnd (1 / fs)))%Z) (arange n_samples)).

  (** get_win_starts 544-549 *)
  Definition get_win_starts (ref_time : time) (win_size olap_size : Z) (fs : Q) (n_wins index_offset : Z) : res (list Z) :=
    if Qeq_bool fs 0 then Err ZeroDivisionError else
    let increment := inc_duration win_size olap_size fs in
    let first_win_time := win_to_datetime ref_time index_offset increment in
    if (win_size - olap_size =? 0)%Z then Err ZeroDivisionError
    else datetime_array_estimate first_win_time (rnd (fs / inject_Z (win_size - olap_size))) n_wins.

  (** get_win_ends 598 *)
  Definition win_end_offset (win_size : Z) (fs : Q) : Z := ns_delta (rnd (inject_Z (win_size - 1) * rnd (1 / fs))).

  (** get_win_table 673-699 *)
  Definition get_win_table (ref_time : time) (m : level_md) (win_size olap_size : Z) : res (list win_row) :=
    let increment_size := (win_size - olap_size)%Z in
    let increment := inc_duration win_size olap_size (lm_fs m) in
    '(first_win, last_win) <- get_first_and_last_win ref_time m win_size olap_size ;;
    let first_win_time := win_to_datetime ref_time first_win increment in
    let n_wins := (last_win - first_win + 1)%Z in
    let first_sample := (to_n_samples rnd (first_win_time - lm_first m) (lm_fs m) Mfloor - 1)%Z in
    if (increment_size =? 0)%Z then Err ZeroDivisionError else
    starts <- datetime_array_estimate first_win_time (rnd (lm_fs m / inject_Z increment_size)) n_wins ;;
    Ok (map (fun is : Z * Z =>
               let '(i, s) := is in
               mkWinRow (first_win + i) i (first_sample + i * increment_size)
                        (first_sample + win_size - 1 + i * increment_size)
                        s (s + win_end_offset win_size (lm_fs m)))
            (combine (arange n_wins) starts)).

  (** WindowParameters.check_level 774-777, get_win_size 779-782, get_olap_size 784-787 *)
  Definition wp_level (p : win_params) (l : list Z) (level : Z) : res Z :=
    if (level <? 0)%Z || (level >=? wp_n_levels p)%Z then Err ValueError
    else match nth_error l (Z.to_nat level) with Some x => Ok x | None => Err IndexError end.

  (** WindowSetup._get_win_sizes 973-979; x // y of a float floors the quotient *)
  Definition setup_win_size (c : win_setup) (fs : Q) : res Z :=
    if (ws_win_factor c =? 0)%Z then Err ZeroDivisionError else
    let w := rnd (inject_Z (qfloor (fs / inject_Z (ws_win_factor c)))) in
    Ok (if Qltb w (inject_Z (ws_min_size c)) then ws_min_size c else qtrunc w).
  Definition setup_win_sizes (c : win_setup) (n_levels : Z) (dec_fs : list Q) : res (list Z) :=
    mapM (fun i => match nth_error dec_fs i with
                   | Some fs => setup_win_size c fs
                   | None => Err IndexError
                   end) (seq 0 (Z.to_nat n_levels)).
  (** _get_olap_sizes 995-1001 *)
  Definition setup_olap_size (c : win_setup) (win_size : Z) : Z :=
    let o := qtrunc (rnd (inject_Z win_size * ws_olap_proportion c)) in
    if (o <? ws_min_olap c)%Z then ws_min_olap c else o.
  (** lists that are too short are rejected, too long ones cut: 931-936, 943-948 *)
  Definition fit_levels (n_levels : Z) (l : list Z) : res (list Z) :=
    if (Z.of_nat (length l) <? n_levels)%Z then Err ValueError
    else if (Z.of_nat (length l) >? n_levels)%Z then py_slice 0 n_levels 1 l else Ok l.
  (** WindowSetup.run 926-955 *)
  Definition win_setup_run (c : win_setup) (n_levels : Z) (dec_fs : list Q) : res win_params :=
    win_sizes <- match ws_win_sizes c with
                 | None => setup_win_sizes c n_levels dec_fs
                 | Some l => Ok l
                 end ;;
    win_sizes <- fit_levels n_levels win_sizes ;;
    let olap_sizes := match ws_olap_sizes c with
                      | None => map (setup_olap_size c) win_sizes
                      | Some l => l
                      end in
    olap_sizes <- fit_levels n_levels olap_sizes ;;
    Ok (mkWinParams n_levels (ws_min_n_wins c) win_sizes olap_sizes).

  (** sliding_window_view(data, window_shape=(n_chans, win_size)) 1387-1389 *)
  Definition sliding_window_view (data : list (list cell)) (n_chans win_size : Z) : res (nd cell) :=
    let n_rows := Z.of_nat (length data) in
    if (win_size <? 0)%Z || (n_chans <? 0)%Z || (n_rows <? n_chans)%Z || (width data <? win_size)%Z then Err ValueError
    else Ok (Ax (map (fun r0 => Ax (map (fun s0 =>
                Ax (map (fun row => Ax (map Sc (slice s0 (s0 + win_size) row))) (slice r0 (r0 + n_chans) data)))
              (arange (width data - win_size + 1)))) (arange (n_rows - n_chans + 1)))).

  (** Windower._get_level_data 1382-1390 *)
  Definition get_level_data (data : list (list cell)) (table : list win_row) (n_chans win_size olap_size : Z) : res (nd cell) :=
    match table with
    | [] => Err KeyError
    | r :: _ =>
      let from_sample := wr_from r in
      let to_sample := wr_from (last table r) in
      v <- sliding_window_view data n_chans win_size ;;
      match squeeze v with
      | Sc _ => Err IndexError
      | Ax l => x <- py_slice from_sample (to_sample + 1) (win_size - olap_size) l ;; Ok (Ax x)
      end
    end.

  (** Windower._get_level_metadata 1400-1409 *)
  Definition get_level_metadata (m : level_md) (table : list win_row) (win_size olap_size : Z) : res win_level :=
    match nodup Z.eq_dec (map (fun r => wr_global r - wr_local r)%Z table) with
    | [off] => if (win_size <=? 0)%Z || (olap_size <=? 0)%Z then Err ValidationError
               else Ok (mkWinLevel (lm_fs m) (Z.of_nat (length table)) win_size olap_size off)
    | _ => Err ValueError
    end.

  (** The loop of Windower.run 1310-1346 and WindowerTarget.run 1463-1494. [sizes]
      gives window and overlap of a level; [check] is the comparison 1334-1338, absent
      in WindowerTarget. *)
  Fixpoint window_loop (sizes : Z -> level_md -> res (Z * Z)) (check : bool) (min_n_wins : Z)
    (ref_time : time) (d : dec_data) (levels : list Z) : res (list (Z * nd cell) * list win_level) :=
    match levels with
    | [] => Ok ([], [])
    | ilevel :: rest =>
      m <- match nth_error (dd_levels_md d) (Z.to_nat ilevel) with Some m => Ok m | None => Err IndexError end ;;
      '(win_size, olap_size) <- sizes ilevel m ;;
      table <- get_win_table ref_time m win_size olap_size ;;
      let n_wins := Z.of_nat (length table) in
      if (n_wins <? min_n_wins)%Z then Ok ([], [])
      else
        level_data <- get_level d ilevel ;;
        x <- get_level_data level_data table (Z.of_nat (length (dd_chans d))) win_size olap_size ;;
        k <- nd_len x ;;
        if check && negb (k =? n_wins)%Z then Err ProcessRunError
        else
          wl <- get_level_metadata m table win_size olap_size ;;
          '(xs, wls) <- window_loop sizes check min_n_wins ref_time d rest ;;
          Ok ((ilevel, x) :: xs, wl :: wls)
    end.

  (** _get_metadata 1411-1420 and WindowedData.__init__ 1075-1077 (data[0] is evaluated
      for the log message) *)
  Definition make_windowed (d : dec_data) (ref_time : time) (name : string)
    (data : list (Z * nd cell)) (levels : list win_level) : res win_data :=
    match data with
    | [] => Err KeyError
    | _ => Ok (mkWinData (dd_fs d) (dd_chans d) (Z.of_nat (length levels)) (dd_first d) (dd_last d)
                 (dd_info d) levels ref_time (dd_history d ++ [COther name]) data)
    end.

  (** Windower.run 1306-1351 *)
  Definition windower_run (ref_time : time) (p : win_params) (d : dec_data) : res win_data :=
    '(data, levels) <- window_loop
        (fun ilevel _ => w <- wp_level p (wp_win_sizes p) ilevel ;; o <- wp_level p (wp_olap_sizes p) ilevel ;; Ok (w, o))
        true (wp_min_n_wins p) ref_time d (arange (dd_n_levels d)) ;;
    make_windowed d ref_time "Windower" data levels.

  (** WindowerTarget._get_win_size 1528-1532 *)
  Definition target_win_size (c : win_target) (m : level_md) : res Z :=
    let den := rnd (rnd (1 - wt_olap_proportion c) * inject_Z (wt_target c)) in
    if Qeq_bool den 0 then Err ZeroDivisionError else
    let w := qfloor (rnd (inject_Z (lm_n_samples m) / den)) in
    Ok (if (w <? wt_min_size c)%Z then wt_min_size c else w).
  (** WindowerTarget.run 1459-1499; line 1495 stores the first time as reference time *)
  Definition windower_target_run (c : win_target) (ref_time : time) (p : win_params) (d : dec_data) : res win_data :=
    '(data, levels) <- window_loop
        (fun _ m => w <- target_win_size c m ;; Ok (w, qfloor (rnd (wt_olap_proportion c * inject_Z w))))
        false (wp_min_n_wins p) ref_time d (arange (dd_n_levels d)) ;;
    make_windowed d (dd_first d) "WindowerTarget" data levels.

  (** WindowedData.get_level 1098-1100 (a missing key raises) *)
  Definition wd_get_level (d : win_data) (level : Z) : res (nd cell) :=
    if (level >=? wd_n_levels d)%Z then Err ValueError
    else match find (fun kv => Z.eqb (fst kv) level) (wd_data d) with
         | Some (_, x) => Ok x
         | None => Err KeyError
         end.
  (** levels_metadata[level] *)
  Definition wd_level_md (d : win_data) (level : Z) : res win_level :=
    match py_nth (wd_levels d) level with Some m => Ok m | None => Err IndexError end.
  (** get_local 1123-1126 *)
  Definition get_local (d : win_data) (level local_win : Z) : res (nd cell) :=
    m <- wd_level_md d level ;;
    if (local_win <? 0)%Z || (local_win >=? wl_n_wins m)%Z then Err ValueError
    else x <- wd_get_level d level ;;
         match nd_nth x (Z.to_nat local_win) with Some y => Ok y | None => Err IndexError end.
  (** get_global 1144-1145: the offset is added *)
  Definition get_global (d : win_data) (level global_win : Z) : res (nd cell) :=
    m <- wd_level_md d level ;;
    get_local d level (global_win + wl_offset m).
  (** WindowedData.get_chan 1168-1173: list.index gives the first occurrence *)
  Fixpoint first_index (c : chan) (cs : list chan) : option nat :=
    match cs with
    | [] => None
    | x :: t => if String.eqb x c then Some 0%nat else option_map S (first_index c t)
    end.
  Definition wd_get_chan (d : win_data) (level : Z) (c : chan) : res (nd cell) :=
    match first_index c (wd_chans d) with
    | None => Err ChannelNotFoundError
    | Some i => x <- wd_get_level d level ;; nd_pick i x
    end.
End Window.
