(** Properties C30-C39: windows. [precise] covers exact arithmetic and, in binary64,
    sampling frequencies that are powers of two up to 128 Hz with sample aligned
    reference times. The theorems ending in _rounded hold in every correctly rounded
    arithmetic, for recordings of up to 2^47 samples after the reference time, with
    tolerances of a quarter of a sample; [period rnd fs] is the sample period of the code. *)
From Coq Require Import String.
From Verif Require Import Base.Prelude Base.Rounding Base.ListUtil Base.NdArray Model.Sampling Model.Time Model.Decimate Model.Window
  Spec.Sampling Spec.Window Proofs.Window Proofs.WindowTable Proofs.WindowRun Proofs.WindowFinal Proofs.WindowFloat Proofs.WindowMore Proofs.WindowTarget Proofs.ToyWin.
Open Scope Q_scope.

Ltac precise_b64 p k := right; split; [reflexivity|exists p, k; repeat split; vm_compute; try reflexivity; discriminate].
Ltac recorded_b64 := repeat split; vm_compute; try reflexivity; discriminate.

(** ** C30 *)
Theorem C30_windows_inside_data : forall rnd nt ndl ref m w o table,
  recorded rnd m -> precise rnd ref m -> ref <= lm_first m -> (0 <= o < w)%Z -> (w <= 2 ^ 52)%Z ->
  get_win_table rnd nt ndl ref m w o = Ok table ->
  exists g0 s0, forall i r, nth_error table i = Some r ->
    wr_local r = Z.of_nat i /\ wr_global r = (g0 + Z.of_nat i)%Z /\ wr_from r = (s0 + Z.of_nat i * (w - o))%Z /\
    (0 <= wr_from r)%Z /\ wr_to r = (wr_from r + w - 1)%Z /\ (wr_to r <= lm_n_samples m - 1)%Z.
Proof. exact c30. Qed.
Print Assumptions C30_windows_inside_data.
(** every correctly rounded arithmetic: the rows advance by the increment, no window leaves the end of the
    data, and none starts before the data unless the first one starts within a quarter sample of it: then
    by one sample *)
Theorem C30_windows_inside_data_rounded : forall rnd nt ndl ref m w o table,
  good_rnd rnd -> sampled rnd m -> ref <= lm_first m -> (0 <= o < w)%Z -> (w <= 1000000)%Z ->
  lm_last m <= stamp ref (period rnd (lm_fs m)) (2 ^ 47) ->
  get_win_table rnd nt ndl ref m w o = Ok table ->
  exists g0 s0, forall i r, nth_error table i = Some r ->
    wr_local r = Z.of_nat i /\ wr_global r = (g0 + Z.of_nat i)%Z /\ wr_from r = (s0 + Z.of_nat i * (w - o))%Z /\
    (-1 <= wr_from r)%Z /\ wr_to r = (wr_from r + w - 1)%Z /\ (wr_to r <= lm_n_samples m - 1)%Z /\
    (lm_first m + (1 # 4) * period rnd (lm_fs m) <= stamp ref (period rnd (lm_fs m)) (g0 * (w - o)) -> (0 <= wr_from r)%Z).
Proof.
  intros rnd nt ndl ref m w o table G SM RF WO WB LB HT.
  destruct (wf_table rnd ref m w o G SM RF WO LB nt ndl table HT) as (l & _ & _ & K).
  exists (wf_f rnd ref m w o), (wf_s0 rnd ref m w o). intros i r Hr.
  destruct (K i r Hr) as (K1 & K2 & _ & K4 & K5). destruct (wf_rows rnd ref m w o G SM RF WO WB LB nt ndl table HT i r Hr) as (_ & _ & A & B & C).
  repeat split; assumption.
Qed.
Print Assumptions C30_windows_inside_data_rounded.
Example C30_rounded_ex : sampled b64 (lev 50 (1728 # 100) 1000) /\ lm_last (lev 50 (1728 # 100) 1000) <= stamp 0 (period b64 50) (2 ^ 47) /\
  exists table r, get_win_table b64 nanos nanos 0 (lev 50 (1728 # 100) 1000) 128 32 = Ok table /\ nth_error table 2 = Some r /\
  wr_global r = 12%Z /\ wr_from r = 288%Z /\ wr_to r = 415%Z.
Proof.
  split; [repeat split; vm_compute; try reflexivity; discriminate|]. split; [vm_compute; discriminate|].
  eexists _, _. split; [vm_compute; reflexivity|]. split; [reflexivity|]. repeat split.
Qed.
(** binary64, 128 Hz, recording starting 1 ns after window 100000000 (three years after
    the reference time): the first window starts at sample -1, and windowing fails *)
Theorem C30_windows_inside_data_refuted :
  let m := lev 128 (100000000000000001 # 1000000000) 1000 in
  recorded b64 m /\ 0 <= lm_first m /\
  (exists table r, get_win_table b64 nanos nanos 0 m 256 128 = Ok table /\ nth_error table 0 = Some r /\ wr_from r = (-1)%Z) /\
  windower_run b64 nanos nanos 0 (mkWinParams 1 5 [256]%Z [128]%Z) (toyW ["Ex"; "Hy"]%string [m]) = Err ProcessRunError.
Proof.
  repeat split; try (vm_compute; try reflexivity; discriminate).
  eexists. eexists. split; [vm_compute; reflexivity|]. split; [reflexivity|]. reflexivity.
Qed.
Print Assumptions C30_windows_inside_data_refuted.
Example C30_ex : recorded b64 (lev 128 (5#1) 1000) /\ precise b64 1 (lev 128 (5#1) 1000) /\
  exists table r, get_win_table b64 nanos nanos 1 (lev 128 (5#1) 1000) 256 64 = Ok table /\ length table = 4%nat /\
  nth_error table 1 = Some r /\ wr_global r = 4%Z /\ wr_from r = 256%Z /\ wr_to r = 511%Z.
Proof.
  split; [recorded_b64|]. split; [precise_b64 7%Z 512%Z|]. eexists. eexists. split; [vm_compute; reflexivity|]. repeat split.
Qed.

(** ** C31 *)
Theorem C31_global_index_time : forall rnd nt ndl ref m w o table i r,
  recorded rnd m -> precise rnd ref m -> ref <= lm_first m -> (0 <= o < w)%Z -> (w <= 2 ^ 52)%Z ->
  get_win_table rnd nt ndl ref m w o = Ok table -> nth_error table i = Some r ->
  let t := stamp (lm_first m) (1 / lm_fs m) (wr_from r) in
  let s := window_start ref (lm_fs m) w o (wr_global r) in
  s - 1 / lm_fs m < t /\ t <= s /\
  ((exists k, lm_first m - ref == inject_Z k / lm_fs m) -> t == s).
Proof. exact c31. Qed.
Print Assumptions C31_global_index_time.
(** every correctly rounded arithmetic: row and global index agree up to a sample and a quarter; so equal
    global indices of two recordings are at most one and a half samples apart in time *)
Theorem C31_global_index_time_rounded : forall rnd nt ndl ref m w o table i r,
  good_rnd rnd -> sampled rnd m -> ref <= lm_first m -> (0 <= o < w)%Z -> (w <= 1000000)%Z ->
  lm_last m <= stamp ref (period rnd (lm_fs m)) (2 ^ 47) ->
  get_win_table rnd nt ndl ref m w o = Ok table -> nth_error table i = Some r ->
  let T := period rnd (lm_fs m) in
  let t := stamp (lm_first m) T (wr_from r) in
  let s := stamp ref T (wr_global r * (w - o)) in
  s - (5 # 4) * T < t /\ t <= s + (1 # 4) * T.
Proof.
  intros rnd nt ndl ref m w o table i r G SM RF WO WB LB HT Hr.
  destruct (wf_rows rnd ref m w o G SM RF WO WB LB nt ndl table HT i r Hr) as (A & B & _). split; assumption.
Qed.
Print Assumptions C31_global_index_time_rounded.
(** the same global window of two recordings with the same sampling frequency *)
Theorem C31_same_window_two_recordings : forall rnd nt ndl ref m m' w o table table' i i' r r',
  good_rnd rnd -> sampled rnd m -> sampled rnd m' -> lm_fs m = lm_fs m' -> ref <= lm_first m -> ref <= lm_first m' -> (0 <= o < w)%Z -> (w <= 1000000)%Z ->
  lm_last m <= stamp ref (period rnd (lm_fs m)) (2 ^ 47) -> lm_last m' <= stamp ref (period rnd (lm_fs m)) (2 ^ 47) ->
  get_win_table rnd nt ndl ref m w o = Ok table -> get_win_table rnd nt ndl ref m' w o = Ok table' ->
  nth_error table i = Some r -> nth_error table' i' = Some r' -> wr_global r = wr_global r' ->
  let T := period rnd (lm_fs m) in
  Qabs (stamp (lm_first m) T (wr_from r) - stamp (lm_first m') T (wr_from r')) < (3 # 2) * T.
Proof.
  intros rnd nt ndl ref m m' w o table table' i i' r r' G SM SM' EF RF RF' WO WB LB LB' HT HT' Hr Hr' EG T. unfold T.
  pose proof (C31_global_index_time_rounded rnd nt ndl ref m w o table i r G SM RF WO WB LB HT Hr) as A. cbv zeta in A.
  rewrite EF in LB'. pose proof (C31_global_index_time_rounded rnd nt ndl ref m' w o table' i' r' G SM' RF' WO WB LB' HT' Hr') as B. cbv zeta in B.
  rewrite <- EF, <- EG in B. apply Qabs_case; intros; lra.
Qed.
Print Assumptions C31_same_window_two_recordings.
(** two recordings with the same global window *)
Example C31_ex : exists t1 t2 r1 r2,
  get_win_table b64 nanos nanos 1 (lev 128 5 1000) 256 64 = Ok t1 /\
  get_win_table b64 nanos nanos 1 (lev 128 6 1000) 256 64 = Ok t2 /\
  nth_error t1 1 = Some r1 /\ nth_error t2 0 = Some r2 /\ wr_global r1 = wr_global r2 /\
  stamp 5 (1 / 128) (wr_from r1) == 7 /\ stamp 6 (1 / 128) (wr_from r2) == 7.
Proof. do 4 eexists. split; [vm_compute; reflexivity|]. split; [vm_compute; reflexivity|]. repeat split; vm_compute; reflexivity. Qed.

(** the times in the window table, in nanoseconds: window [g] starts and ends where its index says, up to one
    nanosecond per row and the error of double precision *)
Theorem C31_table_times : forall rnd nt ndl ref m w o table i r,
  good_rnd rnd -> near_ns nt -> near_ns ndl -> 0 < lm_fs m -> period rnd (lm_fs m) == 1 / lm_fs m -> (0 <= o < w)%Z ->
  get_win_table rnd nt ndl ref m w o = Ok table -> nth_error table i = Some r ->
  Qabs (inject_Z (wr_start r) - 1000000000 * window_start ref (lm_fs m) w o (wr_global r))
    <= 1 + inject_Z (Z.of_nat i) * (1 + ns_eps * (inject_Z (w - o) / lm_fs m)) /\
  Qabs (inject_Z (wr_end r - wr_start r) - 1000000000 * (inject_Z (w - 1) / lm_fs m)) <= 1 + ns_eps * (inject_Z (w - 1) / lm_fs m).
Proof. exact c31_times. Qed.
Print Assumptions C31_table_times.
Lemma nanos_near : near_ns nanos.
Proof.
  intros x. unfold nanos. change (inject_Z 1000000000) with (1000000000 : Q). destruct (qfloor_spec (x * 1000000000)) as [A B]. apply Qabs_Qle_condition. lra.
Qed.
Example C31_table_times_ex : near_ns nanos /\ good_rnd b64 /\ period b64 128 == 1 / 128 /\ exists t r,
  get_win_table b64 nanos nanos 1 (lev 128 5 1000) 256 64 = Ok t /\ nth_error t 1 = Some r /\ wr_start r = 7000000000%Z /\ wr_end r = 8992187500%Z.
Proof.
  split; [exact nanos_near|]. split; [exact b64_good|]. split; [vm_compute; reflexivity|]. eexists _, _.
  split; [vm_compute; reflexivity|]. split; [reflexivity|]. split; reflexivity.
Qed.

(** ** C32 *)
Theorem C32_exactly_the_complete_windows : forall rnd ref m w o f l,
  recorded rnd m -> precise rnd ref m -> ref <= lm_first m -> (0 <= o < w)%Z -> (w <= 2 ^ 52)%Z ->
  get_first_and_last_win rnd ref m w o = Ok (f, l) ->
  forall g, fits ref m w o g <-> (f <= g <= l)%Z.
Proof. exact c32. Qed.
Print Assumptions C32_exactly_the_complete_windows.
(** and the table has a row for each of them *)
Theorem C32_table_complete : forall rnd nt ndl ref m w o table,
  recorded rnd m -> precise rnd ref m -> ref <= lm_first m -> (0 <= o < w)%Z -> (w <= 2 ^ 52)%Z ->
  get_win_table rnd nt ndl ref m w o = Ok table -> forall g, fits ref m w o g <-> In g (map wr_global table).
Proof.
  intros rnd nt ndl ref m w o table H1 H2 H3 H4 H5 H6 g. destruct (table_globals _ _ _ _ _ _ _ _ H6) as (f & l & E & K).
  rewrite K. exact (c32 rnd ref m w o f l H1 H2 H3 H4 H5 E g).
Qed.
Print Assumptions C32_table_complete.
(** every correctly rounded arithmetic: at the end of the recording exactly the complete windows; at the start
    every window that starts a quarter sample after the first sample or later, and none that starts more than a
    quarter sample before it *)
Theorem C32_complete_windows_rounded : forall rnd ref m w o f l,
  good_rnd rnd -> sampled rnd m -> ref <= lm_first m -> (0 <= o < w)%Z -> 
  lm_last m <= stamp ref (period rnd (lm_fs m)) (2 ^ 47) ->
  get_first_and_last_win rnd ref m w o = Ok (f, l) ->
  let T := period rnd (lm_fs m) in
  let start g := stamp ref T (g * (w - o)) in let finish g := stamp ref T (g * (w - o) + (w - 1)) in
  (forall g, (f <= g)%Z -> lm_first m <= start g + (1 # 4) * T) /\
  (forall g, lm_first m + (1 # 4) * T <= start g -> (f <= g)%Z) /\
  (forall g, (g <= l)%Z -> finish g <= lm_last m) /\
  ((2 <= w)%Z -> forall g, finish g <= lm_last m -> (g <= l)%Z).
Proof. intros rnd ref m w o f l G SM RF WO LB H. exact (wf_complete rnd ref m w o G SM RF WO LB f l H). Qed.
Print Assumptions C32_complete_windows_rounded.
(** any rounding: the last window is complete, the first at most one away *)
Theorem C32_last_window_complete : forall rnd ref m w o f l, get_first_and_last_win rnd ref m w o = Ok (f, l) ->
  win_to_datetime ref l (inc_duration rnd w o (lm_fs m)) + win_duration rnd w (lm_fs m) <= lm_last m.
Proof. exact c32_complete. Qed.
Print Assumptions C32_last_window_complete.
Theorem C32_first_window_within_one : forall rnd ref m w o f l, good_rnd rnd -> 0 < inc_duration rnd w o (lm_fs m) -> ref <= lm_first m ->
  (lm_first m - ref) / inc_duration rnd w o (lm_fs m) <= inject_Z (2 ^ 48) ->
  get_first_and_last_win rnd ref m w o = Ok (f, l) ->
  (Z.abs (f - qceil ((lm_first m - ref) / inc_duration rnd w o (lm_fs m))) <= 1)%Z.
Proof. exact c32_near. Qed.
Print Assumptions C32_first_window_within_one.
(** binary64, 50 Hz with the default window sizes: window 9 is complete but missed *)
Theorem C32_no_window_missed_refuted :
  let m := lev 50 (1728 # 100) 1000 in
  recorded b64 m /\ 0 <= lm_first m /\ fits 0 m 128 32 9 /\
  get_first_and_last_win b64 0 m 128 32 = Ok (10, 18)%Z.
Proof. repeat split; vm_compute; try reflexivity; discriminate. Qed.
Print Assumptions C32_no_window_missed_refuted.
Example C32_ex : recorded b64 (lev 128 5 1000) /\ precise b64 1 (lev 128 5 1000) /\
  get_first_and_last_win b64 1 (lev 128 5 1000) 256 64 = Ok (3, 6)%Z.
Proof. split; [recorded_b64|]. split; [precise_b64 7%Z 512%Z|]. vm_compute. reflexivity. Qed.

(** ** C33 *)
Theorem C33_search_succeeds_half_overlap : forall rnd ref m w o,
  recorded rnd m -> precise rnd ref m -> ref <= lm_first m -> (0 <= o < w)%Z -> (w <= 2 ^ 52)%Z ->
  (2 * o <= w + 1)%Z -> exists f l, get_first_and_last_win rnd ref m w o = Ok (f, l).
Proof. exact c33_half. Qed.
Print Assumptions C33_search_succeeds_half_overlap.
Theorem C33_search_succeeds_rounded : forall rnd ref m w o,
  good_rnd rnd -> sampled rnd m -> ref <= lm_first m -> (0 <= o < w)%Z ->
  lm_last m <= stamp ref (period rnd (lm_fs m)) (2 ^ 47) -> (2 * o <= w)%Z ->
  exists f l, get_first_and_last_win rnd ref m w o = Ok (f, l).
Proof. intros rnd ref m w o G SM RF WO LB H. exact (wf_succeeds rnd ref m w o G SM RF WO LB H). Qed.
Print Assumptions C33_search_succeeds_rounded.
(** any larger overlap fails for every recording whose last sample is at a window start *)
Theorem C33_search_fails_refuted : forall rnd ref m w o K,
  recorded rnd m -> precise rnd ref m -> ref <= lm_first m -> (0 <= o < w)%Z -> (w <= 2 ^ 52)%Z ->
  (w + 1 < 2 * o)%Z -> lm_last m == window_start ref (lm_fs m) w o K ->
  get_first_and_last_win rnd ref m w o = Err ValueError.
Proof. exact c33_fail. Qed.
Print Assumptions C33_search_fails_refuted.
Example C33_ex : recorded b64 (lev 128 0 1025) /\ precise b64 0 (lev 128 0 1025) /\
  lm_last (lev 128 0 1025) == window_start 0 128 128 96 32 /\
  get_first_and_last_win b64 0 (lev 128 0 1025) 128 96 = Err ValueError /\
  get_first_and_last_win b64 0 (lev 128 0 1025) 128 64 = Ok (0, 14)%Z.
Proof. split; [recorded_b64|]. split; [precise_b64 7%Z 0%Z|]. repeat split; vm_compute; reflexivity. Qed.

(** ** C34 *)
Theorem C34_get_local : forall d level m x i, wd_level_md d level = Ok m -> wd_get_level d level = Ok x -> nd_len x = Ok (wl_n_wins m) ->
  (forall j, (j < 0)%Z \/ (wl_n_wins m <= j)%Z -> get_local d level j = Err ValueError) /\
  ((0 <= i < wl_n_wins m)%Z -> exists y, nd_nth x (Z.to_nat i) = Some y /\ get_local d level i = Ok y).
Proof. exact c34_local. Qed.
Print Assumptions C34_get_local.
(** get_global is right exactly when the first window of the recording is window 0: then it returns the window
    with that global index and raises for every other index *)
Theorem C34_get_global_from_reference : forall d level m x g, wd_level_md d level = Ok m -> wd_get_level d level = Ok x -> nd_len x = Ok (wl_n_wins m) ->
  wl_offset m = 0%Z ->
  ((0 <= g < wl_n_wins m)%Z -> exists y, nd_nth x (Z.to_nat g) = Some y /\ get_global d level g = Ok y) /\
  ((g < 0)%Z \/ (wl_n_wins m <= g)%Z -> get_global d level g = Err ValueError).
Proof.
  intros d level m x g H1 H2 H3 H4. rewrite (c34_global d level m g H1), H4, Z.add_0_r.
  destruct (c34_local d level m x g H1 H2 H3) as [A B]. split; [exact B|apply A].
Qed.
Print Assumptions C34_get_global_from_reference.
(** get_global of a window that is present raises or returns a later window, for
    every data set with a positive offset *)
Theorem C34_get_global_refuted : forall d level m x g, wd_level_md d level = Ok m -> wd_get_level d level = Ok x -> nd_len x = Ok (wl_n_wins m) ->
  (0 < wl_offset m)%Z -> (wl_offset m <= g < wl_offset m + wl_n_wins m)%Z ->
  get_global d level g = Err ValueError \/
  exists y, nd_nth x (Z.to_nat (g - wl_offset m + 2 * wl_offset m)) = Some y /\ get_global d level g = Ok y.
Proof. exact c34_global_wrong. Qed.
Print Assumptions C34_get_global_refuted.
Definition C34_data := match windower_run b64 nanos nanos 8 (mkWinParams 1 2 [4]%Z [2]%Z) (toyW ["Ex"; "Hy"]%string [lev 1 10 13]) with Ok d => d | Err _ => mkWinData [] [] 0 0 0 "" [] 0 [] [] end.
(** offset 1, five windows: get_global(1) gives local window 2, get_global(5) raises *)
Example C34_ex : wd_level_md C34_data 0 = Ok (mkWinLevel 1 5 4 2 1) /\
  (exists x, wd_get_level C34_data 0 = Ok x /\ nd_len x = Ok 5%Z) /\
  get_global C34_data 0 1 = get_local C34_data 0 2 /\ get_global C34_data 0 5 = Err ValueError /\
  get_local C34_data 0 2 <> get_local C34_data 0 0.
Proof.
  split; [vm_compute; reflexivity|]. split; [eexists; split; vm_compute; reflexivity|].
  split; [vm_compute; reflexivity|]. split; [vm_compute; reflexivity|]. vm_compute. discriminate.
Qed.
(** reference time at the first sample: offset 0 *)
Example C34_ex_from_reference :
  let d := match windower_run b64 nanos nanos 10 (mkWinParams 1 2 [4]%Z [2]%Z) (toyW ["Ex"; "Hy"]%string [lev 1 10 13]) with Ok d => d | Err _ => C34_data end in
  wd_level_md d 0 = Ok (mkWinLevel 1 5 4 2 0) /\
  (exists y, get_global d 0 3 = Ok y /\ nd_at y [0%nat; 0%nat] = Some (Sc (Some 6))).
Proof. split; [vm_compute; reflexivity|]. eexists. split; vm_compute; reflexivity. Qed.

(** ** C35 *)
Theorem C35_setup_sizes : forall rnd c n dfs p, (0 <= n)%Z -> win_setup_run rnd c n dfs = Ok p ->
  wp_n_levels p = n /\ wp_min_n_wins p = ws_min_n_wins c /\
  Z.of_nat (length (wp_win_sizes p)) = n /\ Z.of_nat (length (wp_olap_sizes p)) = n /\
  (forall l, ws_win_sizes c = Some l -> wp_win_sizes p = firstn (Z.to_nat n) l) /\
  (forall l, ws_olap_sizes c = Some l -> wp_olap_sizes p = firstn (Z.to_nat n) l) /\
  (ws_win_sizes c = None -> (0 <= ws_min_size c)%Z -> forall i w, nth_error (wp_win_sizes p) i = Some w ->
     (ws_min_size c <= w)%Z /\ exists fs, nth_error dfs i = Some fs /\ setup_win_size rnd c fs = Ok w) /\
  (ws_olap_sizes c = None -> wp_olap_sizes p = map (setup_olap_size rnd c) (wp_win_sizes p)).
Proof. exact c35_sizes. Qed.
Print Assumptions C35_setup_sizes.
Theorem C35_setup_usable : forall rnd c n dfs p, good_rnd rnd -> (0 <= n)%Z -> win_setup_run rnd c n dfs = Ok p ->
  ws_win_sizes c = None -> ws_olap_sizes c = None -> (0 < ws_min_olap c < ws_min_size c)%Z ->
  0 <= ws_olap_proportion c -> ws_olap_proportion c <= 1 - (1 # 9007199254740992) ->
  Forall2 (fun w o => (ws_min_size c <= w)%Z /\ (0 < o < w)%Z) (wp_win_sizes p) (wp_olap_sizes p).
Proof. exact c35_usable. Qed.
Print Assumptions C35_setup_usable.
(** the default sizes in plain words *)
Theorem C35_default_window_sizes : forall rnd c n dfs p i w fs, good_rnd rnd -> win_setup_run rnd c n dfs = Ok p -> ws_win_sizes c = None -> (0 <= n)%Z ->
  (0 < ws_win_factor c)%Z -> (0 <= ws_min_size c)%Z -> nth_error (wp_win_sizes p) i = Some w -> nth_error dfs i = Some fs -> 0 <= fs -> fs <= inject_Z (2 ^ 53) ->
  w = Z.max (ws_min_size c) (qfloor (fs / inject_Z (ws_win_factor c))).
Proof. intros rnd c n dfs p i w fs G. exact (default_sizes G c n dfs p i w fs). Qed.
Print Assumptions C35_default_window_sizes.
Theorem C35_default_overlaps : forall c n dfs p i w o, win_setup_run exact c n dfs = Ok p -> ws_olap_sizes c = None -> (0 <= n)%Z -> 0 <= ws_olap_proportion c ->
  nth_error (wp_win_sizes p) i = Some w -> nth_error (wp_olap_sizes p) i = Some o -> (0 <= w)%Z ->
  o = Z.max (ws_min_olap c) (qfloor (inject_Z w * ws_olap_proportion c)).
Proof. exact default_overlaps. Qed.
Print Assumptions C35_default_overlaps.
(** ... and in every correctly rounded arithmetic up to one part in 2^53 *)
Theorem C35_default_overlaps_rounded : forall rnd c n dfs p i w o, good_rnd rnd -> win_setup_run rnd c n dfs = Ok p -> ws_olap_sizes c = None -> (0 <= n)%Z ->
  0 <= ws_olap_proportion c -> nth_error (wp_win_sizes p) i = Some w -> nth_error (wp_olap_sizes p) i = Some o -> (0 <= w)%Z ->
  (ws_min_olap c <= o)%Z /\ inject_Z w * ws_olap_proportion c * (1 - (1 # 9007199254740992)) < inject_Z (o + 1) /\
  ((ws_min_olap c < o)%Z -> inject_Z o <= inject_Z w * ws_olap_proportion c * (1 + (1 # 9007199254740992))).
Proof. exact default_overlaps_rounded. Qed.
Print Assumptions C35_default_overlaps_rounded.
(** exactly these setups are accepted *)
Theorem C35_accepted : forall rnd c n dfs, (0 <= n)%Z ->
  (exists p, win_setup_run rnd c n dfs = Ok p) <->
  match ws_win_sizes c with Some l => (n <= Z.of_nat (length l))%Z | None => n = 0%Z \/ (ws_win_factor c <> 0 /\ n <= Z.of_nat (length dfs))%Z end /\
  match ws_olap_sizes c with Some l => (n <= Z.of_nat (length l))%Z | None => True end.
Proof. exact setup_accepted. Qed.
Print Assumptions C35_accepted.
Theorem C35_short_lists_rejected : forall rnd c n dfs,
  ((exists l, ws_win_sizes c = Some l /\ (Z.of_nat (length l) < n)%Z) -> win_setup_run rnd c n dfs = Err ValueError) /\
  ((exists l, ws_win_sizes c = Some l) -> (exists l, ws_olap_sizes c = Some l /\ (Z.of_nat (length l) < n)%Z) ->
     win_setup_run rnd c n dfs = Err ValueError).
Proof. intros. split; [exact (c35_reject rnd c n dfs)|exact (c35_reject_olap rnd c n dfs)]. Qed.
Print Assumptions C35_short_lists_rejected.
(** the default setup with a user window of 16 samples has an overlap of 32; an explicit
    overlap of 0 passes the setup but no data can be windowed with it *)
Theorem C35_usable_refuted :
  win_setup_run b64 (mkWinSetup 128 32 4 (1 # 4) 5 (Some [16]%Z) None) 1 [128] = Ok (mkWinParams 1 5 [16]%Z [32]%Z) /\
  win_setup_run b64 (mkWinSetup 16 32 4 (1 # 4) 5 None None) 1 [8] = Ok (mkWinParams 1 5 [16]%Z [32]%Z) /\
  win_setup_run b64 (mkWinSetup 128 32 4 (1 # 4) 2 (Some [4]%Z) (Some [0]%Z)) 1 [1] = Ok (mkWinParams 1 2 [4]%Z [0]%Z) /\
  windower_run b64 nanos nanos 8 (mkWinParams 1 2 [4]%Z [0]%Z) (toyW ["Ex"; "Hy"]%string [lev 1 10 13]) = Err ValidationError.
Proof. repeat split; vm_compute; reflexivity. Qed.
Print Assumptions C35_usable_refuted.
Example C35_ex : win_setup_run b64 (mkWinSetup 128 32 4 (1 # 4) 5 None None) 3 [4096; 1024; 16] = Ok (mkWinParams 3 5 [1024; 256; 128]%Z [256; 64; 32]%Z).
Proof. vm_compute. reflexivity. Qed.

(** ** C36 *)
Theorem C36_window_contents : forall rnd nt ndl ref p d wd i x, windower_run rnd nt ndl ref p d = Ok wd -> wd_get_level wd (Z.of_nat i) = Ok x ->
  exists m w o table ld, nth_error (dd_levels_md d) i = Some m /\
    nth_error (wp_win_sizes p) i = Some w /\ nth_error (wp_olap_sizes p) i = Some o /\
    get_win_table rnd nt ndl ref m w o = Ok table /\ get_level d (Z.of_nat i) = Ok ld /\
    (recorded rnd m -> precise rnd ref m -> ref <= lm_first m -> (o < w)%Z -> (w <= 2 ^ 52)%Z -> shape_ok d m ld ->
     (2 <= w < lm_n_samples m)%Z -> (2 <= length (dd_chans d))%nat ->
     nd_len x = Ok (Z.of_nat (length table)) /\
     forall k r ch row s, nth_error table k = Some r -> nth_error ld ch = Some row -> (0 <= s < w)%Z ->
       exists v, nth_error row (Z.to_nat (wr_from r + s)) = Some v /\ nd_at x [k; ch; Z.to_nat s] = Some (Sc v)).
Proof. exact c36_windower. Qed.
Print Assumptions C36_window_contents.
Theorem C36_window_contents_target : forall rnd nt ndl c ref p d wd i x, windower_target_run rnd nt ndl c ref p d = Ok wd -> wd_get_level wd (Z.of_nat i) = Ok x ->
  exists m w o table ld, nth_error (dd_levels_md d) i = Some m /\ target_win_size rnd c m = Ok w /\
    o = qfloor (rnd (wt_olap_proportion c * inject_Z w)) /\
    get_win_table rnd nt ndl ref m w o = Ok table /\ get_level d (Z.of_nat i) = Ok ld /\
    (recorded rnd m -> precise rnd ref m -> ref <= lm_first m -> (o < w)%Z -> (w <= 2 ^ 52)%Z -> shape_ok d m ld ->
     (2 <= w < lm_n_samples m)%Z -> (2 <= length (dd_chans d))%nat ->
     nd_len x = Ok (Z.of_nat (length table)) /\
     forall k r ch row s, nth_error table k = Some r -> nth_error ld ch = Some row -> (0 <= s < w)%Z ->
       exists v, nth_error row (Z.to_nat (wr_from r + s)) = Some v /\ nd_at x [k; ch; Z.to_nat s] = Some (Sc v)).
Proof. exact c36_target. Qed.
Print Assumptions C36_window_contents_target.
(** every correctly rounded arithmetic: when the windower succeeds no window starts before the data, and
    every window holds the samples its row says *)
Theorem C36_window_contents_rounded : forall rnd nt ndl ref p d wd i x,
  good_rnd rnd -> windower_run rnd nt ndl ref p d = Ok wd -> wd_get_level wd (Z.of_nat i) = Ok x ->
  exists m w o table ld, nth_error (dd_levels_md d) i = Some m /\
    nth_error (wp_win_sizes p) i = Some w /\ nth_error (wp_olap_sizes p) i = Some o /\
    get_win_table rnd nt ndl ref m w o = Ok table /\ get_level d (Z.of_nat i) = Ok ld /\ nd_len x = Ok (Z.of_nat (length table)) /\
    (sampled rnd m -> ref <= lm_first m -> lm_last m <= stamp ref (period rnd (lm_fs m)) (2 ^ 47) -> (o < w <= 1000000)%Z ->
     shape_ok d m ld -> (2 <= w < lm_n_samples m)%Z ->
     (dd_chans d <> [] -> forall k r, nth_error table k = Some r -> (0 <= wr_from r)%Z) /\
     ((2 <= length (dd_chans d))%nat ->
       forall k r ch row s, nth_error table k = Some r -> nth_error ld ch = Some row -> (0 <= s < w)%Z ->
       exists v, nth_error row (Z.to_nat (wr_from r + s)) = Some v /\ nd_at x [k; ch; Z.to_nat s] = Some (Sc v)) /\
     (length (dd_chans d) = 1%nat ->
       forall k r row s, nth_error table k = Some r -> nth_error ld 0 = Some row -> (0 <= s < w)%Z ->
       exists v, nth_error row (Z.to_nat (wr_from r + s)) = Some v /\ nd_at x [k; Z.to_nat s] = Some (Sc v))).
Proof. exact windower_contents_any. Qed.
Print Assumptions C36_window_contents_rounded.
(** WindowerTarget does not check the number of windows: for the recording of C30_windows_inside_data_refuted the
    metadata has seven windows and the data none *)
Theorem C36_target_no_windows_refuted :
  let m := lev 128 (100000000000000001 # 1000000000) 1025 in
  match windower_target_run b64 nanos nanos (mkWinTarget 8 4 (1 # 2)) 0 (mkWinParams 1 5 [] []) (toyW ["Ex"; "Hy"]%string [m]) with
  | Ok wd => wd_data wd = [(0%Z, Ax [])] /\ map wl_win_size (wd_levels wd) = [256]%Z /\ map wl_n_wins (wd_levels wd) = [7]%Z
  | Err _ => False
  end.
Proof. vm_compute. repeat split. Qed.
Print Assumptions C36_target_no_windows_refuted.
(** with one channel the channel axis is missing, for all data: entry [w, s] instead of
    [w, 0, s]; get_chan then returns a single window *)
Theorem C36_one_channel_refuted : forall rnd nt ndl ref p d wd i x m w o table ld,
  windower_run rnd nt ndl ref p d = Ok wd -> wd_get_level wd (Z.of_nat i) = Ok x ->
  nth_error (dd_levels_md d) i = Some m -> nth_error (wp_win_sizes p) i = Some w -> nth_error (wp_olap_sizes p) i = Some o ->
  get_win_table rnd nt ndl ref m w o = Ok table -> get_level d (Z.of_nat i) = Ok ld ->
  recorded rnd m -> precise rnd ref m -> ref <= lm_first m -> (o < w)%Z -> (w <= 2 ^ 52)%Z -> shape_ok d m ld ->
  (2 <= w < lm_n_samples m)%Z -> length (dd_chans d) = 1%nat ->
  forall k r row s, nth_error table k = Some r -> nth_error ld 0 = Some row -> (0 <= s < w)%Z ->
    nd_at x [k; Z.to_nat s] = option_map Sc (nth_error row (Z.to_nat (wr_from r + s))).
Proof. exact c36_one_channel. Qed.
Print Assumptions C36_one_channel_refuted.
(** a recording exactly one window long keeps only its first channel *)
Theorem C36_one_window_refuted :
  match windower_run b64 nanos nanos 10 (mkWinParams 1 1 [4]%Z [2]%Z) (toyW ["Ex"; "Hy"]%string [lev 1 10 4]) with
  | Ok wd => wd_data wd = [(0%Z, Ax [Ax (map Sc (ramp 0 4))])] /\ map wl_n_wins (wd_levels wd) = [1]%Z
  | Err _ => False
  end.
Proof. vm_compute. split; reflexivity. Qed.
Print Assumptions C36_one_window_refuted.
Example C36_ex : match windower_run b64 nanos nanos 4 (mkWinParams 1 2 [4]%Z [2]%Z) (toyW ["Ex"; "Hy"]%string [lev 1 10 9]) with
  | Ok wd => exists x, wd_get_level wd 0 = Ok x /\ nd_len x = Ok 3%Z /\ nd_at x [2; 1; 3]%nat = Some (Sc (Some (inject_Z 107)))
  | Err _ => False end /\ recorded b64 (lev 1 10 9) /\ precise b64 4 (lev 1 10 9).
Proof. split; [vm_compute; eexists; repeat split|]. split; [recorded_b64|precise_b64 0%Z 6%Z]. Qed.

(** ** C37 *)
Theorem C37_window_times_from_metadata : forall rnd nt ndl ref p d wd i x, windower_run rnd nt ndl ref p d = Ok wd -> wd_get_level wd (Z.of_nat i) = Ok x ->
  exists wl m w o table, wd_level_md wd (Z.of_nat i) = Ok wl /\ nth_error (dd_levels_md d) i = Some m /\
    nth_error (wp_win_sizes p) i = Some w /\ nth_error (wp_olap_sizes p) i = Some o /\
    get_win_table rnd nt ndl ref m w o = Ok table /\
    nd_len x = Ok (wl_n_wins wl) /\ wl_n_wins wl = Z.of_nat (length table) /\
    (forall k r, nth_error table k = Some r -> wr_global r = (wl_offset wl + Z.of_nat k)%Z) /\
    get_win_starts rnd nt ndl (wd_ref wd) (wl_win_size wl) (wl_olap_size wl) (wl_fs wl) (wl_n_wins wl) (wl_offset wl) = Ok (map wr_start table).
Proof. exact c37_windower. Qed.
Print Assumptions C37_window_times_from_metadata.
(** WindowerTarget: cut at 10 s and 13 s, reported as 16 s and 19 s *)
Theorem C37_target_times_refuted :
  let d := toyW ["Ex"; "Hy"]%string [lev 1 10 9] in
  match windower_target_run b64 nanos nanos (mkWinTarget 3 4 (1 # 4)) 4 (mkWinParams 1 2 [] []) d, get_win_table b64 nanos nanos 4 (lev 1 10 9) 4 1 with
  | Ok wd, Ok table =>
    map wr_start table = [10000000000; 13000000000]%Z /\
    match wd_levels wd with
    | [wl] => get_win_starts b64 nanos nanos (wd_ref wd) (wl_win_size wl) (wl_olap_size wl) (wl_fs wl) (wl_n_wins wl) (wl_offset wl)
              = Ok [16000000000; 19000000000]%Z
    | _ => False
    end
  | _, _ => False
  end.
Proof. vm_compute. repeat split. Qed.
Print Assumptions C37_target_times_refuted.
Theorem C37_target_reference : forall rnd nt ndl c ref p d wd, windower_target_run rnd nt ndl c ref p d = Ok wd -> wd_ref wd = dd_first d.
Proof. intros rnd nt ndl c ref p d wd H. exact (proj1 (target_levels rnd nt ndl c ref p d wd H)). Qed.
Print Assumptions C37_target_reference.

(** ** C38 *)
Theorem C38_levels_agree : forall rnd nt ndl ref p d wd, windower_run rnd nt ndl ref p d = Ok wd ->
  wd_n_levels wd = Z.of_nat (length (wd_levels wd)) /\ length (wd_data wd) = length (wd_levels wd) /\
  map fst (wd_data wd) = arange (wd_n_levels wd) /\ (1 <= wd_n_levels wd)%Z /\ (wd_n_levels wd <= Z.max 0 (dd_n_levels d))%Z /\
  wd_fs wd = dd_fs d /\
  (forall i, (Z.of_nat i < wd_n_levels wd)%Z -> exists m w o table, nth_error (dd_levels_md d) i = Some m /\
     nth_error (wp_win_sizes p) i = Some w /\ nth_error (wp_olap_sizes p) i = Some o /\
     get_win_table rnd nt ndl ref m w o = Ok table /\ (wp_min_n_wins p <= Z.of_nat (length table))%Z) /\
  ((wd_n_levels wd < dd_n_levels d)%Z -> exists m w o table, let i := Z.to_nat (wd_n_levels wd) in
     nth_error (dd_levels_md d) i = Some m /\
     nth_error (wp_win_sizes p) i = Some w /\ nth_error (wp_olap_sizes p) i = Some o /\
     get_win_table rnd nt ndl ref m w o = Ok table /\ (Z.of_nat (length table) < wp_min_n_wins p)%Z).
Proof. exact c38. Qed.
Print Assumptions C38_levels_agree.
(** the list of sampling frequencies keeps the levels that were dropped *)
Theorem C38_fs_list_refuted :
  match windower_run b64 nanos nanos 4 (mkWinParams 2 2 [4; 4]%Z [2; 2]%Z) (toyW ["Ex"; "Hy"]%string [lev 1 10 9; lev (1 # 2) 10 4]) with
  | Ok wd => wd_n_levels wd = 1%Z /\ wd_fs wd = [1; 1 # 2]
  | Err _ => False
  end.
Proof. vm_compute. split; reflexivity. Qed.
Print Assumptions C38_fs_list_refuted.

(** ** C39 *)
Theorem C39_index_time_inverse_exact : forall ref k inc m, (0 <= k)%Z -> 0 < inc ->
  datetime_to_win exact ref (win_to_datetime ref k inc) inc m = Ok k.
Proof. exact c39_exact. Qed.
Print Assumptions C39_index_time_inverse_exact.
Theorem C39_index_time_inverse_pow2 : forall ref k s p m, (0 <= k)%Z -> (0 < s)%Z -> (k * s < 2 ^ 53)%Z -> (s <= 2 ^ 53)%Z -> (p <= 7)%Z ->
  let inc := inject_Z s * pow2 (- p) in datetime_to_win b64 ref (win_to_datetime ref k inc) inc m = Ok k.
Proof. exact c39_pow2. Qed.
Print Assumptions C39_index_time_inverse_pow2.
(** any rounding: method "round" is exact, the others at most one off *)
Theorem C39_index_time_inverse_round : forall rnd ref k inc, good_rnd rnd -> (0 <= k <= 2 ^ 48)%Z -> 0 < inc ->
  datetime_to_win rnd ref (win_to_datetime ref k inc) inc Mround = Ok k /\
  (forall m j, datetime_to_win rnd ref (win_to_datetime ref k inc) inc m = Ok j -> (k - 1 <= j <= k + 1)%Z).
Proof. exact c39_round. Qed.
Print Assumptions C39_index_time_inverse_round.
Theorem C39_before_reference_raises : forall rnd ref t inc m, t < ref -> datetime_to_win rnd ref t inc m = Err ValueError.
Proof. exact dtw_before. Qed.
Print Assumptions C39_before_reference_raises.
(** binary64: floor is wrong for an increment of 0.1 s, ceil for 1.92 s *)
Theorem C39_floor_ceil_refuted :
  datetime_to_win b64 0 (win_to_datetime 0 3 (inc_duration b64 200 100 1000)) (inc_duration b64 200 100 1000) Mfloor = Ok 2%Z /\
  datetime_to_win b64 0 (win_to_datetime 0 9 (inc_duration b64 128 32 50)) (inc_duration b64 128 32 50) Mceil = Ok 10%Z.
Proof. split; vm_compute; reflexivity. Qed.
Print Assumptions C39_floor_ceil_refuted.
Example C39_ex : datetime_to_win b64 5 (win_to_datetime 5 7 (inc_duration b64 128 32 50)) (inc_duration b64 128 32 50) Mround = Ok 7%Z.
Proof. vm_compute. reflexivity. Qed.

(** ** C72 *)
(** WindowerTarget: the largest window for which target windows advance within the level (one sample more
    would not), but at least min_size; the overlap is the given proportion of the window, rounded down *)
Theorem C72_target_sizes : forall nt ndl c ref p d wd i wl,
  windower_target_run exact nt ndl c ref p d = Ok wd -> nth_error (wd_levels wd) i = Some wl ->
  0 <= wt_olap_proportion c -> wt_olap_proportion c < 1 -> (0 < wt_target c)%Z ->
  exists m, nth_error (dd_levels_md d) i = Some m /\ (wt_min_size c <= wl_win_size wl)%Z /\
    inject_Z (lm_n_samples m) < inject_Z (wl_win_size wl + 1) * ((1 - wt_olap_proportion c) * inject_Z (wt_target c)) /\
    ((wt_min_size c < wl_win_size wl)%Z -> inject_Z (wl_win_size wl) * ((1 - wt_olap_proportion c) * inject_Z (wt_target c)) <= inject_Z (lm_n_samples m)) /\
    inject_Z (wl_olap_size wl) <= wt_olap_proportion c * inject_Z (wl_win_size wl) /\
    wt_olap_proportion c * inject_Z (wl_win_size wl) < inject_Z (wl_olap_size wl + 1).
Proof. exact target_sizes. Qed.
Print Assumptions C72_target_sizes.
(** the same in every correctly rounded arithmetic, up to one part in 2^50 *)
Theorem C72_target_sizes_rounded : forall rnd nt ndl c ref p d wd i wl, good_rnd rnd ->
  windower_target_run rnd nt ndl c ref p d = Ok wd -> nth_error (wd_levels wd) i = Some wl ->
  0 <= wt_olap_proportion c -> wt_olap_proportion c < 1 -> (0 < wt_target c)%Z ->
  (forall m, In m (dd_levels_md d) -> (0 <= lm_n_samples m)%Z) -> (0 <= wt_min_size c)%Z ->
  let advance := (1 - wt_olap_proportion c) * inject_Z (wt_target c) in let eps := 1 # 1125899906842624 in
  exists m, nth_error (dd_levels_md d) i = Some m /\ (wt_min_size c <= wl_win_size wl)%Z /\
    inject_Z (lm_n_samples m) * (1 - eps) < inject_Z (wl_win_size wl + 1) * advance /\
    ((wt_min_size c < wl_win_size wl)%Z -> inject_Z (wl_win_size wl) * advance <= inject_Z (lm_n_samples m) * (1 + eps)) /\
    inject_Z (wl_olap_size wl) <= wt_olap_proportion c * inject_Z (wl_win_size wl) * (1 + eps) /\
    wt_olap_proportion c * inject_Z (wl_win_size wl) * (1 - eps) < inject_Z (wl_olap_size wl + 1).
Proof. exact target_sizes_rounded. Qed.
Print Assumptions C72_target_sizes_rounded.
Example C72_ex : exists wd wl, windower_target_run exact nanos nanos (mkWinTarget 5 4 (1 # 4)) 10 (mkWinParams 1 2 [] []) (toyW ["Ex"; "Hy"]%string [lev 1 10 100]) = Ok wd /\
  nth_error (wd_levels wd) 0 = Some wl /\ wl_win_size wl = 26%Z /\ wl_olap_size wl = 6%Z.
Proof. eexists _, _. split; [vm_compute; reflexivity|]. split; [reflexivity|]. split; reflexivity. Qed.
(** 100 samples, target 5, minimum 4: four windows *)
Theorem C72_target_missed_refuted :
  match windower_target_run b64 nanos nanos (mkWinTarget 5 4 (1 # 4)) 10 (mkWinParams 1 2 [] []) (toyW ["Ex"; "Hy"]%string [lev 1 10 100]) with
  | Ok wd => map wl_n_wins (wd_levels wd) = [4]%Z /\ map wl_win_size (wd_levels wd) = [26]%Z
  | Err _ => False
  end.
Proof. vm_compute. split; reflexivity. Qed.
Print Assumptions C72_target_missed_refuted.
