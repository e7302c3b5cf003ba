(** Times in the window table and the sizes of windows. *)
From Coq Require Import String.
From Verif Require Import Base.Prelude Base.Rounding Base.ListUtil Base.NdArray Model.Sampling Model.Time Model.Decimate Model.Window
  Spec.Sampling Spec.Window Proofs.Sampling Proofs.SamplingFloat Proofs.TimeMeta Proofs.Window Proofs.WindowTable Proofs.WindowRun Proofs.WindowFinal.
Open Scope Q_scope.

Lemma rnd_bounds {rnd} (G : good_rnd rnd) x : 0 <= x -> x * (1 - (1 # 9007199254740992)) <= rnd x /\ rnd x <= x * (1 + (1 # 9007199254740992)).
Proof. intros H. pose proof (gr_err _ G x) as E. rewrite (Qabs_pos x H) in E. apply Qabs_Qle_condition in E. lra. Qed.

Lemma end_offset_err {rnd} (G : good_rnd rnd) fs K : 0 < fs -> 0 <= K -> 
  Qabs (rnd (K * rnd (1 / fs)) - K / fs) <= (1 # 2251799813685248) * (K / fs).
Proof.
  intros F H. assert (I : 0 <= 1 / fs) by (apply Qle_shift_div_l; lra).
  destruct (rnd_bounds G _ I) as [A1 A2]. set (r := rnd (1 / fs)) in *. set (i := 1 / fs) in *.
  assert (E : K / fs == K * i) by (unfold i; field; lra). rewrite E. assert (R : 0 <= r) by nra.
  assert (KI : 0 <= K * i) by nra. assert (KR : 0 <= K * r) by nra.
  destruct (rnd_bounds G (K * r) KR) as [B1 B2].
  assert (L : K * i * (1 - (1 # 9007199254740992)) <= K * r) by nra.
  assert (U : K * r <= K * i * (1 + (1 # 9007199254740992))) by nra.
  apply Qabs_Qle_condition. nra.
Qed.
Lemma step_err {rnd} (G : good_rnd rnd) fs k : 0 < fs -> 0 < k ->
  Qabs (rnd (1 / rnd (fs / k)) - k / fs) <= (1 # 2251799813685248) * (k / fs).
Proof.
  intros F H. assert (I : 0 < fs / k) by (apply Qlt_shift_div_l; lra).
  destruct (rnd_bounds G _ (Qlt_le_weak _ _ I)) as [A1 A2]. set (r := rnd (fs / k)) in *. set (i := fs / k) in *.
  assert (E : k / fs == 1 / i) by (unfold i; field; split; lra). rewrite E. assert (R : 0 < r) by nra.
  assert (J : 0 < 1 / i) by (apply Qlt_shift_div_l; lra). set (j := 1 / i) in *.
  assert (IJ : i * j == 1) by (unfold j; field; lra). assert (S : 0 < 1 / r) by (apply Qlt_shift_div_l; lra).
  set (s := 1 / r) in *. assert (RS : r * s == 1) by (unfold s; field; lra).
  assert (L : j * (1 - (1 # 9007199254740992)) <= s).
  { apply Qle_shift_div_l; [exact R|]. assert (j * r <= j * (i * (1 + (1 # 9007199254740992)))) by nra. nra. }
  assert (U : s <= j * (1 + (2 # 9007199254740992))).
  { apply Qle_shift_div_r; [exact R|]. assert (j * (i * (1 - (1 # 9007199254740992))) <= j * r) by nra. nra. }
  destruct (rnd_bounds G s (Qlt_le_weak _ _ S)) as [B1 B2]. apply Qabs_Qle_condition. nra.
Qed.

Lemma table_rows rnd nt ndl ref m w o table : get_win_table rnd nt ndl ref m w o = Ok table -> exists f, forall i r, nth_error table i = Some r ->
  wr_global r = (f + Z.of_nat i)%Z /\
  wr_start r = (nt (win_to_datetime ref f (inc_duration rnd w o (lm_fs m))) + Z.of_nat i * ndl (rnd (1 / rnd (lm_fs m / inject_Z (w - o)))%Q))%Z /\
  wr_end r = (wr_start r + ndl (rnd (inject_Z (w - 1) * rnd (1 / lm_fs m)))%Q)%Z.
Proof.
  intros H. unfold get_win_table in H. apply bind_ok in H. destruct H as ([f l] & H1 & H). exists f.
  destruct (w - o =? 0)%Z; [discriminate|]. apply bind_ok in H. destruct H as (st & H2 & H).
  unfold datetime_array_estimate in H2. destruct (Qeq_bool _ 0); [discriminate|]. destruct (_ <? 0)%Z; [discriminate|].
  assert (CM : forall (A : Type) (g : Z -> A) (L : list Z), combine L (map g L) = map (fun k => (k, g k)) L).
  { intros A g L. induction L as [|a L IH]; [reflexivity|]. cbn [combine map]. rewrite IH. reflexivity. }
  injection H2 as <-. rewrite CM, map_map in H. injection H as <-. intros i r Hr. rewrite nth_error_map in Hr.
  destruct (nth_error (arange (l - f + 1)) i) as [k|] eqn:E; [|discriminate]. cbn [option_map] in Hr. injection Hr as <-.
  assert (k = Z.of_nat i) as ->.
  { assert (i < length (arange (l - f + 1)))%nat by (apply nth_error_Some; congruence). rewrite arange_length in H. rewrite arange_nth in E by exact H. congruence. }
  cbn [wr_global wr_start wr_end]. unfold win_end_offset. auto.
Qed.

Lemma c31_times rnd nt ndl ref m w o table i r : good_rnd rnd -> near_ns nt -> near_ns ndl -> 0 < lm_fs m -> period rnd (lm_fs m) == 1 / lm_fs m ->
  (0 <= o < w)%Z -> get_win_table rnd nt ndl ref m w o = Ok table -> nth_error table i = Some r ->
  Qabs (inject_Z (wr_start r) - 1000000000 * window_start ref (lm_fs m) w o (wr_global r))
    <= 1 + inject_Z (Z.of_nat i) * (1 + ns_eps * (inject_Z (w - o) / lm_fs m)) /\
  Qabs (inject_Z (wr_end r - wr_start r) - 1000000000 * (inject_Z (w - 1) / lm_fs m)) <= 1 + ns_eps * (inject_Z (w - 1) / lm_fs m).
Proof.
  intros G Nt Nd F P Ho HT Hr. destruct (table_rows _ _ _ _ _ _ _ _ HT) as (f & K). destruct (K i r Hr) as (K1 & K2 & K3).
  set (fs := lm_fs m) in *. unfold ns_eps. split.
  - pose proof (Nt (win_to_datetime ref f (inc_duration rnd w o fs))) as A. pose proof (win_time_eq rnd ref fs w o f F P) as TE.
    pose proof (Nd (rnd (1 / rnd (fs / inject_Z (w - o))))) as B.
    assert (D : 0 < inject_Z (w - o)) by (apply inj_pos; lia). pose proof (step_err G fs (inject_Z (w - o)) F D) as C.
    set (x := rnd (1 / rnd (fs / inject_Z (w - o)))) in *. set (k := inject_Z (w - o) / fs) in *.
    assert (E : window_start ref fs w o (wr_global r) == window_start ref fs w o f + inject_Z (Z.of_nat i) * k).
    { unfold window_start, k. rewrite K1, inject_Z_plus. field. lra. }
    rewrite E, K2, inject_Z_plus, inject_Z_mult. set (v := win_to_datetime ref f (inc_duration rnd w o fs)) in *. set (a := inject_Z (nt v)) in *. set (ws := window_start ref fs w o f) in *. set (b := inject_Z (ndl x)) in *.
    assert (I : 0 <= inject_Z (Z.of_nat i)) by (apply inj_nonneg; lia). set (q := inject_Z (Z.of_nat i)) in *.
    apply Qabs_Qle_condition in A. apply Qabs_Qle_condition in B. apply Qabs_Qle_condition in C.
    assert (BC : Qabs (b - 1000000000 * k) <= 1 + 1000000000 * (1 # 2251799813685248) * k) by (apply Qabs_Qle_condition; lra).
    apply Qabs_Qle_condition in BC. apply Qabs_Qle_condition. set (e := 1 + 1000000000 * (1 # 2251799813685248) * k) in *.
    assert (q * (b - 1000000000 * k) <= q * e) by nra. assert (q * - e <= q * (b - 1000000000 * k)) by nra. lra.
  - replace (wr_end r - wr_start r)%Z with (ndl (rnd (inject_Z (w - 1) * rnd (1 / fs)))%Q) by lia.
    assert (D : 0 <= inject_Z (w - 1)) by (apply inj_nonneg; lia). pose proof (end_offset_err G fs (inject_Z (w - 1)) F D) as C.
    pose proof (Nd (rnd (inject_Z (w - 1) * rnd (1 / fs)))) as B. apply Qabs_Qle_condition in B. apply Qabs_Qle_condition in C.
    apply Qabs_Qle_condition. lra.
Qed.

(** ** sizes *)
Lemma target_size_spec c m w : 0 < (1 - wt_olap_proportion c) * inject_Z (wt_target c) -> target_win_size exact c m = Ok w ->
  (wt_min_size c <= w)%Z /\ inject_Z (lm_n_samples m) < inject_Z (w + 1) * ((1 - wt_olap_proportion c) * inject_Z (wt_target c)) /\
  ((wt_min_size c < w)%Z -> inject_Z w * ((1 - wt_olap_proportion c) * inject_Z (wt_target c)) <= inject_Z (lm_n_samples m)).
Proof.
  intros D H. unfold target_win_size, exact in H. set (den := (1 - wt_olap_proportion c) * inject_Z (wt_target c)) in *.
  destruct (Qeq_bool den 0) eqn:E; [discriminate|]. clear E. destruct (qfloor_spec (inject_Z (lm_n_samples m) / den)) as [A1 A2].
  set (n := inject_Z (lm_n_samples m)) in *. set (q := qfloor (n / den)) in *.
  assert (X : n == n / den * den) by (field; lra).
  assert (B1 : inject_Z q * den <= n) by (rewrite X; apply Qmult_le_compat_r; lra).
  assert (B2 : n < (inject_Z q + 1) * den) by (rewrite X; apply Qmult_lt_compat_r; lra).
  destruct (Z.ltb_spec q (wt_min_size c)) as [L|L]; injection H as <-.
  - split; [lia|]. split; [|lia]. apply Qlt_le_trans with ((inject_Z q + 1) * den); [exact B2|].
    apply Qmult_le_compat_r; [|lra]. change 1 with (inject_Z 1). rewrite <- inject_Z_plus. rewrite <- Zle_Qle. lia.
  - split; [exact L|]. split; [rewrite inject_Z_plus; exact B2|]. intros _. exact B1.
Qed.

Lemma target_sizes nt ndl c ref p d wd i wl : windower_target_run exact nt ndl c ref p d = Ok wd -> nth_error (wd_levels wd) i = Some wl ->
  0 <= wt_olap_proportion c -> wt_olap_proportion c < 1 -> (0 < wt_target c)%Z ->
  exists m, nth_error (dd_levels_md d) i = Some m /\ (wt_min_size c <= wl_win_size wl)%Z /\
    inject_Z (lm_n_samples m) < inject_Z (wl_win_size wl + 1) * ((1 - wt_olap_proportion c) * inject_Z (wt_target c)) /\
    ((wt_min_size c < wl_win_size wl)%Z -> inject_Z (wl_win_size wl) * ((1 - wt_olap_proportion c) * inject_Z (wt_target c)) <= inject_Z (lm_n_samples m)) /\
    inject_Z (wl_olap_size wl) <= wt_olap_proportion c * inject_Z (wl_win_size wl) /\
    wt_olap_proportion c * inject_Z (wl_win_size wl) < inject_Z (wl_olap_size wl + 1).
Proof.
  intros H Hl P0 P1 T. destruct (target_levels _ _ _ _ _ _ _ _ H) as (_ & _ & _ & xs & wls & HL & D & L & N & _).
  destruct (window_loop_spec _ _ _ _ _ _ _ _ _ _ _ HL) as (L1 & L2 & L3 & K & _). rewrite L in Hl.
  destruct (nth_error xs i) as [[lev x]|] eqn:Ex.
  2:{ apply nth_error_None in Ex. assert (i < length wls)%nat by (apply nth_error_Some; congruence). lia. }
  destruct (K i lev x wl Ex Hl) as (m & w & o & table & ld & LD).
  assert (lev = Z.of_nat i) as ->.
  { assert (E : nth_error (map fst xs) i = Some lev) by (rewrite nth_error_map, Ex; reflexivity). rewrite L3 in E.
    rewrite arange_length in L2. rewrite firstn_arange in E by exact L2.
    assert (i < length xs)%nat by (apply nth_error_Some; congruence). rewrite arange_nth in E by lia. congruence. }
  pose proof (ld_md _ _ _ _ _ _ _ _ _ _ _ _ _ _ _ _ LD) as MD. rewrite Nat2Z.id in MD.
  pose proof (ld_sizes _ _ _ _ _ _ _ _ _ _ _ _ _ _ _ _ LD) as SZ. cbv beta in SZ. apply bind_ok in SZ. destruct SZ as (w' & S1 & SZ).
  assert (w' = w /\ qfloor (exact (wt_olap_proportion c * inject_Z w')) = o) as [-> So] by (split; congruence). clear SZ.
  pose proof (ld_wl _ _ _ _ _ _ _ _ _ _ _ _ _ _ _ _ LD) as WL.
  assert (WS : wl_win_size wl = w /\ wl_olap_size wl = o).
  { unfold get_level_metadata in WL. repeat match type of WL with context [match ?x with _ => _ end] => destruct x; try discriminate end;
      injection WL as <-; split; reflexivity. }
  destruct WS as [-> ->]. exists m. split; [exact MD|].
  assert (DEN : 0 < (1 - wt_olap_proportion c) * inject_Z (wt_target c)) by (apply Qmult_lt_0_compat; [lra|apply inj_pos; exact T]).
  destruct (target_size_spec c m w DEN S1) as (A1 & A2 & A3). split; [exact A1|]. split; [exact A2|]. split; [exact A3|].
  unfold exact in So. destruct (qfloor_spec (wt_olap_proportion c * inject_Z w)) as [F1 F2]. rewrite So in F1, F2. rewrite inject_Z_plus. split; assumption.
Qed.

Lemma setup_size_value {rnd} (G : good_rnd rnd) c fs w : (0 < ws_win_factor c)%Z -> 0 <= fs / inject_Z (ws_win_factor c) -> fs / inject_Z (ws_win_factor c) <= inject_Z (2 ^ 53) ->
  setup_win_size rnd c fs = Ok w -> w = Z.max (ws_min_size c) (qfloor (fs / inject_Z (ws_win_factor c))).
Proof.
  intros WF P B H. unfold setup_win_size in H. destruct (ws_win_factor c =? 0)%Z eqn:E; [lia|]. clear E.
  set (q := qfloor (fs / inject_Z (ws_win_factor c))) in *.
  assert (Q0 : (0 <= q)%Z).
  { destruct (qfloor_spec (fs / inject_Z (ws_win_factor c))) as [_ A]. fold q in A. assert (inject_Z (-1) < inject_Z q); [|apply inject_Z_lt in H0; lia].
    change (inject_Z (-1)) with (-(1)). lra. }
  assert (Q1 : (q <= 2 ^ 53)%Z).
  { destruct (qfloor_spec (fs / inject_Z (ws_win_factor c))) as [A _]. fold q in A. rewrite Zle_Qle. lra. }
  pose proof (gr_int G q ltac:(rewrite Z.abs_eq by lia; exact Q1)) as R. 
  assert (T : qtrunc (rnd (inject_Z q)) = q).
  { assert (R0 : 0 <= rnd (inject_Z q)) by (rewrite R; apply inj_nonneg; exact Q0). rewrite (qtrunc_nonneg _ R0), (qfloor_comp _ _ R). apply qfloor_Z. }
  rewrite T in H. destruct (Qltb (rnd (inject_Z q)) (inject_Z (ws_min_size c))) eqn:E; injection H as <-.
  - apply Qltb_true in E. rewrite R in E. apply inject_Z_lt in E. lia.
  - destruct (Z.lt_ge_cases q (ws_min_size c)) as [L|L]; [|lia]. exfalso. 
    assert (rnd (inject_Z q) < inject_Z (ws_min_size c)) by (rewrite R; rewrite <- Zlt_Qlt; exact L). apply Qltb_true in H. congruence.
Qed.

Lemma default_sizes {rnd} (G : good_rnd rnd) c n dfs p i w fs : win_setup_run rnd c n dfs = Ok p -> ws_win_sizes c = None -> (0 <= n)%Z ->
  (0 < ws_win_factor c)%Z -> (0 <= ws_min_size c)%Z -> nth_error (wp_win_sizes p) i = Some w -> nth_error dfs i = Some fs -> 0 <= fs -> fs <= inject_Z (2 ^ 53) ->
  w = Z.max (ws_min_size c) (qfloor (fs / inject_Z (ws_win_factor c))).
Proof.
  intros H W N F M Hw Hf F0 F1. destruct (c35_sizes rnd c n dfs p N H) as (_ & _ & _ & _ & _ & _ & K & _).
  destruct (K W M i w Hw) as (_ & fs' & Hf' & S). assert (fs' = fs) as -> by congruence.
  assert (D : 0 < inject_Z (ws_win_factor c)) by (apply inj_pos; exact F).
  assert (D1 : 1 <= inject_Z (ws_win_factor c)) by (change 1 with (inject_Z 1); rewrite <- Zle_Qle; lia).
  apply (setup_size_value G c fs w F); [apply Qle_shift_div_l; lra| |exact S]. apply Qle_shift_div_r; [exact D|].
  assert (0 <= inject_Z (2 ^ 53)) by (apply inj_nonneg; lia). set (z := inject_Z (2 ^ 53)) in *. nra.
Qed.
Lemma default_overlaps c n dfs p i w o : win_setup_run exact c n dfs = Ok p -> ws_olap_sizes c = None -> (0 <= n)%Z -> 0 <= ws_olap_proportion c ->
  nth_error (wp_win_sizes p) i = Some w -> nth_error (wp_olap_sizes p) i = Some o -> (0 <= w)%Z ->
  o = Z.max (ws_min_olap c) (qfloor (inject_Z w * ws_olap_proportion c)).
Proof.
  intros H W N P Hw Ho W0. destruct (c35_sizes exact c n dfs p N H) as (_ & _ & _ & _ & _ & _ & _ & K).
  rewrite (K W), nth_error_map, Hw in Ho. cbn [option_map] in Ho. injection Ho as <-. unfold setup_olap_size, exact.
  assert (0 <= inject_Z w * ws_olap_proportion c) by (apply Qmult_le_0_compat; [apply inj_nonneg; exact W0|exact P]).
  rewrite (qtrunc_nonneg _ H0). destruct (Z.ltb_spec (qfloor (inject_Z w * ws_olap_proportion c)) (ws_min_olap c)); lia.
Qed.

(** the table has a row for every window from the first to the last *)
Lemma table_globals rnd nt ndl ref m w o table : get_win_table rnd nt ndl ref m w o = Ok table ->
  exists f l, get_first_and_last_win rnd ref m w o = Ok (f, l) /\ forall g, In g (map wr_global table) <-> (f <= g <= l)%Z.
Proof.
  intros H. unfold get_win_table in H. apply bind_ok in H. destruct H as ([f l] & H1 & H). exists f, l. split; [exact H1|].
  destruct (w - o =? 0)%Z; [discriminate|]. apply bind_ok in H. destruct H as (st & H2 & H).
  unfold datetime_array_estimate in H2. destruct (Qeq_bool _ 0); [discriminate|]. destruct (_ <? 0)%Z; [discriminate|].
  assert (CM : forall (A : Type) (g : Z -> A) (L : list Z), combine L (map g L) = map (fun k => (k, g k)) L).
  { intros A g L. induction L as [|a L IH]; [reflexivity|]. cbn [combine map]. rewrite IH. reflexivity. }
  injection H2 as <-. rewrite CM, map_map in H. injection H as <-. rewrite map_map. intros g. rewrite in_map_iff.
  split.
  - intros (k & <- & Hk). cbn [wr_global]. apply In_nth_error in Hk. destruct Hk as [i Hi].
    assert (Hl : (i < length (arange (l - f + 1)))%nat) by (apply nth_error_Some; congruence).
    rewrite arange_length in Hl. rewrite (arange_nth _ i Hl) in Hi. assert (k = Z.of_nat i) as -> by congruence. lia.
  - intros Hg. exists (g - f)%Z. split; [cbn [wr_global]; lia|]. apply (nth_error_In _ (Z.to_nat (g - f))).
    rewrite arange_nth by lia. f_equal. lia.
Qed.
