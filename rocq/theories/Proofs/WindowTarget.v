(** C72: sizes of WindowerTarget in rounded arithmetic *)
From Coq Require Import String.
From Verif Require Import Base.Prelude Base.Rounding Base.ListUtil Base.NdArray Model.Sampling Model.Time Model.Decimate Model.Window
  Spec.Sampling Spec.Window Proofs.Sampling Proofs.SamplingFloat Proofs.TimeMeta Proofs.Window Proofs.WindowTable Proofs.WindowRun Proofs.WindowFinal Proofs.WindowMore Proofs.DecParams Proofs.Calibrate.
Open Scope Q_scope.

Lemma target_size_rounded {rnd} (G : good_rnd rnd) c m w : let D := (1 - wt_olap_proportion c) * inject_Z (wt_target c) in let eps := 1 # 1125899906842624 in
  0 <= wt_olap_proportion c -> wt_olap_proportion c < 1 -> (0 < wt_target c)%Z -> (0 <= lm_n_samples m)%Z -> target_win_size rnd c m = Ok w ->
  (wt_min_size c <= w)%Z /\ inject_Z (lm_n_samples m) * (1 - eps) < inject_Z (w + 1) * D /\
  ((wt_min_size c < w)%Z -> inject_Z w * D <= inject_Z (lm_n_samples m) * (1 + eps)).
Proof.
  intros D eps P0 P1 T N H. unfold target_win_size in H.
  set (u := 1 # 9007199254740992). set (o1 := 1 - wt_olap_proportion c) in *. set (tg := inject_Z (wt_target c)) in *.
  assert (T0 : 0 < tg) by (apply inj_pos; exact T).
  assert (O0 : 0 < o1) by (unfold o1; lra).
  destruct (rnd_bounds G o1 ltac:(lra)) as [R1 R2].
  assert (D0 : 0 < D) by (apply Qmult_lt_0_compat; assumption).
  assert (M1 : o1 * (1 - u) * tg <= rnd o1 * tg) by (apply Qmult_le_compat_r; [exact R1|lra]).
  assert (M2 : rnd o1 * tg <= o1 * (1 + u) * tg) by (apply Qmult_le_compat_r; [exact R2|lra]).
  assert (E1 : o1 * (1 - u) * tg == D * (1 - u)) by (unfold D; ring). assert (E2 : o1 * (1 + u) * tg == D * (1 + u)) by (unfold D; ring).
  assert (X0 : 0 <= rnd o1 * tg) by (unfold u in *; lra).
  destruct (rnd_bounds G (rnd o1 * tg) X0) as [S1 S2].
  set (den := rnd (rnd o1 * tg)) in *.
  assert (B1 : D * (1 - 3 * u) <= den) by (unfold u in *; lra).
  assert (B2 : den <= D * (1 + 3 * u)) by (unfold u in *; lra).
  assert (De0 : 0 < den) by (unfold u in *; lra).
  destruct (Qeq_bool den 0) eqn:E; [discriminate|]. clear E.
  set (n := inject_Z (lm_n_samples m)) in *. assert (N0 : 0 <= n) by (unfold n; change 0 with (inject_Z 0); rewrite <- inject_Z_le; exact N).
  set (y := n / den) in *. assert (Y0 : 0 <= y) by (apply Qle_shift_div_l; lra).
  destruct (rnd_bounds G y Y0) as [Y1 Y2]. destruct (qfloor_spec (rnd y)) as [A1 A2]. set (q := qfloor (rnd y)) in *.
  assert (X : y * den == n) by (unfold y; field; lra).
  assert (YD : 0 <= y * D) by (apply Qmult_le_0_compat; lra).
  assert (V1 : y * (D * (1 - 3 * u)) <= y * den) by (rewrite !(Qmult_comm y); apply Qmult_le_compat_r; assumption).
  assert (V2 : y * den <= y * (D * (1 + 3 * u))) by (rewrite !(Qmult_comm y); apply Qmult_le_compat_r; assumption).
  assert (Q1 : inject_Z q * D <= n * (1 + eps)).
  { apply Qle_trans with (y * (1 + u) * D); [apply Qmult_le_compat_r; [unfold u; lra|lra]|]. unfold u, eps in *. lra. }
  assert (Q2 : n * (1 - eps) < (inject_Z q + 1) * D).
  { apply Qle_lt_trans with (y * (1 - u) * D); [unfold u, eps in *; lra|]. apply Qmult_lt_compat_r; [exact D0|]. unfold u; lra. }
  destruct (Z.ltb_spec q (wt_min_size c)) as [L|L]; injection H as <-.
  - split; [lia|]. split; [|lia]. apply Qlt_le_trans with ((inject_Z q + 1) * D); [exact Q2|].
    apply Qmult_le_compat_r; [|lra]. change 1 with (inject_Z 1). rewrite <- inject_Z_plus. rewrite <- Zle_Qle. lia.
  - split; [exact L|]. split; [rewrite inject_Z_plus; exact Q2|]. intros _. exact Q1.
Qed.

Lemma target_sizes_rounded rnd nt ndl c ref p d wd i wl : good_rnd rnd -> windower_target_run rnd nt ndl c ref p d = Ok wd -> nth_error (wd_levels wd) i = Some wl ->
  0 <= wt_olap_proportion c -> wt_olap_proportion c < 1 -> (0 < wt_target c)%Z -> (forall m, In m (dd_levels_md d) -> (0 <= lm_n_samples m)%Z) -> (0 <= wt_min_size c)%Z ->
  let advance := (1 - wt_olap_proportion c) * inject_Z (wt_target c) in let eps := 1 # 1125899906842624 in
  exists m, nth_error (dd_levels_md d) i = Some m /\ (wt_min_size c <= wl_win_size wl)%Z /\
    inject_Z (lm_n_samples m) * (1 - eps) < inject_Z (wl_win_size wl + 1) * advance /\
    ((wt_min_size c < wl_win_size wl)%Z -> inject_Z (wl_win_size wl) * advance <= inject_Z (lm_n_samples m) * (1 + eps)) /\
    inject_Z (wl_olap_size wl) <= wt_olap_proportion c * inject_Z (wl_win_size wl) * (1 + eps) /\
    wt_olap_proportion c * inject_Z (wl_win_size wl) * (1 - eps) < inject_Z (wl_olap_size wl + 1).
Proof.
  intros G H Hl P0 P1 T NN MS advance eps. destruct (target_levels _ _ _ _ _ _ _ _ H) as (_ & _ & _ & xs & wls & HL & D & L & N & _).
  destruct (window_loop_spec _ _ _ _ _ _ _ _ _ _ _ HL) as (L1 & L2 & L3 & K & _). rewrite L in Hl.
  destruct (nth_error xs i) as [[lev x]|] eqn:Ex.
  2:{ apply nth_error_None in Ex. assert (i < length wls)%nat by (apply nth_error_Some; congruence). lia. }
  destruct (K i lev x wl Ex Hl) as (m & w & o & table & ld & LD).
  assert (lev = Z.of_nat i) as ->.
  { assert (E : nth_error (map fst xs) i = Some lev) by (rewrite nth_error_map, Ex; reflexivity). rewrite L3 in E.
    rewrite arange_length in L2. rewrite firstn_arange in E by exact L2.
    assert (i < length xs)%nat by (apply nth_error_Some; congruence). rewrite arange_nth in E by lia. congruence. }
  pose proof (ld_md _ _ _ _ _ _ _ _ _ _ _ _ _ _ _ _ LD) as MD. rewrite Nat2Z.id in MD.
  pose proof (ld_sizes _ _ _ _ _ _ _ _ _ _ _ _ _ _ _ _ LD) as SZ. cbv beta in SZ. apply bind_ok in SZ. destruct SZ as (w' & S1 & SZ).
  assert (w' = w /\ qfloor (rnd (wt_olap_proportion c * inject_Z w')) = o) as [-> So] by (split; congruence). clear SZ.
  pose proof (ld_wl _ _ _ _ _ _ _ _ _ _ _ _ _ _ _ _ LD) as WL.
  assert (WS : wl_win_size wl = w /\ wl_olap_size wl = o).
  { unfold get_level_metadata in WL. repeat match type of WL with context [match ?x with _ => _ end] => destruct x; try discriminate end;
      injection WL as <-; split; reflexivity. }
  destruct WS as [-> ->]. exists m. split; [exact MD|].
  destruct (target_size_rounded G c m w P0 P1 T (NN m (nth_error_In _ _ MD)) S1) as (A1 & A2 & A3). split; [exact A1|]. split; [exact A2|]. split; [exact A3|].
  set (z := wt_olap_proportion c * inject_Z w) in *. assert (Z0 : 0 <= z).
  { apply Qmult_le_0_compat; [exact P0|]. change 0 with (inject_Z 0). rewrite <- inject_Z_le. lia. }
  destruct (rnd_bounds G z Z0) as [R1 R2]. destruct (qfloor_spec (rnd z)) as [F1 F2]. rewrite So in F1, F2. rewrite inject_Z_plus. unfold eps. change (inject_Z 1) with 1. split; lra.
Qed.

Lemma fit_levels_iff n (l : list Z) : (exists r, fit_levels n l = Ok r) <-> (n <= Z.of_nat (length l))%Z.
Proof.
  unfold fit_levels. destruct (Z.ltb_spec (Z.of_nat (length l)) n) as [L|L].
  - split; [intros [r H]; discriminate|lia].
  - split; [lia|]. intros _. destruct (_ >? _)%Z; [|eexists; reflexivity]. unfold py_slice. cbn [Z.eqb]. eexists. reflexivity.
Qed.
Lemma fit_levels_length n (l r : list Z) : (0 <= n)%Z -> fit_levels n l = Ok r -> Z.of_nat (length r) = n.
Proof.
  intros N H. pose (c := mkWinSetup 1 1 1 0 1 (Some l) (Some l)).
  assert (R : win_setup_run exact c n [] = Ok (mkWinParams n 1 r r)) by (unfold win_setup_run, c; cbn [ws_win_sizes ws_olap_sizes bind]; rewrite H; cbn [bind]; try rewrite H; reflexivity).
  destruct (c35_sizes _ _ _ _ _ N R) as (_ & _ & A & _). exact A.
Qed.
(** which setups are accepted *)
Lemma setup_accepted rnd c n dfs : (0 <= n)%Z ->
  (exists p, win_setup_run rnd c n dfs = Ok p) <->
  match ws_win_sizes c with Some l => (n <= Z.of_nat (length l))%Z | None => n = 0%Z \/ (ws_win_factor c <> 0 /\ n <= Z.of_nat (length dfs))%Z end /\
  match ws_olap_sizes c with Some l => (n <= Z.of_nat (length l))%Z | None => True end.
Proof.
  intros N. unfold win_setup_run. 
  assert (A : (exists ws, match ws_win_sizes c with None => setup_win_sizes rnd c n dfs | Some l => Ok l end = Ok ws /\ exists r, fit_levels n ws = Ok r) <->
              match ws_win_sizes c with Some l => (n <= Z.of_nat (length l))%Z | None => n = 0%Z \/ (ws_win_factor c <> 0 /\ n <= Z.of_nat (length dfs))%Z end).
  { destruct (ws_win_sizes c) as [l|].
    - rewrite <- fit_levels_iff. split; [intros (ws & H & R); injection H as <-; exact R|intros R; exists l; split; [reflexivity|exact R]].
    - split.
      + intros (ws & H & _). destruct (Z.eq_dec n 0) as [->|Hn]; [left; reflexivity|right]. unfold setup_win_sizes in H.
        apply mapM_ok in H.
        assert (I : nth_error (seq 0 (Z.to_nat n)) (Z.to_nat n - 1) = Some (Z.to_nat n - 1)%nat).
        { rewrite (nth_error_nth' _ 0%nat) by (rewrite seq_length; lia). rewrite seq_nth by lia. reflexivity. }
        destruct (Forall2_nth_error _ _ _ _ _ H I) as (w & W & H'). clear H. rename H' into H. cbv beta in H.
        destruct (nth_error dfs (Z.to_nat n - 1)) as [f|] eqn:F; [|discriminate].
        assert (Z.to_nat n - 1 < length dfs)%nat by (apply nth_error_Some; congruence).
        unfold setup_win_size in H. destruct (Z.eqb_spec (ws_win_factor c) 0); [discriminate|]. split; [assumption|lia].
      + intros H. assert (E : exists ws, setup_win_sizes rnd c n dfs = Ok ws).
        { unfold setup_win_sizes. apply mapM_total. intros i Hi. apply in_seq in Hi. destruct H as [->|[F L]]; [cbn in Hi; lia|].
          destruct (nth_error dfs i) as [f|] eqn:E; [|apply nth_error_None in E; lia]. unfold setup_win_size. destruct (Z.eqb_spec (ws_win_factor c) 0); [contradiction|].
          eexists. reflexivity. }
        destruct E as [ws E]. exists ws. split; [exact E|]. apply fit_levels_iff. unfold setup_win_sizes in E. apply mapM_length in E. rewrite seq_length in E. lia. }
  split.
  - intros (p & H). apply bind_ok in H. destruct H as (ws & H1 & H). apply bind_ok in H. destruct H as (r & H2 & H). cbv zeta in H. apply bind_ok in H. destruct H as (os & H3 & _).
    split; [apply A; exists ws; split; [exact H1|exists r; exact H2]|]. destruct (ws_olap_sizes c) as [l|]; [|exact I]. apply fit_levels_iff. exists os. exact H3.
  - intros (H & O). apply A in H. destruct H as (ws & H1 & r & H2).
    assert (E : exists os, fit_levels n match ws_olap_sizes c with None => map (setup_olap_size rnd c) r | Some l => l end = Ok os).
    { apply fit_levels_iff. destruct (ws_olap_sizes c); [exact O|]. rewrite map_length. rewrite (fit_levels_length _ _ _ N H2). lia. }
    destruct E as [os E]. rewrite H1. cbn [bind]. rewrite H2. cbn [bind]. rewrite E. cbn [bind]. eexists. reflexivity.
Qed.

(** default overlaps in rounded arithmetic *)
Lemma default_overlaps_rounded rnd c n dfs p i w o : good_rnd rnd -> win_setup_run rnd c n dfs = Ok p -> ws_olap_sizes c = None -> (0 <= n)%Z -> 0 <= ws_olap_proportion c ->
  nth_error (wp_win_sizes p) i = Some w -> nth_error (wp_olap_sizes p) i = Some o -> (0 <= w)%Z ->
  (ws_min_olap c <= o)%Z /\ inject_Z w * ws_olap_proportion c * (1 - (1 # 9007199254740992)) < inject_Z (o + 1) /\
  ((ws_min_olap c < o)%Z -> inject_Z o <= inject_Z w * ws_olap_proportion c * (1 + (1 # 9007199254740992))).
Proof.
  intros G H W N P Hw Ho W0. destruct (c35_sizes rnd c n dfs p N H) as (_ & _ & _ & _ & _ & _ & _ & K).
  rewrite (K W), nth_error_map, Hw in Ho. cbn [option_map] in Ho. assert (Eo : o = setup_olap_size rnd c w) by congruence. clear Ho. unfold setup_olap_size in Eo.
  set (x := inject_Z w * ws_olap_proportion c) in *.
  assert (X0 : 0 <= x) by (apply Qmult_le_0_compat; [apply inj_nonneg; exact W0|exact P]).
  destruct (rnd_bounds G x X0) as [R1 R2]. cbv zeta in Eo. rewrite (qtrunc_nonneg _ (gr_nonneg G _ X0)) in Eo. destruct (qfloor_spec (rnd x)) as [F1 F2].
  destruct (Z.ltb_spec (qfloor (rnd x)) (ws_min_olap c)) as [L|L]; rewrite Eo; clear Eo.
  - split; [lia|]. split; [|lia]. apply Qle_lt_trans with (rnd x); [exact R1|]. apply Qlt_le_trans with (inject_Z (qfloor (rnd x)) + 1); [exact F2|].
    change 1 with (inject_Z 1) at 1. rewrite <- inject_Z_plus, <- Zle_Qle. lia.
  - split; [exact L|]. rewrite inject_Z_plus. change (inject_Z 1) with 1. split; [lra|]. intros _. lra.
Qed.
