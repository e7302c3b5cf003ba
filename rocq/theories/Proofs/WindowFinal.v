From Coq Require Import String.
From Verif Require Import Base.Prelude Base.Rounding Base.ListUtil Base.NdArray Model.Sampling Model.Time Model.Decimate Model.Window
  Spec.Sampling Spec.Window Proofs.Sampling Proofs.SamplingFloat Proofs.TimeMeta Proofs.DecParams Proofs.Window Proofs.WindowTable Proofs.WindowRun.
Open Scope Q_scope.

(** ** C30, C31, C32, C33 *)
Lemma c30 rnd nt ndl ref m w o table : recorded rnd m -> precise rnd ref m -> ref <= lm_first m -> (0 <= o < w)%Z -> (w <= 2 ^ 52)%Z ->
  get_win_table rnd nt ndl ref m w o = Ok table ->
  exists g0 s0, forall i r, nth_error table i = Some r ->
    wr_local r = Z.of_nat i /\ wr_global r = (g0 + Z.of_nat i)%Z /\ wr_from r = (s0 + Z.of_nat i * (w - o))%Z /\
    (0 <= wr_from r)%Z /\ wr_to r = (wr_from r + w - 1)%Z /\ (wr_to r <= lm_n_samples m - 1)%Z.
Proof.
  intros R P Hr Ho Hw HT. pose proof (faithful_precise rnd ref m w o R Hr P ltac:(lia)) as FA.
  destruct (table_spec _ _ _ _ _ FA nt ndl table ltac:(lia) HT) as (f & l & s0 & _ & _ & _ & _ & K).
  exists f, s0. intros i r Hi. destruct (K i r Hi) as (K1 & K2 & K3 & _).
  destruct (table_inside _ _ _ _ _ FA nt ndl table i r ltac:(lia) HT Hi) as (A1 & A2 & A3 & _). repeat split; assumption.
Qed.

Lemma c31 rnd nt ndl ref m w o table i r : recorded rnd m -> precise rnd ref m -> ref <= lm_first m -> (0 <= o < w)%Z -> (w <= 2 ^ 52)%Z ->
  get_win_table rnd nt ndl ref m w o = Ok table -> nth_error table i = Some r ->
  let t := stamp (lm_first m) (1 / lm_fs m) (wr_from r) in
  let s := window_start ref (lm_fs m) w o (wr_global r) in
  s - 1 / lm_fs m < t /\ t <= s /\
  ((exists k, lm_first m - ref == inject_Z k / lm_fs m) -> t == s).
Proof.
  intros R P Hr Ho Hw HT Hi. cbv zeta. pose proof (faithful_precise rnd ref m w o R Hr P ltac:(lia)) as FA.
  destruct (table_inside _ _ _ _ _ FA nt ndl table i r ltac:(lia) HT Hi) as (A1 & A2 & A3 & A4 & A5).
  assert (F : 0 < lm_fs m) by apply R.
  assert (E : stamp (lm_first m) (1 / lm_fs m) (wr_from r + 1) == stamp (lm_first m) (1 / lm_fs m) (wr_from r) + 1 / lm_fs m).
  { unfold stamp. rewrite inject_Z_plus. change (inject_Z 1) with 1. ring. }
  rewrite E in A5. split; [lra|]. split; [exact A4|]. intros (k & Hk).
  set (j := (wr_global r * (w - o) - k - wr_from r)%Z).
  assert (D : window_start ref (lm_fs m) w o (wr_global r) - stamp (lm_first m) (1 / lm_fs m) (wr_from r) == inject_Z j / lm_fs m).
  { unfold window_start, stamp. assert (X : lm_first m == ref + inject_Z k / lm_fs m) by (rewrite <- Hk; ring). rewrite X.
    unfold j. assert (Y : inject_Z (wr_global r * (w - o) - k - wr_from r) == inject_Z (wr_global r) * inject_Z (w - o) - inject_Z k - inject_Z (wr_from r)).
    { rewrite <- inject_Z_mult. unfold Z.sub at 1 2. rewrite !inject_Z_plus, !inject_Z_opp. reflexivity. }
    rewrite Y. field. lra. }
  assert (J0 : j = 0%Z).
  { assert (D0 : 0 <= inject_Z j / lm_fs m) by lra. assert (D1 : inject_Z j / lm_fs m < 1 / lm_fs m) by lra.
    assert (E0 : 0 <= inject_Z j).
    { assert (Y : inject_Z j == inject_Z j / lm_fs m * lm_fs m) by (field; lra). rewrite Y. apply Qmult_le_0_compat; lra. }
    assert (E1 : inject_Z j < 1).
    { assert (Y : inject_Z j == inject_Z j / lm_fs m * lm_fs m) by (field; lra). rewrite Y.
      assert (Y2 : 1 == 1 / lm_fs m * lm_fs m) by (field; lra). rewrite Y2. nra. }
    change 0 with (inject_Z 0) in E0. change 1 with (inject_Z 1) in E1. apply (proj2 (inject_Z_le _ _)) in E0. apply (proj2 (inject_Z_lt _ _)) in E1. lia. }
  rewrite J0 in D. assert (Z0 : inject_Z 0 / lm_fs m == 0) by (unfold Qdiv; ring). rewrite Z0 in D. lra.
Qed.

Lemma c32 rnd ref m w o f l : recorded rnd m -> precise rnd ref m -> ref <= lm_first m -> (0 <= o < w)%Z -> (w <= 2 ^ 52)%Z ->
  get_first_and_last_win rnd ref m w o = Ok (f, l) ->
  forall g, fits ref m w o g <-> (f <= g <= l)%Z.
Proof.
  intros R P Hr Ho Hw H. pose proof (faithful_precise rnd ref m w o R Hr P ltac:(lia)) as FA.
  destruct (first_last_spec _ _ _ _ _ FA f l ltac:(lia) H) as (A1 & A2 & A3 & A4 & _).
  assert (F : 0 < lm_fs m) by apply R.
  assert (MONO : forall a b, (a <= b)%Z -> window_start ref (lm_fs m) w o a <= window_start ref (lm_fs m) w o b).
  { intros a b Hab. unfold window_start. pose proof (inj_pos (w - o) ltac:(lia)).
    assert (inject_Z a * inject_Z (w - o) / lm_fs m <= inject_Z b * inject_Z (w - o) / lm_fs m); [|lra].
    apply Qmult_le_compat_r; [|apply Qlt_le_weak, Qinv_lt_0_compat; assumption].
    apply Qmult_le_compat_r; [apply (proj1 (inject_Z_le _ _)); lia|lra]. }
  intros g. unfold fits. split.
  - intros [G1 G2]. split.
    + destruct (Z_le_gt_dec f g) as [|L]; [assumption|]. pose proof (MONO g (f - 1)%Z ltac:(lia)). lra.
    + destruct (Z_le_gt_dec g l) as [|L]; [assumption|]. pose proof (MONO (l + 1)%Z g ltac:(lia)). unfold window_end in *. lra.
  - intros [G1 G2]. split.
    + pose proof (MONO f g G1). lra.
    + pose proof (MONO g l G2). unfold window_end in *. lra.
Qed.

Lemma c32_complete rnd ref m w o f l : get_first_and_last_win rnd ref m w o = Ok (f, l) ->
  win_to_datetime ref l (inc_duration rnd w o (lm_fs m)) + win_duration rnd w (lm_fs m) <= lm_last m.
Proof.
  intros H. unfold get_first_and_last_win in H. destruct (Qeq_bool _ _); [discriminate|].
  apply bind_ok in H. destruct H as (f' & _ & H). apply bind_ok in H. destruct H as (l' & _ & H).
  destruct (Qltb _ _) eqn:E; [discriminate|]. injection H as <- <-. apply Qltb_false in E. exact E.
Qed.

Lemma c33_half rnd ref m w o : recorded rnd m -> precise rnd ref m -> ref <= lm_first m -> (0 <= o < w)%Z -> (w <= 2 ^ 52)%Z ->
  (2 * o <= w + 1)%Z -> exists f l, get_first_and_last_win rnd ref m w o = Ok (f, l).
Proof.
  intros R P Hr Ho Hw H. pose proof (faithful_precise rnd ref m w o R Hr P ltac:(lia)) as FA.
  pose proof (first_last_succeeds _ _ _ _ _ FA H) as K. destruct (get_first_and_last_win rnd ref m w o) as [[f l]|]; [|discriminate].
  exists f, l. reflexivity.
Qed.

Lemma c33_fail rnd ref m w o K : recorded rnd m -> precise rnd ref m -> ref <= lm_first m -> (0 <= o < w)%Z -> (w <= 2 ^ 52)%Z ->
  (w + 1 < 2 * o)%Z -> lm_last m == window_start ref (lm_fs m) w o K ->
  get_first_and_last_win rnd ref m w o = Err ValueError.
Proof.
  intros R P Hr Ho Hw H HK. pose proof (faithful_precise rnd ref m w o R Hr P ltac:(lia)) as FA.
  assert (F : 0 < lm_fs m) by apply R. pose proof (inj_pos (w - o) ltac:(lia)) as PW.
  rewrite (first_last_eq _ _ _ _ _ FA). cbv zeta.
  assert (G : g_last0 ref m w o = K).
  { unfold g_last0. assert (E : (lm_last m - ref) * lm_fs m / inject_Z (w - o) == inject_Z K).
    { rewrite HK. unfold window_start. field. split; lra. }
    rewrite (qfloor_comp _ _ E). apply qfloor_Z. }
  rewrite G. destruct (adjust_last_spec ref (lm_last m) (inc_duration rnd w o (lm_fs m)) (win_duration rnd w (lm_fs m)) 2 K) as (i & Hi & E & _ & H3).
  rewrite E. destruct (Qltb (lm_last m) (window_end ref (lm_fs m) w o (K - Z.of_nat i))) eqn:L; [reflexivity|]. exfalso. apply Qltb_false in L.
  assert (X : window_end ref (lm_fs m) w o (K - Z.of_nat i) - lm_last m == inject_Z (w - 1 - Z.of_nat i * (w - o)) / lm_fs m).
  { rewrite HK. unfold window_end, window_start.
    assert (Y1 : inject_Z (w - 1 - Z.of_nat i * (w - o)) == inject_Z (w - 1) - inject_Z (Z.of_nat i) * inject_Z (w - o)) by (rewrite <- inject_Z_mult; unfold Z.sub at 1; rewrite inject_Z_plus, inject_Z_opp; reflexivity).
    assert (Y2 : inject_Z (K - Z.of_nat i) == inject_Z K - inject_Z (Z.of_nat i)) by (unfold Z.sub at 1; rewrite inject_Z_plus, inject_Z_opp; reflexivity).
    rewrite Y1, Y2. field. lra. }
  assert (Y : 0 < inject_Z (w - 1 - Z.of_nat i * (w - o)) / lm_fs m).
  { apply Qlt_shift_div_l; [assumption|]. rewrite Qmult_0_l. apply inj_pos. assert (Z.of_nat i * (w - o) <= 2 * (w - o))%Z by (apply Z.mul_le_mono_nonneg_r; lia). lia. }
  lra.
Qed.

(** ** C34 *)
Lemma c34_local d level m x i : wd_level_md d level = Ok m -> wd_get_level d level = Ok x -> nd_len x = Ok (wl_n_wins m) ->
  (forall j, (j < 0)%Z \/ (wl_n_wins m <= j)%Z -> get_local d level j = Err ValueError) /\
  ((0 <= i < wl_n_wins m)%Z -> exists y, nd_nth x (Z.to_nat i) = Some y /\ get_local d level i = Ok y).
Proof.
  intros H1 H2 H3. unfold get_local. rewrite H1. cbv beta iota delta [bind]. split.
  - intros j Hj. destruct (Z.ltb_spec j 0); [reflexivity|]. rewrite Z.geb_leb. destruct (Z.leb_spec (wl_n_wins m) j); [reflexivity|lia].
  - intros Hi. destruct (Z.ltb_spec i 0); [lia|]. rewrite Z.geb_leb. destruct (Z.leb_spec (wl_n_wins m) i); [lia|]. cbn [orb]. rewrite H2.
    destruct x as [c|l]; [discriminate|]. cbn [nd_len] in H3. injection H3 as H3. cbn [nd_nth].
    destruct (nth_error l (Z.to_nat i)) as [y|] eqn:E; [exists y; auto|]. apply nth_error_None in E. lia.
Qed.
Lemma c34_global d level m g : wd_level_md d level = Ok m -> get_global d level g = get_local d level (g + wl_offset m).
Proof. intros H. unfold get_global. rewrite H. reflexivity. Qed.
(** a window that is present is never returned under its own index, when the offset is positive *)
Lemma c34_global_wrong d level m x g : wd_level_md d level = Ok m -> wd_get_level d level = Ok x -> nd_len x = Ok (wl_n_wins m) ->
  (0 < wl_offset m)%Z -> (wl_offset m <= g < wl_offset m + wl_n_wins m)%Z ->
  get_global d level g = Err ValueError \/
  exists y, nd_nth x (Z.to_nat (g - wl_offset m + 2 * wl_offset m)) = Some y /\ get_global d level g = Ok y.
Proof.
  intros H1 H2 H3 Ho Hg. rewrite (c34_global _ _ _ _ H1). destruct (c34_local d level m x (g + wl_offset m) H1 H2 H3) as [A1 A2].
  destruct (Z_lt_le_dec (g + wl_offset m) (wl_n_wins m)) as [L|L].
  - right. replace (g - wl_offset m + 2 * wl_offset m)%Z with (g + wl_offset m)%Z by lia. apply A2. lia.
  - left. apply A1. lia.
Qed.

(** ** C35 *)
Lemma py_slice_firstn {A} n (l : list A) : (0 <= n <= Z.of_nat (length l))%Z -> py_slice 0 n 1 l = Ok (firstn (Z.to_nat n) l).
Proof.
  intros Hn. unfold py_slice. cbn [Z.eqb Z.ltb Z.compare]. cbv zeta.
  destruct (Z.ltb_spec n 0); [lia|]. change (0 <? 0)%Z with false. cbv iota. rewrite (Z.min_r _ 0) by lia. rewrite (Z.min_r _ n) by lia.
  replace ((n - 0 + 1 - 1) / 1)%Z with n by (rewrite Z.div_1_r; lia). f_equal.
  destruct l as [|d0 l']; [cbn in Hn; replace n with 0%Z by lia; reflexivity|]. set (l := d0 :: l') in *.
  rewrite (flat_some _ (fun i => nth i l d0)).
  2:{ intros i Hi. replace (Z.to_nat (0 + Z.of_nat i * 1)) with i by lia. apply nth_error_nth'. lia. }
  apply nth_error_ext'. intros i. rewrite nth_error_firstn, nth_error_map. destruct (Nat.ltb_spec i (Z.to_nat n)) as [L|L].
  - assert (nth_error (seq 0 (Z.to_nat n)) i = Some i) as E. { rewrite (nth_error_nth' _ 0%nat) by (rewrite seq_length; lia). rewrite seq_nth by lia. reflexivity. }
    rewrite E. cbn [option_map]. symmetry. apply nth_error_nth'. lia.
  - assert (nth_error (seq 0 (Z.to_nat n)) i = None) as -> by (apply nth_error_None; rewrite seq_length; lia). reflexivity.
Qed.
Lemma fit_levels_spec n l r : (0 <= n)%Z -> fit_levels n l = Ok r -> r = firstn (Z.to_nat n) l /\ Z.of_nat (length r) = n.
Proof.
  intros Hn. unfold fit_levels. destruct (Z.ltb_spec (Z.of_nat (length l)) n); [discriminate|]. rewrite Z.gtb_ltb.
  destruct (Z.ltb_spec n (Z.of_nat (length l))).
  - rewrite py_slice_firstn by lia. intros [= <-]. split; [reflexivity|]. rewrite firstn_length. lia.
  - intros [= <-]. split; [|lia]. symmetry. apply firstn_all2. lia.
Qed.
Lemma fit_levels_short n l : (Z.of_nat (length l) < n)%Z -> fit_levels n l = Err ValueError.
Proof. intros H. unfold fit_levels. destruct (Z.ltb_spec (Z.of_nat (length l)) n); [reflexivity|lia]. Qed.

Lemma qtrunc_nonneg x : 0 <= x -> qtrunc x = qfloor x.
Proof. intros H. unfold qtrunc. replace (Qltb x 0) with false by (symmetry; apply Qltb_false; exact H). reflexivity. Qed.

Lemma setup_win_size_ge rnd c fs w : (0 <= ws_min_size c)%Z -> setup_win_size rnd c fs = Ok w -> (ws_min_size c <= w)%Z.
Proof.
  intros H0 H. unfold setup_win_size in H. destruct (Z.eqb_spec (ws_win_factor c) 0); [discriminate|]. cbv zeta in H.
  destruct (Qltb _ _) eqn:E in H; [injection H as <-; lia|]. apply Qltb_false in E.
  pose proof (inj_nonneg _ H0).
  set (y := rnd (inject_Z (qfloor (fs / inject_Z (ws_win_factor c))))) in *.
  assert (EW : w = qtrunc y) by congruence. rewrite EW. clear EW H. rewrite (qtrunc_nonneg y) by lra. destruct (qfloor_spec y) as [A B].
  assert (inject_Z (ws_min_size c) < inject_Z (qfloor y + 1)) by (rewrite inject_Z_plus; change (inject_Z 1) with 1; lra).
  apply inject_Z_lt in H. lia.
Qed.
Lemma setup_olap_lt {rnd} (G : good_rnd rnd) c w : (1 <= w)%Z -> (ws_min_olap c < w)%Z -> 0 <= ws_olap_proportion c ->
  ws_olap_proportion c <= 1 - (1 # 9007199254740992) -> (ws_min_olap c <= setup_olap_size rnd c w < w)%Z.
Proof.
  intros Hw Hm P0 P1. unfold setup_olap_size. cbv zeta.
  set (x := inject_Z w * ws_olap_proportion c). pose proof (inj_pos w ltac:(lia)) as PW.
  assert (X0 : 0 <= x) by (unfold x; apply Qmult_le_0_compat; lra).
  pose proof (gr_nonneg G x X0) as R0. pose proof (gr_err _ G x) as E. apply Qabs_Qle_condition in E. rewrite (Qabs_pos x X0) in E.
  rewrite (qtrunc_nonneg _ R0). destruct (qfloor_spec (rnd x)) as [A B].
  assert (XW : x <= inject_Z w * (1 - (1 # 9007199254740992))) by (unfold x; rewrite (Qmult_comm (inject_Z w)), (Qmult_comm (inject_Z w)); apply Qmult_le_compat_r; lra).
  assert (L : inject_Z (qfloor (rnd x)) < inject_Z w) by lra.
  apply inject_Z_lt in L. destruct (Z.ltb_spec (qfloor (rnd x)) (ws_min_olap c)); lia.
Qed.

Lemma Forall2_combine_in {A B} (l : list A) (l' : list B) (P : A -> B -> Prop) : length l = length l' ->
  (forall i a b, nth_error l i = Some a -> nth_error l' i = Some b -> P a b) -> Forall2 P l l'.
Proof.
  revert l'. induction l as [|a l IH]; intros [|b l'] L H; try discriminate; constructor.
  - exact (H 0%nat a b eq_refl eq_refl).
  - apply IH; [cbn in L; lia|]. intros i x y Hx Hy. exact (H (S i) x y Hx Hy).
Qed.

Lemma c35_sizes rnd c n dfs p : (0 <= n)%Z -> win_setup_run rnd c n dfs = Ok p ->
  wp_n_levels p = n /\ wp_min_n_wins p = ws_min_n_wins c /\
  Z.of_nat (length (wp_win_sizes p)) = n /\ Z.of_nat (length (wp_olap_sizes p)) = n /\
  (forall l, ws_win_sizes c = Some l -> wp_win_sizes p = firstn (Z.to_nat n) l) /\
  (forall l, ws_olap_sizes c = Some l -> wp_olap_sizes p = firstn (Z.to_nat n) l) /\
  (ws_win_sizes c = None -> (0 <= ws_min_size c)%Z -> forall i w, nth_error (wp_win_sizes p) i = Some w ->
     (ws_min_size c <= w)%Z /\ exists fs, nth_error dfs i = Some fs /\ setup_win_size rnd c fs = Ok w) /\
  (ws_olap_sizes c = None -> wp_olap_sizes p = map (setup_olap_size rnd c) (wp_win_sizes p)).
Proof.
  intros Hn H. unfold win_setup_run in H. apply bind_ok in H. destruct H as (ws & H1 & H). apply bind_ok in H. destruct H as (ws' & H2 & H).
  apply bind_ok in H. destruct H as (os' & H3 & H). injection H as <-. cbn [wp_n_levels wp_min_n_wins wp_win_sizes wp_olap_sizes].
  destruct (fit_levels_spec _ _ _ Hn H2) as [E2 L2]. destruct (fit_levels_spec _ _ _ Hn H3) as [E3 L3].
  repeat split; try assumption; try reflexivity.
  - intros l El. rewrite El in H1. injection H1 as <-. exact E2.
  - intros l El. rewrite El in E3. exact E3.
  - rewrite H in H1. unfold setup_win_sizes in H1. apply mapM_ok in H1.
    assert (HW : nth_error ws i = Some w). { rewrite E2, nth_error_firstn in H4. destruct (Nat.ltb i (Z.to_nat n)); [exact H4|discriminate]. }
    destruct (Forall2_nth_error_r _ _ _ _ _ H1 HW) as (j & _ & Hj). destruct (nth_error dfs j) as [fs|]; [|discriminate].
    exact (setup_win_size_ge _ _ _ _ H0 Hj).
  - rewrite H in H1. unfold setup_win_sizes in H1. apply mapM_ok in H1.
    assert (HW : nth_error ws i = Some w). { rewrite E2, nth_error_firstn in H4. destruct (Nat.ltb i (Z.to_nat n)); [exact H4|discriminate]. }
    destruct (Forall2_nth_error_r _ _ _ _ _ H1 HW) as (j & Ej & Hj).
    assert (j = i). { assert (i < Z.to_nat n)%nat. { rewrite <- (seq_length (Z.to_nat n) 0). apply nth_error_Some. rewrite Ej. discriminate. }
      rewrite (nth_error_nth' _ 0%nat) in Ej by (rewrite seq_length; lia). rewrite seq_nth in Ej by lia. injection Ej as <-. reflexivity. }
    subst j. destruct (nth_error dfs i) as [fs|]; [|discriminate]. exists fs. auto.
  - intros El. rewrite El in E3. rewrite E3. apply firstn_all2. rewrite map_length. lia.
Qed.

Lemma c35_usable rnd c n dfs p : good_rnd rnd -> (0 <= n)%Z -> win_setup_run rnd c n dfs = Ok p ->
  ws_win_sizes c = None -> ws_olap_sizes c = None -> (0 < ws_min_olap c < ws_min_size c)%Z ->
  0 <= ws_olap_proportion c -> ws_olap_proportion c <= 1 - (1 # 9007199254740992) ->
  Forall2 (fun w o => (ws_min_size c <= w)%Z /\ (0 < o < w)%Z) (wp_win_sizes p) (wp_olap_sizes p).
Proof.
  intros G Hn H N1 N2 Hm P0 P1. destruct (c35_sizes _ _ _ _ _ Hn H) as (_ & _ & L1 & L2 & _ & _ & A & B).
  specialize (A N1 ltac:(lia)). specialize (B N2). apply Forall2_combine_in; [lia|].
  intros i w o Hw Ho. destruct (A i w Hw) as [A1 _]. split; [exact A1|].
  rewrite B, nth_error_map, Hw in Ho. cbn [option_map] in Ho. injection Ho as <-.
  pose proof (setup_olap_lt G c w ltac:(lia) ltac:(lia) P0 P1). lia.
Qed.
Lemma c35_reject rnd c n dfs : (exists l, ws_win_sizes c = Some l /\ (Z.of_nat (length l) < n)%Z) ->
  win_setup_run rnd c n dfs = Err ValueError.
Proof. intros (l & E & L). unfold win_setup_run. rewrite E. cbn [bind]. rewrite (fit_levels_short _ _ L). reflexivity. Qed.
Lemma c35_reject_olap rnd c n dfs : (exists l, ws_win_sizes c = Some l) -> (exists l, ws_olap_sizes c = Some l /\ (Z.of_nat (length l) < n)%Z) ->
  win_setup_run rnd c n dfs = Err ValueError.
Proof.
  intros (lw & Ew) (l & E & L). unfold win_setup_run. rewrite Ew, E. cbn [bind].
  destruct (fit_levels n lw) as [x|e] eqn:F; cbn [bind].
  - rewrite (fit_levels_short _ _ L). reflexivity.
  - unfold fit_levels in F. destruct (Z.of_nat (length lw) <? n)%Z eqn:T; [injection F as <-; reflexivity|].
    destruct (_ >? _)%Z; [|discriminate]. unfold py_slice in F. cbn [Z.eqb] in F. discriminate.
Qed.

(** ** C36-C38 *)
Lemma windower_levels rnd nt ndl ref p d wd : windower_run rnd nt ndl ref p d = Ok wd ->
  let sizes := fun ilevel (_ : level_md) => (w <- wp_level p (wp_win_sizes p) ilevel ;; o <- wp_level p (wp_olap_sizes p) ilevel ;; Ok (w, o)) in
  wd_ref wd = ref /\ wd_fs wd = dd_fs d /\ wd_chans wd = dd_chans d /\
  exists xs wls, window_loop rnd nt ndl sizes true (wp_min_n_wins p) ref d (arange (dd_n_levels d)) = Ok (xs, wls) /\
    wd_data wd = xs /\ wd_levels wd = wls /\ wd_n_levels wd = Z.of_nat (length wls) /\ xs <> [].
Proof.
  intros H sizes. unfold windower_run in H. apply bind_ok in H. destruct H as ([xs wls] & H1 & H).
  unfold make_windowed in H. destruct xs as [|x xs]; [discriminate|]. injection H as <-. cbn [wd_ref wd_fs wd_chans wd_data wd_levels wd_n_levels].
  repeat split. exists (x :: xs), wls. repeat split; try assumption. discriminate.
Qed.
Lemma target_levels rnd nt ndl c ref p d wd : windower_target_run rnd nt ndl c ref p d = Ok wd ->
  let sizes := fun (_ : Z) (m : level_md) => (w <- target_win_size rnd c m ;; Ok (w, qfloor (rnd (wt_olap_proportion c * inject_Z w)))) in
  wd_ref wd = dd_first d /\ wd_fs wd = dd_fs d /\ wd_chans wd = dd_chans d /\
  exists xs wls, window_loop rnd nt ndl sizes false (wp_min_n_wins p) ref d (arange (dd_n_levels d)) = Ok (xs, wls) /\
    wd_data wd = xs /\ wd_levels wd = wls /\ wd_n_levels wd = Z.of_nat (length wls) /\ xs <> [].
Proof.
  intros H sizes. unfold windower_target_run in H. apply bind_ok in H. destruct H as ([xs wls] & H1 & H).
  unfold make_windowed in H. destruct xs as [|x xs]; [discriminate|]. injection H as <-. cbn [wd_ref wd_fs wd_chans wd_data wd_levels wd_n_levels].
  repeat split. exists (x :: xs), wls. repeat split; try assumption. discriminate.
Qed.

Lemma firstn_arange k n : (k <= Z.to_nat n)%nat -> firstn k (arange n) = arange (Z.of_nat k).
Proof.
  intros H. apply nth_error_ext'. intros i. rewrite nth_error_firstn. destruct (Nat.ltb_spec i k).
  - rewrite !arange_nth by lia. reflexivity.
  - symmetry. apply nth_error_None. rewrite arange_length. lia.
Qed.

Lemma find_key {A} (xs : list (Z * A)) k i x : map fst xs = arange k -> nth_error xs i = Some x ->
  fst x = Z.of_nat i /\ find (fun kv => Z.eqb (fst kv) (Z.of_nat i)) xs = Some x.
Proof.
  intros M H.
  assert (F : forall j y, nth_error xs j = Some y -> fst y = Z.of_nat j).
  { intros j y Hy. assert (nth_error (map fst xs) j = Some (fst y)) by (rewrite nth_error_map, Hy; reflexivity).
    rewrite M in H0. assert (j < length (arange k))%nat by (apply nth_error_Some; rewrite H0; discriminate). rewrite arange_length in H1.
    rewrite arange_nth in H0 by exact H1. injection H0 as <-. reflexivity. }
  split; [apply F; exact H|]. clear M.
  assert (GEN : forall b j, (forall i y, nth_error xs i = Some y -> fst y = Z.of_nat (b + i)) -> nth_error xs j = Some x ->
     find (fun kv => Z.eqb (fst kv) (Z.of_nat (b + j))) xs = Some x).
  { clear. induction xs as [|y xs IH]; intros b j F H; [destruct j; discriminate|]. cbn [find]. destruct j as [|j].
    - cbn [nth_error] in H. injection H as ->. rewrite (F 0%nat x eq_refl). rewrite Z.eqb_refl. reflexivity.
    - rewrite (F 0%nat y eq_refl). destruct (Z.eqb_spec (Z.of_nat (b + 0)) (Z.of_nat (b + S j))); [lia|].
      replace (b + S j)%nat with (S b + j)%nat by lia. apply IH; [|exact H]. intros i z Hz. rewrite (F (S i) z Hz). f_equal. lia. }
  exact (GEN 0%nat i F H).
Qed.

(** what is known about level [i] of a windowed data set cut by the loop *)
Lemma run_level rnd nt ndl sizes check mn ref d xs wls wd n :
  window_loop rnd nt ndl sizes check mn ref d (arange n) = Ok (xs, wls) -> wd_data wd = xs -> wd_levels wd = wls ->
  wd_n_levels wd = Z.of_nat (length wls) ->
  length xs = length wls /\ (length xs <= Z.to_nat n)%nat /\ map fst xs = arange (Z.of_nat (length xs)) /\
  ((Z.of_nat (length xs) < n)%Z -> level_short rnd nt ndl sizes mn ref d (Z.of_nat (length xs))) /\
  forall i x, wd_get_level wd (Z.of_nat i) = Ok x ->
    exists wl m w o table ld, nth_error wls i = Some wl /\ nth_error xs i = Some (Z.of_nat i, x) /\
     wd_level_md wd (Z.of_nat i) = Ok wl /\
     level_done rnd nt ndl sizes check mn ref d (Z.of_nat i) x wl m w o table ld.
Proof.
  intros H D L N. destruct (window_loop_spec _ _ _ _ _ _ _ _ _ _ _ H) as (S1 & S2 & S3 & S4 & S5).
  rewrite arange_length in S2. rewrite firstn_arange in S3 by exact S2.
  split; [exact S1|]. split; [exact S2|]. split; [exact S3|]. split.
  - intros Hn. apply S5. rewrite arange_nth by lia. reflexivity.
  - intros i x Hx. unfold wd_get_level in Hx. rewrite N, D, Z.geb_leb in Hx.
    destruct (Z.leb_spec (Z.of_nat (length wls)) (Z.of_nat i)) as [|Hi]; [discriminate|].
    destruct (nth_error wls i) as [wl|] eqn:E; [|apply nth_error_None in E; lia].
    destruct (nth_error xs i) as [[lev y]|] eqn:E2; [|apply nth_error_None in E2; lia].
    destruct (find_key _ _ _ _ S3 E2) as [K1 K2]. cbn [fst] in K1. subst lev. rewrite K2 in Hx. injection Hx as ->.
    destruct (S4 i _ _ _ E2 E) as (m & w & o & table & ld & LD). exists wl, m, w, o, table, ld. repeat split; try assumption; try apply LD.
    unfold wd_level_md. rewrite L. unfold py_nth. destruct (Z.ltb_spec (Z.of_nat i) 0); [lia|]. destruct (Z.ltb_spec (Z.of_nat i) 0); [lia|]. rewrite Nat2Z.id, E. reflexivity.
Qed.

(** ** C39 *)
Lemma c39_exact ref k inc m : (0 <= k)%Z -> 0 < inc -> datetime_to_win exact ref (win_to_datetime ref k inc) inc m = Ok k.
Proof.
  intros Hk Hi. pose proof (inj_nonneg k Hk). rewrite dtw_ok.
  - assert (E : win_quot exact ref (win_to_datetime ref k inc) inc == inject_Z k).
    { unfold win_quot. unfold exact at 1. rewrite !total_seconds_exact. unfold win_to_datetime. field. lra. }
    f_equal. destruct m; [rewrite (qround_comp _ _ E)|rewrite (qfloor_comp _ _ E)|rewrite (qceil_comp _ _ E)]; [apply qround_Z|apply qfloor_Z|apply qceil_Z].
  - unfold win_to_datetime. nra.
  - rewrite total_seconds_exact. lra.
Qed.

Lemma c39_pow2 ref k s p m : (0 <= k)%Z -> (0 < s)%Z -> (k * s < 2 ^ 53)%Z -> (s <= 2 ^ 53)%Z -> (p <= 7)%Z ->
  let inc := inject_Z s * pow2 (- p) in datetime_to_win b64 ref (win_to_datetime ref k inc) inc m = Ok k.
Proof.
  intros Hk Hs Hb Hs2 Hp inc. pose proof (inj_nonneg k Hk). pose proof (inj_pos s Hs) as PS. pose proof (pow2_pos (-p)) as PP.
  assert (PI : 0 < inc) by (unfold inc; nra).
  assert (TI : total_seconds b64 inc == inc) by (apply (total_seconds_128 _ s p); [assumption|lia|reflexivity]).
  assert (KS : (0 <= k * s)%Z) by nia.
  assert (TD : total_seconds b64 (win_to_datetime ref k inc - ref) == inject_Z k * inc).
  { assert (E : win_to_datetime ref k inc - ref == inject_Z (k * s) * pow2 (-p)) by (unfold win_to_datetime, inc; rewrite inject_Z_mult; ring).
    rewrite (total_seconds_128 _ (k * s) p Hp ltac:(lia) E). unfold win_to_datetime. ring. }
  rewrite dtw_ok.
  - assert (E : win_quot b64 ref (win_to_datetime ref k inc) inc == inject_Z k).
    { unfold win_quot. assert (X : total_seconds b64 (win_to_datetime ref k inc - ref) / total_seconds b64 inc == inject_Z k) by (rewrite TD, TI; field; lra).
      rewrite (b64_comp _ _ X). apply (gr_int b64_good). nia. }
    f_equal. destruct m; [rewrite (qround_comp _ _ E)|rewrite (qfloor_comp _ _ E)|rewrite (qceil_comp _ _ E)]; [apply qround_Z|apply qfloor_Z|apply qceil_Z].
  - unfold win_to_datetime. nra.
  - rewrite TI. lra.
Qed.

Lemma total_seconds_approx {rnd} (G : good_rnd rnd) d : 0 <= d -> approx 4 d (total_seconds rnd d).
Proof.
  intros Hd. unfold total_seconds, to_seconds. cbn [fst snd].
  pose proof (td_seconds_range d) as Rs. pose proof (td_micros_range d) as Rm.
  destruct (td_nanos_range d) as [Rn _].
  assert (Rd : (0 <= td_days d)%Z).
  { unfold td_days. destruct (qfloor_spec (d / inject_Z 86400)) as [A B].
    assert (0 <= d / inject_Z 86400). { change (d / inject_Z 86400) with (d * (1 # 86400)). lra. }
    assert (inject_Z (-1) < inject_Z (qfloor (d / inject_Z 86400))) as L by (change (inject_Z (-1)) with (-(1)); lra).
    rewrite <- inject_Z_lt in L. lia. }
  pose proof inj_nonneg as P0.
  set (us := td_micros d) in *. set (s := td_seconds d) in *. set (dd := td_days d) in *. set (ns := td_nanos d) in *.
  assert (Pu : 0 <= inject_Z us / inject_Z 1000000).
  { change (inject_Z us / inject_Z 1000000) with (inject_Z us * (1#1000000)). assert (0 <= inject_Z us) by (apply P0; lia). lra. }
  apply approx_comp with (x := inject_Z (dd * 86400) + (inject_Z s + inject_Z us / inject_Z 1000000 + ns / inject_Z 1000000000)).
  { apply td_sum. }
  apply approx_rnd; [exact G|]. apply approx_add.
  { do 3 apply approx_S. apply approx_refl. apply P0. lia. }
  apply approx_rnd; [exact G|]. apply approx_add.
  - apply approx_rnd; [exact G|]. apply approx_add.
    + apply approx_S. apply approx_refl. apply P0. lia.
    + apply approx_rnd; [exact G|]. apply approx_refl. exact Pu.
  - apply approx_rnd; [exact G|].
    change (rnd ns / inject_Z 1000000000) with (rnd ns * (1#1000000000)).
    change (ns / inject_Z 1000000000) with (ns * (1#1000000000)).
    apply approx_mul; [discriminate|].
    apply approx_rnd; [exact G|]. apply approx_refl. exact Rn.
Qed.

(** the computed number of increments is within 11 rounding errors of the true one *)
Lemma win_quot_err {rnd} (G : good_rnd rnd) ref t inc : ref <= t -> 0 < inc ->
  let q := (t - ref) / inc in
  0 < total_seconds rnd inc /\
  q * (1 - 11 * uu) <= win_quot rnd ref t inc /\ win_quot rnd ref t inc <= q * (1 + 11 * uu).
Proof.
  intros Ht Hi. cbv zeta. set (q := (t - ref) / inc).
  assert (D0 : 0 <= t - ref) by lra.
  destruct (total_seconds_approx G inc ltac:(lra)) as (_ & I1 & I2).
  destruct (total_seconds_approx G (t - ref) D0) as (_ & D1 & D2).
  assert (L4 : 1 - (9#2) * uu <= lo 4) by (vm_compute; discriminate). assert (H4 : hi 4 <= 1 + (9#2) * uu) by (vm_compute; discriminate).
  set (I := total_seconds rnd inc) in *. set (D := total_seconds rnd (t - ref)) in *.
  assert (I1' : inc * (1 - (9#2) * uu) <= I) by (eapply Qle_trans; [|exact I1]; rewrite !(Qmult_comm inc); apply Qmult_le_compat_r; lra).
  assert (I2' : I <= inc * (1 + (9#2) * uu)) by (eapply Qle_trans; [exact I2|]; rewrite !(Qmult_comm inc); apply Qmult_le_compat_r; lra).
  assert (D1' : (t - ref) * (1 - (9#2) * uu) <= D) by (eapply Qle_trans; [|exact D1]; rewrite !(Qmult_comm (t - ref)); apply Qmult_le_compat_r; lra).
  assert (D2' : D <= (t - ref) * (1 + (9#2) * uu)) by (eapply Qle_trans; [exact D2|]; rewrite !(Qmult_comm (t - ref)); apply Qmult_le_compat_r; lra).
  assert (IP : 0 < I). { unfold uu in I1'. lra. }
  split; [exact IP|].
  assert (Q0 : 0 <= q). { unfold q. apply Qle_shift_div_l; [assumption|]. lra. }
  assert (QE : t - ref == q * inc) by (unfold q; field; lra).
  (* D / I between q (1 - 9.1 u) and q (1 + 9.1 u) *)
  assert (U1 : D / I <= q * (1 + (91#10) * uu)).
  { apply Qle_shift_div_r; [assumption|]. 
    apply Qle_trans with ((t - ref) * (1 + (9#2) * uu)); [exact D2'|]. rewrite QE.
    apply Qle_trans with (q * (1 + (91#10) * uu) * (inc * (1 - (9#2) * uu))).
    - assert (X : q * inc * (1 + (9#2) * uu) <= q * inc * ((1 + (91#10) * uu) * (1 - (9#2) * uu))).
      { assert (0 <= q * inc) by (apply Qmult_le_0_compat; lra). rewrite !(Qmult_comm (q * inc)). apply Qmult_le_compat_r; [vm_compute; discriminate|assumption]. }
      assert (Y : q * (1 + (91#10) * uu) * (inc * (1 - (9#2) * uu)) == q * inc * ((1 + (91#10) * uu) * (1 - (9#2) * uu))) by ring. rewrite Y. exact X.
    - assert (Z0 : 0 <= q * (1 + (91#10) * uu)) by (apply Qmult_le_0_compat; [exact Q0|vm_compute; discriminate]).
      rewrite (Qmult_comm (q * (1 + (91#10) * uu))), (Qmult_comm (q * (1 + (91#10) * uu)) I). apply Qmult_le_compat_r; assumption. }
  assert (U2 : q * (1 - (91#10) * uu) <= D / I).
  { apply Qle_shift_div_l; [assumption|]. 
    apply Qle_trans with ((t - ref) * (1 - (9#2) * uu)); [|exact D1']. rewrite QE.
    apply Qle_trans with (q * (1 - (91#10) * uu) * (inc * (1 + (9#2) * uu))).
    - assert (Z0 : 0 <= q * (1 - (91#10) * uu)) by (apply Qmult_le_0_compat; [exact Q0|vm_compute; discriminate]).
      rewrite (Qmult_comm (q * (1 - (91#10) * uu))), (Qmult_comm (q * (1 - (91#10) * uu)) (inc * _)). apply Qmult_le_compat_r; assumption.
    - assert (X : q * inc * ((1 - (91#10) * uu) * (1 + (9#2) * uu)) <= q * inc * (1 - (9#2) * uu)).
      { assert (0 <= q * inc) by (apply Qmult_le_0_compat; lra). rewrite !(Qmult_comm (q * inc)). apply Qmult_le_compat_r; [vm_compute; discriminate|assumption]. }
      assert (Y : q * (1 - (91#10) * uu) * (inc * (1 + (9#2) * uu)) == q * inc * ((1 - (91#10) * uu) * (1 + (9#2) * uu))) by ring. rewrite Y. exact X. }
  unfold win_quot. fold D I. assert (P : 0 <= D / I). { assert (0 <= q * (1 - (91#10) * uu)) by (apply Qmult_le_0_compat; [exact Q0|vm_compute; discriminate]). lra. }
  pose proof (gr_err _ G (D / I)) as E. apply Qabs_Qle_condition in E. rewrite (Qabs_pos _ P) in E. fold uu in E.
  set (x := D / I) in *. split.
  - assert (q * (1 - 11 * uu) <= q * ((1 - (91#10) * uu) * (1 - uu))) by (rewrite !(Qmult_comm q); apply Qmult_le_compat_r; [vm_compute; discriminate|assumption]).
    assert (q * (1 - (91#10) * uu) * (1 - uu) <= x * (1 - uu)) by (apply Qmult_le_compat_r; [exact U2|vm_compute; discriminate]). 
    assert (Y : q * ((1 - (91#10) * uu) * (1 - uu)) == q * (1 - (91#10) * uu) * (1 - uu)) by ring. rewrite Y in H.
    assert (Y2 : x * (1 - uu) == x - x * uu) by ring. rewrite Y2 in H0. lra.
  - assert (q * ((1 + (91#10) * uu) * (1 + uu)) <= q * (1 + 11 * uu)) by (rewrite !(Qmult_comm q); apply Qmult_le_compat_r; [vm_compute; discriminate|assumption]).
    assert (x * (1 + uu) <= q * (1 + (91#10) * uu) * (1 + uu)) by (apply Qmult_le_compat_r; [exact U1|vm_compute; discriminate]). 
    assert (Y : q * ((1 + (91#10) * uu) * (1 + uu)) == q * (1 + (91#10) * uu) * (1 + uu)) by ring. rewrite Y in H.
    assert (Y2 : x * (1 + uu) == x + x * uu) by ring. rewrite Y2 in H0. lra.
Qed.
Lemma win_quot_abs {rnd} (G : good_rnd rnd) ref t inc : ref <= t -> 0 < inc -> (t - ref) / inc <= inject_Z (2 ^ 48) ->
  ~ total_seconds rnd inc == 0 /\ Qabs (win_quot rnd ref t inc - (t - ref) / inc) < 1 # 2.
Proof.
  intros Ht Hi Hb. destruct (win_quot_err G ref t inc Ht Hi) as (A & B & C). cbv zeta in *. split; [lra|].
  set (q := (t - ref) / inc) in *. assert (Q0 : 0 <= q). { unfold q. apply Qle_shift_div_l; [assumption|]. lra. }
  change (inject_Z (2 ^ 48)) with (281474976710656 # 1) in Hb. unfold uu in *. apply Qabs_case; intros; lra.
Qed.

Lemma qround_near x k : Qabs (x - inject_Z k) < 1 # 2 -> qround x = k.
Proof.
  intros H. assert (H' : - (1#2) < x - inject_Z k /\ x - inject_Z k < 1#2) by (revert H; apply Qabs_case; intros; lra).
  pose proof (qround_spec x) as R. apply Qabs_Qle_condition in R.
  assert (inject_Z (k - 1) < inject_Z (qround x)) by (unfold Z.sub; rewrite inject_Z_plus; change (inject_Z (-(1))) with (-(1)); lra).
  assert (inject_Z (qround x) < inject_Z (k + 1)) by (rewrite inject_Z_plus; change (inject_Z 1) with 1; lra).
  apply inject_Z_lt in H0. apply inject_Z_lt in H1. lia.
Qed.

Lemma c39_round rnd ref k inc : good_rnd rnd -> (0 <= k <= 2 ^ 48)%Z -> 0 < inc ->
  datetime_to_win rnd ref (win_to_datetime ref k inc) inc Mround = Ok k /\
  (forall m j, datetime_to_win rnd ref (win_to_datetime ref k inc) inc m = Ok j -> (k - 1 <= j <= k + 1)%Z).
Proof.
  intros G Hk Hi. pose proof (inj_nonneg k ltac:(lia)) as K0.
  assert (Ht : ref <= win_to_datetime ref k inc) by (unfold win_to_datetime; nra).
  assert (E : (win_to_datetime ref k inc - ref) / inc == inject_Z k) by (unfold win_to_datetime; field; lra).
  destruct (win_quot_abs G ref _ inc Ht Hi) as [NZ A]. { rewrite E. apply (proj1 (inject_Z_le _ _)). lia. }
  rewrite E in A. split; [rewrite dtw_ok by assumption; f_equal; apply qround_near; exact A|].
  intros m j. rewrite dtw_ok by assumption. intros [= <-]. destruct m.
  - rewrite (qround_near _ _ A). lia.
  - pose proof (near_floor _ _ A) as X. rewrite qfloor_Z in X. lia.
  - pose proof (near_ceil _ _ A) as X. rewrite qceil_Z in X. lia.
Qed.

(** the first window found with any rounding is at most one away from the earliest *)
Lemma c32_near rnd ref m w o f l : good_rnd rnd -> 0 < inc_duration rnd w o (lm_fs m) -> ref <= lm_first m ->
  (lm_first m - ref) / inc_duration rnd w o (lm_fs m) <= inject_Z (2 ^ 48) ->
  get_first_and_last_win rnd ref m w o = Ok (f, l) ->
  (Z.abs (f - qceil ((lm_first m - ref) / inc_duration rnd w o (lm_fs m))) <= 1)%Z.
Proof.
  intros G Hi Hr Hb H. destruct (win_quot_abs G ref _ _ Hr Hi Hb) as [NZ A].
  unfold get_first_and_last_win in H. destruct (Qeq_bool _ _); [discriminate|]. rewrite dtw_ok in H by assumption. cbv beta iota delta [bind] in H.
  destruct (datetime_to_win rnd ref (lm_last m) _ Mfloor); [|discriminate]. cbv zeta in H. destruct (Qltb _ _); [discriminate|]. injection H as <- <-.
  pose proof (near_ceil _ _ A). lia.
Qed.

(** ** levels of a run *)
Lemma loop_contents rnd nt ndl sizes check mn ref d lev x wl m w o table ld :
  level_done rnd nt ndl sizes check mn ref d lev x wl m w o table ld ->
  recorded rnd m -> precise rnd ref m -> ref <= lm_first m -> (o < w)%Z -> (w <= 2 ^ 52)%Z -> shape_ok d m ld ->
  (2 <= w < lm_n_samples m)%Z ->
  ((2 <= length (dd_chans d))%nat ->
   nd_len x = Ok (Z.of_nat (length table)) /\
   forall i r ch row s, nth_error table i = Some r -> nth_error ld ch = Some row -> (0 <= s < w)%Z ->
     exists v, nth_error row (Z.to_nat (wr_from r + s)) = Some v /\ nd_at x [i; ch; Z.to_nat s] = Some (Sc v)) /\
  (length (dd_chans d) = 1%nat ->
   nd_len x = Ok (Z.of_nat (length table)) /\
   forall i r row s, nth_error table i = Some r -> nth_error ld 0 = Some row -> (0 <= s < w)%Z ->
     nd_at x [i; Z.to_nat s] = option_map Sc (nth_error row (Z.to_nat (wr_from r + s)))).
Proof.
  intros LD R P Hr Hwo Hw [RC LC] H2.
  destruct (level_metadata_spec _ _ _ _ _ _ _ _ _ (ld_table _ _ _ _ _ _ _ _ _ _ _ _ _ _ _ _ LD) (ld_wl _ _ _ _ _ _ _ _ _ _ _ _ _ _ _ _ LD)) as (f & l & _ & W0 & O0 & _).
  pose proof (faithful_precise rnd ref m w o R Hr P ltac:(lia)) as FA.
  destruct (level_contents rnd nt ndl ref m w o table ld (Z.of_nat (length (dd_chans d))) x ltac:(lia) FA
     (ld_table _ _ _ _ _ _ _ _ _ _ _ _ _ _ _ _ LD) RC ltac:(lia) (ld_data _ _ _ _ _ _ _ _ _ _ _ _ _ _ _ _ LD)) as [A B].
  split.
  - intros C2. destruct (A ltac:(lia) H2) as [A1 A2]. split; [exact A1|]. intros i r ch row s Hi Hrow Hs.
    destruct (A2 i r ch row s Hi Hrow Hs) as [A3 A4]. rewrite A3.
    destruct (nth_error row (Z.to_nat (wr_from r + s))) as [v|] eqn:E; [exists v; auto|]. apply nth_error_None in E. lia.
  - intros C1. apply B; [lia|exact H2].
Qed.

Lemma c36_windower rnd nt ndl ref p d wd i x : windower_run rnd nt ndl ref p d = Ok wd -> wd_get_level wd (Z.of_nat i) = Ok x ->
  exists m w o table ld, nth_error (dd_levels_md d) i = Some m /\
    nth_error (wp_win_sizes p) i = Some w /\ nth_error (wp_olap_sizes p) i = Some o /\
    get_win_table rnd nt ndl ref m w o = Ok table /\ get_level d (Z.of_nat i) = Ok ld /\
    (recorded rnd m -> precise rnd ref m -> ref <= lm_first m -> (o < w)%Z -> (w <= 2 ^ 52)%Z -> shape_ok d m ld ->
     (2 <= w < lm_n_samples m)%Z -> (2 <= length (dd_chans d))%nat ->
     nd_len x = Ok (Z.of_nat (length table)) /\
     forall k r ch row s, nth_error table k = Some r -> nth_error ld ch = Some row -> (0 <= s < w)%Z ->
       exists v, nth_error row (Z.to_nat (wr_from r + s)) = Some v /\ nd_at x [k; ch; Z.to_nat s] = Some (Sc v)).
Proof.
  intros H Hx. destruct (windower_levels _ _ _ _ _ _ _ H) as (_ & _ & _ & xs & wls & HL & D & L & N & _).
  destruct (run_level _ _ _ _ _ _ _ _ _ _ _ _ HL D L N) as (_ & _ & _ & _ & K).
  destruct (K i x Hx) as (wl & m & w & o & table & ld & E1 & E2 & E3 & LD).
  pose proof (ld_sizes _ _ _ _ _ _ _ _ _ _ _ _ _ _ _ _ LD) as SZ. cbv beta in SZ.
  apply bind_ok in SZ. destruct SZ as (w' & S1 & SZ). apply bind_ok in SZ. destruct SZ as (o' & S2 & SZ). injection SZ as -> ->.
  pose proof (ld_md _ _ _ _ _ _ _ _ _ _ _ _ _ _ _ _ LD) as MD. rewrite Nat2Z.id in MD.
  assert (WP : forall l y, wp_level p l (Z.of_nat i) = Ok y -> nth_error l i = Some y).
  { intros l0 y0. unfold wp_level. destruct (_ || _); [discriminate|]. rewrite Nat2Z.id. destruct (nth_error l0 i); [intros [= ->]; reflexivity|discriminate]. }
  exists m, w, o, table, ld. split; [exact MD|]. split; [apply WP; exact S1|]. split; [apply WP; exact S2|].
  split; [apply LD|]. split; [apply LD|]. intros R P Hr Hwo Hw SH H2 C2.
  apply (proj1 (loop_contents _ _ _ _ _ _ _ _ _ _ _ _ _ _ _ _ LD R P Hr Hwo Hw SH H2) C2).
Qed.
Lemma c36_target rnd nt ndl c ref p d wd i x : windower_target_run rnd nt ndl c ref p d = Ok wd -> wd_get_level wd (Z.of_nat i) = Ok x ->
  exists m w o table ld, nth_error (dd_levels_md d) i = Some m /\ target_win_size rnd c m = Ok w /\
    o = qfloor (rnd (wt_olap_proportion c * inject_Z w)) /\
    get_win_table rnd nt ndl ref m w o = Ok table /\ get_level d (Z.of_nat i) = Ok ld /\
    (recorded rnd m -> precise rnd ref m -> ref <= lm_first m -> (o < w)%Z -> (w <= 2 ^ 52)%Z -> shape_ok d m ld ->
     (2 <= w < lm_n_samples m)%Z -> (2 <= length (dd_chans d))%nat ->
     nd_len x = Ok (Z.of_nat (length table)) /\
     forall k r ch row s, nth_error table k = Some r -> nth_error ld ch = Some row -> (0 <= s < w)%Z ->
       exists v, nth_error row (Z.to_nat (wr_from r + s)) = Some v /\ nd_at x [k; ch; Z.to_nat s] = Some (Sc v)).
Proof.
  intros H Hx. destruct (target_levels _ _ _ _ _ _ _ _ H) as (_ & _ & _ & xs & wls & HL & D & L & N & _).
  destruct (run_level _ _ _ _ _ _ _ _ _ _ _ _ HL D L N) as (_ & _ & _ & _ & K).
  destruct (K i x Hx) as (wl & m & w & o & table & ld & E1 & E2 & E3 & LD).
  pose proof (ld_sizes _ _ _ _ _ _ _ _ _ _ _ _ _ _ _ _ LD) as SZ. cbv beta in SZ.
  apply bind_ok in SZ. destruct SZ as (w' & S1 & SZ). assert (w' = w /\ qfloor (rnd (wt_olap_proportion c * inject_Z w')) = o) as [-> So] by (split; congruence).
  pose proof (ld_md _ _ _ _ _ _ _ _ _ _ _ _ _ _ _ _ LD) as MD. rewrite Nat2Z.id in MD.
  exists m, w, o, table, ld. split; [exact MD|]. split; [exact S1|]. split; [symmetry; exact So|].
  split; [apply LD|]. split; [apply LD|]. intros R P Hr Hwo Hw SH H2 C2.
  apply (proj1 (loop_contents _ _ _ _ _ _ _ _ _ _ _ _ _ _ _ _ LD R P Hr Hwo Hw SH H2) C2).
Qed.
(** one channel: a two dimensional array whatever the data *)
Lemma c36_one_channel rnd nt ndl ref p d wd i x m w o table ld : windower_run rnd nt ndl ref p d = Ok wd -> wd_get_level wd (Z.of_nat i) = Ok x ->
  nth_error (dd_levels_md d) i = Some m -> nth_error (wp_win_sizes p) i = Some w -> nth_error (wp_olap_sizes p) i = Some o ->
  get_win_table rnd nt ndl ref m w o = Ok table -> get_level d (Z.of_nat i) = Ok ld ->
  recorded rnd m -> precise rnd ref m -> ref <= lm_first m -> (o < w)%Z -> (w <= 2 ^ 52)%Z -> shape_ok d m ld ->
  (2 <= w < lm_n_samples m)%Z -> length (dd_chans d) = 1%nat ->
  forall k r row s, nth_error table k = Some r -> nth_error ld 0 = Some row -> (0 <= s < w)%Z ->
    nd_at x [k; Z.to_nat s] = option_map Sc (nth_error row (Z.to_nat (wr_from r + s))).
Proof.
  intros H Hx M0 W0 O0 T0 L0 R P Hr Hwo Hw SH H2 C1.
  destruct (windower_levels _ _ _ _ _ _ _ H) as (_ & _ & _ & xs & wls & HL & D & L & N & _).
  destruct (run_level _ _ _ _ _ _ _ _ _ _ _ _ HL D L N) as (_ & _ & _ & _ & K).
  destruct (K i x Hx) as (wl & m' & w' & o' & table' & ld' & E1 & E2 & E3 & LD).
  pose proof (ld_sizes _ _ _ _ _ _ _ _ _ _ _ _ _ _ _ _ LD) as SZ. cbv beta in SZ.
  apply bind_ok in SZ. destruct SZ as (w2 & S1 & SZ). apply bind_ok in SZ. destruct SZ as (o2 & S2 & SZ). injection SZ as -> ->.
  pose proof (ld_md _ _ _ _ _ _ _ _ _ _ _ _ _ _ _ _ LD) as MD. rewrite Nat2Z.id in MD.
  assert (WP : forall l y, wp_level p l (Z.of_nat i) = Ok y -> nth_error l i = Some y).
  { intros l0 y0. unfold wp_level. destruct (_ || _); [discriminate|]. rewrite Nat2Z.id. destruct (nth_error l0 i); [intros [= ->]; reflexivity|discriminate]. }
  apply WP in S1. apply WP in S2. assert (m' = m) by congruence. assert (w' = w) by congruence. assert (o' = o) by congruence. subst m' w' o'.
  pose proof (ld_table _ _ _ _ _ _ _ _ _ _ _ _ _ _ _ _ LD) as T1. pose proof (ld_level _ _ _ _ _ _ _ _ _ _ _ _ _ _ _ _ LD) as L1.
  assert (table' = table) by congruence. assert (ld' = ld) by congruence. subst table' ld'.
  exact (proj2 (proj2 (loop_contents _ _ _ _ _ _ _ _ _ _ _ _ _ _ _ _ LD R P Hr Hwo Hw SH H2) C1)).
Qed.

(** ** C37 *)
Lemma c37_windower rnd nt ndl ref p d wd i x : windower_run rnd nt ndl ref p d = Ok wd -> wd_get_level wd (Z.of_nat i) = Ok x ->
  exists wl m w o table, wd_level_md wd (Z.of_nat i) = Ok wl /\ nth_error (dd_levels_md d) i = Some m /\
    nth_error (wp_win_sizes p) i = Some w /\ nth_error (wp_olap_sizes p) i = Some o /\
    get_win_table rnd nt ndl ref m w o = Ok table /\
    nd_len x = Ok (wl_n_wins wl) /\ wl_n_wins wl = Z.of_nat (length table) /\
    (forall k r, nth_error table k = Some r -> wr_global r = (wl_offset wl + Z.of_nat k)%Z) /\
    get_win_starts rnd nt ndl (wd_ref wd) (wl_win_size wl) (wl_olap_size wl) (wl_fs wl) (wl_n_wins wl) (wl_offset wl) = Ok (map wr_start table).
Proof.
  intros H Hx. destruct (windower_levels _ _ _ _ _ _ _ H) as (RF & _ & _ & xs & wls & HL & D & L & N & _).
  destruct (run_level _ _ _ _ _ _ _ _ _ _ _ _ HL D L N) as (_ & _ & _ & _ & K).
  destruct (K i x Hx) as (wl & m & w & o & table & ld & E1 & E2 & E3 & LD).
  pose proof (ld_sizes _ _ _ _ _ _ _ _ _ _ _ _ _ _ _ _ LD) as SZ. cbv beta in SZ.
  apply bind_ok in SZ. destruct SZ as (w2 & S1 & SZ). apply bind_ok in SZ. destruct SZ as (o2 & S2 & SZ). injection SZ as -> ->.
  pose proof (ld_md _ _ _ _ _ _ _ _ _ _ _ _ _ _ _ _ LD) as MD. rewrite Nat2Z.id in MD.
  assert (WP : forall l y, wp_level p l (Z.of_nat i) = Ok y -> nth_error l i = Some y).
  { intros l0 y0. unfold wp_level. destruct (_ || _); [discriminate|]. rewrite Nat2Z.id. destruct (nth_error l0 i); [intros [= ->]; reflexivity|discriminate]. }
  pose proof (ld_table _ _ _ _ _ _ _ _ _ _ _ _ _ _ _ _ LD) as T1.
  destruct (level_metadata_spec _ _ _ _ _ _ _ _ _ T1 (ld_wl _ _ _ _ _ _ _ _ _ _ _ _ _ _ _ _ LD)) as (f & l & F1 & W0 & O0 & EW & EL & ST).
  destruct (table_struct _ _ _ _ _ _ _ _ T1) as (f' & l' & st & F2 & _ & _ & _ & _ & _ & TS). rewrite F1 in F2. injection F2 as <- <-.
  exists wl, m, w, o, table. rewrite RF, EW. cbn [wl_n_wins wl_offset wl_win_size wl_olap_size wl_fs].
  split; [rewrite <- EW; exact E3|]. split; [exact MD|]. split; [apply WP; exact S1|]. split; [apply WP; exact S2|]. split; [exact T1|].
  split; [exact (ld_check _ _ _ _ _ _ _ _ _ _ _ _ _ _ _ _ LD eq_refl)|]. split; [reflexivity|]. split; [intros k r Hk; apply (TS k r Hk)|exact ST].
Qed.

(** ** C38 *)
Lemma c38 rnd nt ndl ref p d wd : windower_run rnd nt ndl ref p d = Ok wd ->
  wd_n_levels wd = Z.of_nat (length (wd_levels wd)) /\ length (wd_data wd) = length (wd_levels wd) /\
  map fst (wd_data wd) = arange (wd_n_levels wd) /\ (1 <= wd_n_levels wd)%Z /\ (wd_n_levels wd <= Z.max 0 (dd_n_levels d))%Z /\
  wd_fs wd = dd_fs d /\
  (forall i, (Z.of_nat i < wd_n_levels wd)%Z -> exists m w o table, nth_error (dd_levels_md d) i = Some m /\
     nth_error (wp_win_sizes p) i = Some w /\ nth_error (wp_olap_sizes p) i = Some o /\
     get_win_table rnd nt ndl ref m w o = Ok table /\ (wp_min_n_wins p <= Z.of_nat (length table))%Z) /\
  ((wd_n_levels wd < dd_n_levels d)%Z -> exists m w o table, let i := Z.to_nat (wd_n_levels wd) in
     nth_error (dd_levels_md d) i = Some m /\
     nth_error (wp_win_sizes p) i = Some w /\ nth_error (wp_olap_sizes p) i = Some o /\
     get_win_table rnd nt ndl ref m w o = Ok table /\ (Z.of_nat (length table) < wp_min_n_wins p)%Z).
Proof.
  intros H. destruct (windower_levels _ _ _ _ _ _ _ H) as (RF & FS & _ & xs & wls & HL & D & L & N & NE).
  destruct (run_level _ _ _ _ _ _ _ _ _ _ _ _ HL D L N) as (A1 & A2 & A3 & A4 & _).
  destruct (window_loop_spec _ _ _ _ _ _ _ _ _ _ _ HL) as (_ & _ & _ & A5 & _).
  assert (WP : forall l j y, (0 <= j)%Z -> wp_level p l j = Ok y -> nth_error l (Z.to_nat j) = Some y).
  { intros l0 j y0 Hj. unfold wp_level. destruct (_ || _); [discriminate|]. destruct (nth_error l0 _); [intros [= ->]; reflexivity|discriminate]. }
  rewrite N, L, D. split; [reflexivity|]. split; [exact A1|]. split; [rewrite <- A1; exact A3|].
  split; [destruct xs; [contradiction|]; cbn in A1; lia|]. split; [lia|]. split; [exact FS|]. split.
  - intros i Hi. destruct (nth_error wls i) as [wl|] eqn:E; [|apply nth_error_None in E; lia].
    destruct (nth_error xs i) as [[lev y]|] eqn:E2; [|apply nth_error_None in E2; lia].
    destruct (find_key _ _ _ _ A3 E2) as [K1 _]. cbn [fst] in K1. subst lev.
    destruct (A5 i _ _ _ E2 E) as (m & w & o & table & ld & LD).
    pose proof (ld_sizes _ _ _ _ _ _ _ _ _ _ _ _ _ _ _ _ LD) as SZ. cbv beta in SZ.
    apply bind_ok in SZ. destruct SZ as (w2 & S1 & SZ). apply bind_ok in SZ. destruct SZ as (o2 & S2 & SZ). injection SZ as -> ->.
    pose proof (ld_md _ _ _ _ _ _ _ _ _ _ _ _ _ _ _ _ LD) as MD. rewrite Nat2Z.id in MD.
    apply WP in S1; [|lia]. apply WP in S2; [|lia]. rewrite Nat2Z.id in S1, S2. exists m, w, o, table. repeat split; try assumption; apply LD.
  - intros Hn. rewrite <- A1 in Hn. destruct (A4 Hn) as (m & w & o & table & M1 & SZ & T1 & S). cbv beta in SZ.
    apply bind_ok in SZ. destruct SZ as (w2 & S1 & SZ). apply bind_ok in SZ. destruct SZ as (o2 & S2 & SZ). injection SZ as -> ->.
    apply WP in S1; [|lia]. apply WP in S2; [|lia]. exists m, w, o, table. cbv zeta. rewrite <- A1. repeat split; assumption.
Qed.
