(** Proofs for C92 *)
From Coq Require Import String.
From Verif Require Import Base.Prelude Base.Rounding Base.ListUtil Base.NdArray Base.Cplx Model.Sampling Model.Time Model.Decimate Model.Window Model.Spectra
  Model.Pipeline Spec.Sampling Spec.Time Spec.Window Spec.Decimate Spec.Quick Model.Quick
  Proofs.TimeMeta Proofs.Window Proofs.WindowTable Proofs.WindowRun Proofs.WindowFinal Proofs.WindowFloat Proofs.Spectra Proofs.SpectraFreqs Proofs.DecRun Proofs.DecParams Proofs.EvalFreqs Proofs.DecFactors Proofs.PipelineShape Proofs.PipelineSizes Proofs.Sampling.
Open Scope list_scope. Open Scope Q_scope.

(** ** A recording that starts at the reference time *)
Lemma to_seconds_0 rnd d : good_rnd rnd -> d == 0 -> fst (to_seconds rnd d) = 0%Z /\ snd (to_seconds rnd d) == 0.
Proof.
  intros G E. unfold to_seconds. cbv zeta. cbn [fst snd].
  assert (F : qfloor d = 0%Z) by (rewrite E; reflexivity).
  assert (D : td_days d = 0%Z) by (unfold td_days; rewrite E; reflexivity).
  assert (S : td_seconds d = 0%Z) by (unfold td_seconds; rewrite D, F; reflexivity).
  assert (M : td_micros d = 0%Z) by (unfold td_micros; rewrite F, E; reflexivity).
  assert (N : td_nanos d == 0) by (unfold td_nanos; rewrite F, M, E; reflexivity).
  rewrite D, S, M. split; [reflexivity|].
  assert (Z0 : rnd (inject_Z 0 / inject_Z 1000000) == 0) by (rewrite (gr_comp _ G _ 0); [apply (gr_0 G)|reflexivity]).
  assert (N0 : rnd (rnd (td_nanos d) / inject_Z 1000000000) == 0).
  { rewrite (gr_comp _ G _ 0); [apply (gr_0 G)|]. rewrite (gr_comp _ G _ 0 N), (gr_0 G). reflexivity. }
  rewrite (gr_comp _ G _ 0); [apply (gr_0 G)|]. rewrite N0. rewrite (gr_comp _ G _ 0); [rewrite (gr_0 G); reflexivity|]. rewrite Z0. reflexivity.
Qed.
Lemma total_0 rnd d : good_rnd rnd -> d == 0 -> total_seconds rnd d == 0.
Proof.
  intros G E. unfold total_seconds. destruct (to_seconds_0 rnd d G E) as [A B]. destruct (to_seconds rnd d) as [a b]. cbn in A, B. subst a.
  rewrite (gr_comp _ G _ 0); [apply (gr_0 G)|]. rewrite B. reflexivity.
Qed.
Lemma n_samples_0 rnd d fs m : good_rnd rnd -> d == 0 -> to_n_samples rnd d fs m = 1%Z.
Proof.
  intros G E. unfold to_n_samples. destruct (to_seconds_0 rnd d G E) as [A B]. destruct (to_seconds rnd d) as [a b]. cbn in A, B. subst a. cbv zeta.
  assert (I : rnd (rnd (rnd (inject_Z 0 + b) * fs) + 1) == inject_Z 1).
  { rewrite (gr_comp _ G _ (inject_Z 1)); [apply (gr_int G); lia|].
    rewrite (gr_comp _ G _ 0); [rewrite (gr_0 G); reflexivity|].
    rewrite (gr_comp _ G _ 0); [rewrite (gr_0 G); ring|]. rewrite B. reflexivity. }
  rewrite (q_is_integer_Z _ _ I). rewrite I. reflexivity.
Qed.
Lemma table_at_start rnd nt ndl ref m w o table : good_rnd rnd -> sampled rnd m -> lm_first m == ref -> (0 <= o < w)%Z -> (2 <= w <= 1000000)%Z ->
  lm_last m <= stamp ref (period rnd (lm_fs m)) (2 ^ 47) -> (w <= lm_n_samples m)%Z -> get_win_table rnd nt ndl ref m w o = Ok table ->
  Z.of_nat (length table) = ((lm_n_samples m - w) / (w - o) + 1)%Z /\
  forall i r, nth_error table i = Some r -> wr_global r = Z.of_nat i /\ wr_from r = (Z.of_nat i * (w - o))%Z.
Proof.
  intros G SM RF WO WB LB WN HT. assert (RF' : ref <= lm_first m) by lra.
  destruct (table_struct _ _ _ _ _ _ _ _ HT) as (f & l & st & H1 & H2 & H3 & _ & _ & H6 & H7).
  assert (IP : 0 < inc_duration rnd w o (lm_fs m)) by exact (wf_inc_pos rnd m w o G SM WO).
  assert (F : f = 0%Z).
  { destruct (wf_range rnd ref m w o G SM RF' WO LB f l H1) as (-> & _). unfold wf_f.
    assert (E : win_quot rnd ref (lm_first m) (inc_duration rnd w o (lm_fs m)) == 0).
    { unfold win_quot. rewrite (gr_comp _ G _ 0); [apply (gr_0 G)|]. rewrite (total_0 rnd (lm_first m - ref) G) by lra. unfold Qdiv. ring. }
    rewrite E. reflexivity. }
  subst f.
  assert (S0 : to_n_samples rnd (win_to_datetime ref 0 (inc_duration rnd w o (lm_fs m)) - lm_first m) (lm_fs m) Mfloor = 1%Z).
  { apply n_samples_0; [exact G|]. unfold win_to_datetime. change (inject_Z 0) with 0. rewrite RF. ring. }
  split.
  - destruct (wf_complete rnd ref m w o G SM RF' WO LB 0 l H1) as (_ & _ & C3 & C4). specialize (C4 (proj1 WB)).
    assert (TP : 0 < period rnd (lm_fs m)) by exact (wf_T rnd m G SM).
    assert (ST : forall a b, (stamp ref (period rnd (lm_fs m)) a <= stamp (lm_first m) (period rnd (lm_fs m)) b <-> (a <= b)%Z)).
    { intros a b. unfold stamp. rewrite Zle_Qle. split; intros K; nra. }
    destruct SM as (_ & _ & _ & LE).
    assert (Q1 : forall g, (g <= l)%Z <-> (g * (w - o) + (w - 1) <= lm_n_samples m - 1)%Z).
    { intros g. rewrite <- (ST (g * (w - o) + (w - 1))%Z (lm_n_samples m - 1)%Z). split; intros K; [specialize (C3 g K); lra|apply C4; lra]. }
    assert (L0 : (0 <= l)%Z) by (apply Q1; lia).
    rewrite H6. rewrite Z2Nat.id by lia.
    pose proof (proj1 (Q1 l) (Z.le_refl _)) as A. assert (B : ~ ((l + 1) * (w - o) + (w - 1) <= lm_n_samples m - 1)%Z) by (rewrite <- Q1; lia).
    assert (D : ((lm_n_samples m - w) / (w - o) = l)%Z).
    { symmetry. apply (Z.div_unique_pos (lm_n_samples m - w) (w - o) l (lm_n_samples m - w - l * (w - o))); lia. }
    rewrite D. lia.
  - intros i r Hr. destruct (H7 i r Hr) as (_ & B & _ & D). rewrite S0 in D. split; lia.
Qed.


(** ** The windows of a level *)
Lemma window_slice w inc (i : nat) (row : list cell) : (0 <= w)%Z -> (0 <= inc)%Z ->
  slice (Z.of_nat i * inc) (Z.of_nat i * inc + w) row = window_samples w inc i row.
Proof.
  intros Hw Hi. unfold slice, window_samples. f_equal; [lia|]. f_equal. lia.
Qed.
Lemma last_nth (table : list win_row) r0 tb : table = r0 :: tb -> nth_error table (length table - 1) = Some (last table r0).
Proof.
  intros ->. revert r0. induction tb as [|r1 tb IH]; intros r0; [reflexivity|].
  change (last (r0 :: r1 :: tb) r0) with (last (r1 :: tb) r0). replace (length (r0 :: r1 :: tb) - 1)%nat with (S (length (r1 :: tb) - 1)) by (cbn; lia).
  cbn [nth_error]. rewrite (IH r1). f_equal. apply last_indep. discriminate.
Qed.
Lemma level_vec table ld n w o x : (0 <= o < w)%Z -> (2 <= w < n)%Z -> table <> [] ->
  (forall i r, nth_error table i = Some r -> wr_from r = (Z.of_nat i * (w - o))%Z) ->
  ((Z.of_nat (length table) - 1) * (w - o) + w <= n)%Z -> (forall r, In r ld -> Z.of_nat (length r) = n) ->
  get_level_data ld table (Z.of_nat (length ld)) w o = Ok x ->
  ((2 <= length ld)%nat -> forall i ch row, (i < length table)%nat -> nth_error ld ch = Some row ->
     nd_vec x [i; ch] = Some (window_samples w (w - o) i row)) /\
  (length ld = 1%nat -> forall i row, (i < length table)%nat -> nth_error ld 0 = Some row ->
     nd_vec x [i] = Some (window_samples w (w - o) i row)).
Proof.
  intros WO WN NE FR TL R H. unfold get_level_data in H. destruct table as [|r0 tb] eqn:ET; [congruence|]. rewrite <- ET in *.
  apply bind_ok in H. destruct H as (v & H6 & H).
  assert (K1 : (1 <= length table)%nat) by (rewrite ET; cbn; lia).
  assert (R0 : nth_error table 0 = Some r0) by (rewrite ET; reflexivity).
  rewrite (FR _ _ R0), (FR _ _ (last_nth table r0 tb ET)) in H.
  replace (Z.of_nat 0 * (w - o))%Z with 0%Z in H by lia.
  replace (Z.of_nat (length table - 1)) with (0 + (Z.of_nat (length table) - 1))%Z in H by lia. rewrite Z.mul_add_distr_r, Z.mul_0_l in H.
  assert (SL : forall l r : list (nd cell), py_slice 0 (0 + (Z.of_nat (length table) - 1) * (w - o) + 1) (w - o) l = Ok r -> Z.of_nat (length l) = (n - w + 1)%Z ->
     forall i, (i < length table)%nat -> nth_error r i = nth_error l (Z.to_nat (Z.of_nat i * (w - o)))).
  { intros l r Hr HL i Hi. destruct (py_slice_pos 0 (w - o) (length table) l ltac:(lia) ltac:(lia) K1) as (r' & E1 & E2 & E3); [lia|].
    assert (r' = r) by congruence. subst r'. rewrite (E3 i Hi). f_equal. }
  assert (BI : forall i, (i < length table)%nat -> (0 <= Z.of_nat i * (w - o) <= n - w)%Z).
  { intros i Hi. split; [apply Z.mul_nonneg_nonneg; lia|]. assert (Z.of_nat i * (w - o) <= (Z.of_nat (length table) - 1) * (w - o))%Z by (apply Z.mul_le_mono_nonneg_r; lia). lia. }
  split.
  - intros C2 i ch row Hi Hc. rewrite (view_full ld (Z.of_nat (length ld)) w n v R eq_refl ltac:(lia) WN H6) in H.
    apply bind_ok in H. destruct H as (y & E1 & H). assert (x = Ax y) as -> by congruence. specialize (BI i Hi).
    unfold nd_vec. cbn [nd_at nd_nth]. rewrite (SL _ _ E1 ltac:(rewrite map_length, arange_length; lia) i Hi), nth_error_map, arange_nth by lia.
    cbn [option_map nd_at nd_nth]. rewrite nth_error_map, Hc. cbn [option_map nd_at]. unfold row_window. rewrite scalars_map, Z2Nat.id by lia. rewrite window_slice by lia. reflexivity.
  - intros C1 i row Hi Hc. destruct ld as [|row0 [|? ?]]; [discriminate C1| |discriminate C1]. cbn [nth_error] in Hc. injection Hc as ->.
    rewrite (view_one_chan row w n v (R row (or_introl eq_refl)) WN H6) in H.
    apply bind_ok in H. destruct H as (y & E1 & H). assert (x = Ax y) as -> by congruence. specialize (BI i Hi).
    unfold nd_vec. cbn [nd_at nd_nth]. rewrite (SL _ _ E1 ltac:(rewrite map_length, arange_length; lia) i Hi), nth_error_map, arange_nth by lia.
    cbn [option_map nd_at]. unfold row_window. rewrite scalars_map, Z2Nat.id by lia. rewrite window_slice by lia. reflexivity.
Qed.

(** ** Level frequencies *)
Lemma div_chain_range rnd fs l : good_rnd rnd -> 0 < fs -> fs <= 1000000 # 1 -> Forall (fun f => (1 <= f)%Z) l ->
  0 < div_chain rnd fs l <= 1000000 # 1.
Proof.
  intros G P B H. revert fs P B. induction l as [|f l IH]; intros fs P B; [cbn; lra|]. inversion H as [|? ? H1 H2]; subst. cbn [div_chain].
  destruct (Z.eqb_spec f 1); [apply IH; assumption|].
  assert (F1 : 1 <= inject_Z f) by (change 1 with (inject_Z 1); rewrite <- Zle_Qle; exact H1).
  assert (F0 : 0 < fs / inject_Z f) by (apply Qlt_shift_div_l; lra).
  assert (F2 : fs / inject_Z f <= 1000000 # 1) by (apply Qle_shift_div_r; nra).
  apply IH; [exact H2| |].
  - destruct (rnd_pos_bounds rnd _ G (Qlt_le_weak _ _ F0)). lra.
  - rewrite <- (gr_int G 1000000) by lia. apply (gr_mono _ G). exact F2.
Qed.
Lemma ceil_div_le n t : (0 <= n)%Z -> (1 <= t)%Z -> (ceil_div n t <= n)%Z.
Proof.
  intros Hn Ht. unfold ceil_div. destruct (qceil_spec (inject_Z n / inject_Z t)) as [A _].
  assert (inject_Z n / inject_Z t <= inject_Z n).
  { assert (1 <= inject_Z t) by (change 1 with (inject_Z 1); rewrite <- Zle_Qle; exact Ht).
    assert (0 <= inject_Z n) by (change 0 with (inject_Z 0); rewrite <- Zle_Qle; exact Hn). apply Qle_shift_div_r; nra. }
  assert (inject_Z (qceil (inject_Z n / inject_Z t)) - 1 < inject_Z n) by lra.
  change 1 with (inject_Z 1) in H0. unfold Qminus in H0. rewrite <- inject_Z_opp, <- inject_Z_plus, <- Zlt_Qlt in H0. lia.
Qed.

(** ** A level of the spectra *)
Lemma setup_increments rnd pw fuel c fs p : setup_run rnd pw fuel c fs = Ok p -> length (dp_increments p) = Z.to_nat (dp_n_levels p).
Proof.
  intros H. destruct (setup_run_inv _ _ _ _ _ _ H) as (fr & fa & _ & _ & _ & LN & ->). cbn [dp_increments dp_n_levels].
  unfold dec_increments. rewrite map_length, combine_length. cbn [length]. lia.
Qed.
Lemma spectra_level L c D td td' p dd sd j :
  good_rnd (l_rnd L) -> good_oracles (l_orc L) -> (D <= 2 ^ 49)%Z -> (forall x, best_approx D x (o_limit_denominator (l_orc L) x)) ->
  (3 <= cf_max_single c)%Z -> cf_target c = None ->
  run_all (l_rnd L) (l_drnd L) (l_orc L) (cf_time c) td = Ok td' -> dec_params_of L c (fs (meta td')) = Ok p -> run_decimation L c p td' = Ok dd ->
  usable (l_rnd L) td' -> first_time (meta td') == first_time (meta td) -> fs (meta td') <= 1000000 # 1 -> (n_samples (meta td') <= 2 ^ 47)%Z ->
  Forall (fun f => (1 <= f)%Z /\ (cf_resample c = true -> f <= D)%Z) (dp_increments p) ->
  spectra_of L c td = Ok sd -> (Z.of_nat j < sm_n_levels (sd_md sd))%Z ->
  exists m ld y, sd_level_md sd (Z.of_nat j) = Ok m /\ get_level dd (Z.of_nat j) = Ok ld /\ sd_get_level sd (Z.of_nat j) = Ok y /\
    let w := sl_win_size m in let inc := (sl_win_size m - sl_olap_size m)%Z in
    let n := ceil_div (n_samples (meta td')) (prodZ (firstn (Datatypes.S j) (dp_increments p))) in
    length ld = length (chans (meta td')) /\ (forall r, In r ld -> Z.of_nat (length r) = n) /\
    ((2 <= w <= 1000000)%Z -> (sl_olap_size m < w)%Z -> (w < n)%Z ->
      sl_n_wins m = n_windows n w inc /\ nd_len y = Ok (n_windows n w inc) /\
      forall k, (Z.of_nat k < n_windows n w inc)%Z ->
        ((2 <= length ld)%nat -> forall ch row, nth_error ld ch = Some row ->
           exists v, l_transform L w (l_next_fast_len L w) (window_samples w inc k row) = Ok v /\ nd_vec y [k; ch] = Some v) /\
        (length ld = 1%nat -> forall row, nth_error ld 0 = Some row ->
           exists v, l_transform L w (l_next_fast_len L w) (window_samples w inc k row) = Ok v /\ nd_vec y [k] = Some v)).
Proof.
  intros G GO HD HL Hm HT H1 H2 H3 U FT FS NS HF H Hj.
  unfold spectra_of in H. rewrite H1 in H. cbv beta iota zeta delta [bind] in H. rewrite H2, H3 in H.
  destruct (run_windowing L c (first_time (meta td)) dd) as [wd|e] eqn:HW; [|discriminate H].
  unfold run_windowing in HW. rewrite HT in HW. apply bind_ok in HW. destruct HW as (wp & Hwp & HW).
  pose proof (setup_increments _ _ _ _ _ _ H2) as LN.
  destruct (decimator_spec _ _ _ _ _ _ _ _ G GO HD HL Hm U LN HF H3) as (NL & _ & _ & _ & CH & _ & _ & LV & _).
  assert (WL : wd_n_levels wd = sm_n_levels (sd_md sd)).
  { unfold fourier_run in H. apply bind_ok in H. destruct H as (r & _ & H). apply make_spec_ok in H. subst sd. reflexivity. }
  assert (Hj' : (0 <= Z.of_nat j < wd_n_levels wd)%Z) by lia.
  destruct (fourier_level_at _ _ _ _ _ _ H Hj') as (wl & freqs & x & y & M1 & _ & M3 & M4 & M5 & M6).
  destruct (windower_levels _ _ _ _ _ _ _ HW) as (_ & _ & _ & xs & wls & WLp & DD & LL & NN & _).
  destruct (run_level _ _ _ _ _ _ _ _ _ _ _ _ WLp DD LL NN) as (_ & XL & _ & _ & K).
  destruct (K j x M3) as (wl' & m & w & o & table & ld & E1 & E2 & E3 & LD). assert (wl' = wl) by congruence. subst wl'.
  pose proof (ld_md _ _ _ _ _ _ _ _ _ _ _ _ _ _ _ _ LD) as MD. rewrite Nat2Z.id in MD.
  pose proof (ld_table _ _ _ _ _ _ _ _ _ _ _ _ _ _ _ _ LD) as TB.
  pose proof (ld_level _ _ _ _ _ _ _ _ _ _ _ _ _ _ _ _ LD) as GL.
  pose proof (ld_data _ _ _ _ _ _ _ _ _ _ _ _ _ _ _ _ LD) as GD.
  pose proof (ld_check _ _ _ _ _ _ _ _ _ _ _ _ _ _ _ _ LD eq_refl) as CK.
  destruct (level_metadata_spec _ _ _ _ _ _ _ _ _ TB (ld_wl _ _ _ _ _ _ _ _ _ _ _ _ _ _ _ _ LD)) as (f & l & F1 & W0 & O0 & EW & EL & ST).
  assert (JD : (j < Z.to_nat (dd_n_levels dd))%nat).
  { unfold get_level in GL. destruct (Z.geb_spec (Z.of_nat j) (dd_n_levels dd)); [discriminate GL|]. lia. }
  destruct (LV j JD) as (md & ld' & A1 & A2 & A3 & A4 & A5 & _ & A7 & A8 & A9).
  assert (md = m) by congruence. assert (ld' = ld) by congruence. subst md ld'.
  exists (fourier_level_md wl freqs), ld, y. split; [exact M6|]. split; [exact A2|]. split; [exact M5|].
  cbv zeta. cbn [fourier_level_md sl_win_size sl_olap_size sl_n_wins]. rewrite EW in M4 |- *. cbn [wl_win_size wl_olap_size wl_n_wins] in M4 |- *.
  rewrite <- A5. split; [exact A3|]. split; [exact A4|]. intros WB OB WN.
  assert (FI : Forall (fun f => (1 <= f)%Z) (firstn (Datatypes.S j) (dp_increments p))).
  { apply Forall_forall. intros z Hz. rewrite Forall_forall in HF. apply (HF z). rewrite <- (firstn_skipn (Datatypes.S j) (dp_increments p)). apply in_or_app. left. exact Hz. }
  destruct U as (_ & FP & N1).
  assert (SM : sampled (l_rnd L) m).
  { destruct (div_chain_range (l_rnd L) (fs (meta td')) _ G FP FS FI) as [P1 P2]. rewrite <- A9 in P1, P2.
    split; [exact P1|]. split; [exact P2|]. split; [lia|exact A8]. }
  assert (NB : (lm_n_samples m <= 2 ^ 47)%Z).
  { rewrite A5. pose proof (ceil_div_le (n_samples (meta td')) _ ltac:(lia) (prodZ_posF _ FI)). lia. }
  assert (RF : lm_first m == first_time (meta td)) by (rewrite A7; exact FT).
  assert (LB : lm_last m <= stamp (first_time (meta td)) (period (l_rnd L) (lm_fs m)) (2 ^ 47)).
  { rewrite A8. unfold stamp. pose proof (wf_T (l_rnd L) m G SM) as TP. rewrite RF. 
    assert (inject_Z (lm_n_samples m - 1) <= inject_Z (2 ^ 47)) by (rewrite <- Zle_Qle; lia). nra. }
  assert (O1 : (0 <= o < w)%Z) by lia.
  destruct (table_at_start _ _ _ _ _ _ _ _ G SM RF O1 WB LB ltac:(lia) TB) as [T1 T2].
  unfold n_windows. split; [exact T1|]. 
  assert (NY : nd_len x = Ok ((lm_n_samples m - w) / (w - o) + 1)%Z) by (rewrite CK, T1; reflexivity).
  pose proof (Z_div_mod (lm_n_samples m - w) (w - o) ltac:(lia)) as DM. destruct (Z.div_eucl (lm_n_samples m - w) (w - o)) as [q rr] eqn:EQ.
  assert (Q0 : ((lm_n_samples m - w) / (w - o) = q)%Z) by (unfold Z.div; rewrite EQ; reflexivity). rewrite Q0 in *.
  assert (CC : length ld = length (dd_chans dd)) by (rewrite CH; exact A3). rewrite <- CC in GD.
  assert (QP : (0 <= q)%Z) by (rewrite <- Q0; apply Z.div_pos; lia).
  assert (TN : table <> []) by (intros ->; cbn in T1; lia).
  assert (T3 : ((Z.of_nat (length table) - 1) * (w - o) + w <= lm_n_samples m)%Z) by (rewrite T1; replace (q + 1 - 1)%Z with q by lia; lia).
  destruct (level_vec table ld (lm_n_samples m) w o x O1 ltac:(lia) TN (fun i r Hr => proj2 (T2 i r Hr)) T3 A4 GD) as [V2 V1].
  split.
  - destruct x as [z|xl]; [discriminate NY|]. destruct (nd_last_inv _ _ _ M4) as [(v' & w' & Z1 & _ & _)|(_ & r & MM & ->)].
    + exfalso. apply scalars_some in Z1. subst xl. destruct (Nat.le_gt_cases 2 (length ld)) as [C2|C2].
      * destruct (nth_error ld 0) as [row|] eqn:ER; [|apply nth_error_None in ER; lia].
        specialize (V2 C2 0%nat 0%nat row ltac:(lia) ER). unfold nd_vec in V2. cbn [nd_at nd_nth] in V2. rewrite nth_error_map in V2. destruct (nth_error v' 0); cbn in V2; discriminate V2.
      * destruct ld as [|row [|? ?]]; [|
          |cbn in C2; lia].
        { unfold get_level_data in GD. destruct table; [discriminate GD|]. apply bind_ok in GD. destruct GD as (v0 & G1 & _). unfold sliding_window_view in G1. cbn [width] in G1.
          destruct ((w <? 0)%Z || (Z.of_nat (@length (list cell) []) <? 0)%Z || (Z.of_nat (@length (list cell) []) <? Z.of_nat (@length (list cell) []))%Z || (0 <? w)%Z) eqn:EB; [discriminate G1|].
          rewrite !orb_false_iff in EB. destruct EB as (_ & EB). apply Z.ltb_ge in EB. lia. }
        specialize (V1 eq_refl 0%nat row ltac:(lia) eq_refl). unfold nd_vec in V1. cbn [nd_at nd_nth] in V1. rewrite nth_error_map in V1. destruct (nth_error v' 0); cbn in V1; discriminate V1.
    + cbn [nd_len] in *. rewrite (mapM_length _ _ _ MM). exact NY.
  - intros k Hk. split.
    + intros C2 ch row Hr. destruct (nd_last_vec _ _ _ _ _ M4 (V2 C2 k ch row ltac:(lia) Hr)) as (v & F & V). exists v. split; assumption.
    + intros C1 row Hr. destruct (nd_last_vec _ _ _ _ _ M4 (V1 C1 k row ltac:(lia) Hr)) as (v & F & V). exists v. split; assumption.
Qed.

(** ** The other entries *)
Lemma first_level_rows rnd orc b maxf p td dd rest : dp_increments p = 1%Z :: rest -> (0 < dp_n_levels p)%Z -> decimator_run rnd orc b maxf p td = Ok dd ->
  get_level dd 0 = Ok (rows td).
Proof.
  intros E N H. unfold decimator_run in H. rewrite E in H. destruct (Z.to_nat (dp_n_levels p)) as [|k] eqn:K; [lia|]. cbn [firstn] in H.
  apply bind_ok in H. destruct H as ([d l] & H1 & H). cbn [dec_loop dec_step Z.eqb Pos.eqb] in H1. cbv beta iota delta [bind] in H1.
  destruct (n_samples (meta td) <? dp_min_samples p)%Z.
  - injection H1 as <- <-. discriminate H.
  - destruct (dec_loop rnd orc b maxf (dp_min_samples p) (firstn k rest) (0 + 1) td) as [[d' l']|]; [|discriminate H1]. injection H1 as <- <-.
    cbv beta iota in H. injection H as <-. unfold get_level. cbn [dd_n_levels dd_data find fst]. 
    destruct (Z.geb_spec 0 (Z.of_nat (length (level_of td :: l')))) as [C|C]; [cbn [length] in C; lia|]. reflexivity.
Qed.
Lemma tf_from_spectra L c cal name td sol : quick_tf L c cal name td = Ok sol ->
  exists sd td' p sd' ed ed' g, spectra_of L c td = Ok sd /\ run_all (l_rnd L) (l_drnd L) (l_orc L) (cf_time c) td = Ok td' /\ dec_params_of L c (fs (meta td')) = Ok p /\
    run_sprocs L (cf_spec c) sd = Ok sd' /\ evals_run p sd' = Ok ed /\
    match cal with Some readers => run_calibration L c readers ed | None => Ok ed end = Ok ed' /\ Gather.quick_gather name p (cf_tf c) ed' = Ok g /\ run_regression L c g = Ok sol.
Proof.
  intros H. unfold quick_tf in H. apply bind_ok in H. destruct H as ([p ed] & H1 & H). apply bind_ok in H. destruct H as (ed' & H2 & H). apply bind_ok in H. destruct H as (g & H3 & H).
  unfold to_evals in H1. apply bind_ok in H1. destruct H1 as (td' & A1 & H1). apply bind_ok in H1. destruct H1 as (p' & A2 & H1). apply bind_ok in H1. destruct H1 as (dd & A3 & H1).
  apply bind_ok in H1. destruct H1 as (wd & A4 & H1). apply bind_ok in H1. destruct H1 as (sd & A5 & H1). apply bind_ok in H1. destruct H1 as (sd' & A6 & H1). apply bind_ok in H1. destruct H1 as (ed0 & A7 & H1).
  injection H1 as -> ->. exists sd, td', p, sd', ed, ed', g.
  split; [unfold spectra_of; rewrite A1; cbv beta iota zeta delta [bind]; rewrite A2, A3, A4; exact A5|]. repeat split; assumption.
Qed.
