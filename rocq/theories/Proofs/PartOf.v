(** Proofs for C99 *)
From Coq Require Import String.
From Verif Require Import Base.Prelude Base.Rounding Base.ListUtil Base.NdArray Base.Cplx Model.Sampling Model.Time Model.Decimate Model.Window Model.Spectra
  Model.Pipeline Spec.Sampling Spec.Time Spec.Window Spec.Decimate Spec.Pipeline Spec.PartOf
  Proofs.TimeMeta Proofs.Window Proofs.WindowTable Proofs.WindowRun Proofs.WindowFinal Proofs.WindowFloat Proofs.WindowMore Proofs.Spectra Proofs.SpectraFreqs Proofs.DecRun Proofs.DecParams Proofs.PipelineShape Proofs.PipelineSizes Proofs.Sampling Proofs.Quick.
Open Scope list_scope. Open Scope Q_scope.

(** ** the tables *)
Lemma stamp_split f dt a b : stamp f dt (a + b) == stamp (stamp f dt a) dt b.
Proof. unfold stamp. rewrite inject_Z_plus. ring. Qed.
Lemma table_part rnd nt ndl ref k m m' w o table table' : recorded rnd m -> recorded rnd m' -> precise rnd ref m -> precise rnd ref m' -> part_level k m m' ->
  ref <= lm_first m' -> (0 <= o < w)%Z -> (w <= 2 ^ 52)%Z -> get_win_table rnd nt ndl ref m w o = Ok table -> get_win_table rnd nt ndl ref m' w o = Ok table' ->
  forall i r, nth_error table i = Some r -> exists i' r', nth_error table' i' = Some r' /\ wr_global r' = wr_global r /\ wr_from r' = (wr_from r + k)%Z /\ wr_to r' = (wr_to r + k)%Z.
Proof.
  intros R R' P P' (PF & PK & PS & PN) Hr Ho Hw HT HT' i r Hi.
  assert (F : 0 < lm_fs m') by apply R'. assert (DT : 0 < 1 / lm_fs m') by (apply Qlt_shift_div_l; lra).
  assert (Hr2 : ref <= lm_first m). { rewrite PS. unfold stamp. pose proof (inj_nonneg k PK). nra. }
  destruct (table_globals _ _ _ _ _ _ _ _ HT) as (f & l & E & K). destruct (table_globals _ _ _ _ _ _ _ _ HT') as (f' & l' & E' & K').
  assert (FT : fits ref m w o (wr_global r)).
  { apply (c32 rnd ref m w o f l R P Hr2 Ho Hw E). apply K. apply in_map. exact (nth_error_In _ _ Hi). }
  assert (FT' : fits ref m' w o (wr_global r)).
  { destruct FT as [F1 F2]. rewrite PF in F1, F2. split.
    - rewrite PS in F1. unfold stamp in F1. pose proof (inj_nonneg k PK). nra.
    - destruct R as (_ & _ & _ & RL). destruct R' as (_ & _ & _ & RL'). rewrite RL in F2. rewrite RL'. rewrite PF in F2.
      assert (stamp (lm_first m) (1 / lm_fs m') (lm_n_samples m - 1) <= stamp (lm_first m') (1 / lm_fs m') (lm_n_samples m' - 1)); [|lra].
      unfold stamp in *. rewrite PS. assert (J : inject_Z (k + (lm_n_samples m - 1)) <= inject_Z (lm_n_samples m' - 1)) by (apply (proj1 (inject_Z_le _ _)); lia).
      rewrite inject_Z_plus in J. nra. }
  assert (G : In (wr_global r) (map wr_global table')). { apply K'. apply (c32 rnd ref m' w o f' l' R' P' Hr Ho Hw E'). exact FT'. }
  apply in_map_iff in G. destruct G as (r' & G & I). apply In_nth_error in I. destruct I as [i' Hi']. exists i', r'. split; [exact Hi'|]. split; [exact G|].
  destruct (c31 rnd nt ndl ref m w o table i r R P Hr2 Ho Hw HT Hi) as (A1 & A2 & _). destruct (c31 rnd nt ndl ref m' w o table' i' r' R' P' Hr Ho Hw HT' Hi') as (B1 & B2 & _).
  cbv zeta in A1, A2, B1, B2. rewrite G in B1, B2. rewrite PF in A1, A2. set (s := window_start ref (lm_fs m') w o (wr_global r)) in *.
  assert (X : stamp (lm_first m) (1 / lm_fs m') (wr_from r) == stamp (lm_first m') (1 / lm_fs m') (wr_from r + k)).
  { rewrite Z.add_comm, stamp_split. unfold stamp at 1 2. rewrite PS. reflexivity. }
  rewrite X in A1, A2. unfold stamp in A1, A2, B1, B2. set (d := 1 / lm_fs m') in *.
  assert (wr_from r' = (wr_from r + k)%Z) as FR.
  { assert (Y1 : inject_Z (wr_from r') * d < inject_Z (wr_from r + k + 1) * d) by (rewrite (inject_Z_plus (wr_from r + k) 1); change (inject_Z 1) with 1; lra).
    assert (Y2 : inject_Z (wr_from r + k) * d < inject_Z (wr_from r' + 1) * d) by (rewrite (inject_Z_plus (wr_from r') 1); change (inject_Z 1) with 1; lra).
    apply Qmult_lt_r in Y1; [|exact DT]. apply Qmult_lt_r in Y2; [|exact DT]. rewrite <- Zlt_Qlt in Y1, Y2. lia. }
  split; [exact FR|]. destruct (table_struct _ _ _ _ _ _ _ _ HT) as (f1 & l1 & st1 & _ & _ & _ & _ & _ & _ & T). destruct (table_struct _ _ _ _ _ _ _ _ HT') as (f2 & l2 & st2 & _ & _ & _ & _ & _ & _ & T').
  destruct (T _ _ Hi) as (_ & _ & T1 & _). destruct (T' _ _ Hi') as (_ & _ & T2 & _). lia.
Qed.

(** appending samples *)
Lemma arange_app a b : (0 <= a)%Z -> (0 <= b)%Z -> arange (a + b) = arange a ++ map (fun k => (a + k)%Z) (arange b).
Proof.
  intros Ha Hb. apply nth_error_ext'. intros i. destruct (Nat.lt_ge_cases i (Z.to_nat a)) as [H|H].
  - rewrite nth_error_app1 by (rewrite arange_length; lia). rewrite !arange_nth by lia. reflexivity.
  - rewrite nth_error_app2 by (rewrite arange_length; lia). rewrite arange_length, nth_error_map. destruct (Nat.lt_ge_cases i (Z.to_nat (a + b))) as [H'|H'].
    + rewrite !arange_nth by lia. cbn [option_map]. f_equal. lia.
    + rewrite !(proj2 (nth_error_None _ _)) by (rewrite arange_length; lia). reflexivity.
Qed.
Lemma table_more rnd nt ndl ref m m' w o table table' : good_rnd rnd -> sampled rnd m -> sampled rnd m' -> lm_fs m = lm_fs m' -> lm_first m = lm_first m' -> (lm_n_samples m <= lm_n_samples m')%Z ->
  ref <= lm_first m' -> (0 <= o < w)%Z -> (2 <= w)%Z -> lm_last m' <= stamp ref (period rnd (lm_fs m')) (2 ^ 47) ->
  get_win_table rnd nt ndl ref m w o = Ok table -> get_win_table rnd nt ndl ref m' w o = Ok table' -> exists more, table' = table ++ more.
Proof.
  intros G S S' EF E1 EN Hr Ho Hw LB HT HT'.
  assert (PP : 0 < period rnd (lm_fs m')) by (destruct S' as (X1 & X2 & _); exact (Proofs.SamplingErr.period_pos G _ X1 X2)).
  assert (LL : lm_last m <= lm_last m').
  { destruct S as (_ & _ & _ & X). destruct S' as (_ & _ & _ & X'). rewrite X, X', EF, E1. unfold stamp. assert (inject_Z (lm_n_samples m - 1) <= inject_Z (lm_n_samples m' - 1)) by (apply (proj1 (inject_Z_le _ _)); lia). nra. }
  unfold get_win_table in HT, HT'. apply bind_ok in HT. destruct HT as ([f l] & H1 & HT). apply bind_ok in HT'. destruct HT' as ([f' l'] & H1' & HT').
  assert (f' = f). { destruct (wf_range rnd ref m w o G S ltac:(rewrite E1; exact Hr) Ho ltac:(rewrite EF; lra) f l H1) as (-> & _). destruct (wf_range rnd ref m' w o G S' Hr Ho LB f' l' H1') as (-> & _). unfold wf_f. rewrite EF, E1. reflexivity. }
  subst f'.
  assert (LE : (l <= l')%Z).
  { destruct (wf_complete rnd ref m w o G S ltac:(rewrite E1; exact Hr) Ho ltac:(rewrite EF; lra) f l H1) as (_ & _ & A & _). destruct (wf_complete rnd ref m' w o G S' Hr Ho LB f l' H1') as (_ & _ & _ & B).
    apply (B Hw). specialize (A l (Z.le_refl _)). rewrite EF in A. lra. }
  destruct (w - o =? 0)%Z; [discriminate|]. rewrite EF, E1 in HT.
  apply bind_ok in HT. destruct HT as (st & H2 & HT). apply bind_ok in HT'. destruct HT' as (st' & H2' & HT').
  unfold datetime_array_estimate in H2, H2'. destruct (Qeq_bool _ 0); [discriminate|]. destruct (Z.ltb_spec (l - f + 1) 0); [discriminate|]. destruct (Z.ltb_spec (l' - f + 1) 0); [discriminate|].
  injection H2 as <-. injection H2' as <-. assert (CM : forall (A : Type) (g : Z -> A) (L : list Z), combine L (map g L) = map (fun k => (k, g k)) L).
  { intros A g L. induction L as [|a L IH]; [reflexivity|]. cbn [combine map]. rewrite IH. reflexivity. }
  rewrite CM, map_map in HT, HT'. injection HT as <-. injection HT' as <-.
  replace (l' - f + 1)%Z with ((l - f + 1) + (l' - l))%Z by lia. rewrite arange_app, map_app by lia. eexists. reflexivity.
Qed.

(** ** the windows *)
Lemma level_vecs table ld n w o x s0 : (o < w)%Z -> (2 <= w < n)%Z -> (2 <= length ld)%nat -> (0 <= s0)%Z ->
  (forall i r, nth_error table i = Some r -> wr_from r = (s0 + Z.of_nat i * (w - o))%Z /\ (wr_from r + w <= n)%Z) ->
  (forall r, In r ld -> Z.of_nat (length r) = n) -> get_level_data ld table (Z.of_nat (length ld)) w o = Ok x ->
  forall i r ch row, nth_error table i = Some r -> nth_error ld ch = Some row -> nd_vec x [i; ch] = Some (slice (wr_from r) (wr_from r + w) row).
Proof.
  intros WO WN C2 S0 FR R H i r ch row Hi Hc. unfold get_level_data in H. destruct table as [|r0 tb] eqn:ET; [discriminate|]. rewrite <- ET in *.
  apply bind_ok in H. destruct H as (v & H6 & H).
  assert (K1 : (1 <= length table)%nat) by (rewrite ET; cbn; lia).
  assert (R0 : nth_error table 0 = Some r0) by (rewrite ET; reflexivity).
  pose proof (last_nth table r0 tb ET) as RL. destruct (FR _ _ RL) as [FL BL]. destruct (FR _ _ R0) as [F0 _]. rewrite FL in BL. rewrite F0, FL in H.
  replace (s0 + Z.of_nat 0 * (w - o))%Z with s0 in H by lia. replace (Z.of_nat (length table - 1)) with (Z.of_nat (length table) - 1)%Z in H, BL by lia.
  rewrite (view_full ld (Z.of_nat (length ld)) w n v R eq_refl ltac:(lia) WN H6) in H. apply bind_ok in H. destruct H as (y & E1 & H). assert (x = Ax y) as -> by congruence.
  match type of E1 with py_slice _ _ _ ?L = _ => destruct (py_slice_pos s0 (w - o) (length table) L S0 ltac:(lia) K1) as (y' & E2 & _ & E3); [rewrite map_length, arange_length; lia|] end.
  assert (y' = y) by congruence. subst y'. assert (Hl : (i < length table)%nat) by (apply nth_error_Some; congruence). destruct (FR _ _ Hi) as [FI BI].
  assert (0 <= Z.of_nat i * (w - o))%Z by (apply Z.mul_nonneg_nonneg; lia).
  unfold nd_vec. cbn [nd_at nd_nth]. rewrite (E3 i Hl), <- FI, nth_error_map, arange_nth by lia. cbn [option_map nd_at nd_nth]. rewrite nth_error_map, Hc. cbn [option_map nd_at].
  unfold row_window. rewrite scalars_map, Z2Nat.id by lia. reflexivity.
Qed.
(** a level of a run: its table, and its windows are slices of the rows *)
Lemma run_vecs rnd nt ndl ref p d wd i x : windower_run rnd nt ndl ref p d = Ok wd -> wd_get_level wd (Z.of_nat i) = Ok x ->
  exists m w o table ld f, nth_error (dd_levels_md d) i = Some m /\ nth_error (wp_win_sizes p) i = Some w /\ nth_error (wp_olap_sizes p) i = Some o /\
    get_win_table rnd nt ndl ref m w o = Ok table /\ get_level d (Z.of_nat i) = Ok ld /\
    wd_level_md wd (Z.of_nat i) = Ok (mkWinLevel (lm_fs m) (Z.of_nat (length table)) w o f) /\ (0 < o)%Z /\
    (forall k r, nth_error table k = Some r -> wr_global r = (f + Z.of_nat k)%Z) /\
    ((o < w)%Z -> (2 <= w < lm_n_samples m)%Z -> (2 <= length (dd_chans d))%nat -> shape_ok d m ld ->
     (forall k r, nth_error table k = Some r -> 0 <= wr_from r /\ wr_from r + w <= lm_n_samples m)%Z ->
     forall k r ch row, nth_error table k = Some r -> nth_error ld ch = Some row -> nd_vec x [k; ch] = Some (slice (wr_from r) (wr_from r + w) row)).
Proof.
  intros H Hx. destruct (windower_levels _ _ _ _ _ _ _ H) as (_ & _ & _ & xs & wls & HL & D & L & N & _).
  destruct (run_level _ _ _ _ _ _ _ _ _ _ _ _ HL D L N) as (_ & _ & _ & _ & K).
  destruct (K i x Hx) as (wl & m & w & o & table & ld & E1 & E2 & E3 & LD).
  pose proof (ld_sizes _ _ _ _ _ _ _ _ _ _ _ _ _ _ _ _ LD) as SZ. cbv beta in SZ.
  apply bind_ok in SZ. destruct SZ as (w' & S1 & SZ). apply bind_ok in SZ. destruct SZ as (o' & S2 & SZ). injection SZ as -> ->.
  pose proof (ld_md _ _ _ _ _ _ _ _ _ _ _ _ _ _ _ _ LD) as MD. rewrite Nat2Z.id in MD.
  assert (WP : forall l y, wp_level p l (Z.of_nat i) = Ok y -> nth_error l i = Some y).
  { intros l0 y0. unfold wp_level. destruct (_ || _); [discriminate|]. rewrite Nat2Z.id. destruct (nth_error l0 i); [intros [= ->]; reflexivity|discriminate]. }
  pose proof (ld_table _ _ _ _ _ _ _ _ _ _ _ _ _ _ _ _ LD) as HT. pose proof (ld_wl _ _ _ _ _ _ _ _ _ _ _ _ _ _ _ _ LD) as HW. pose proof (ld_data _ _ _ _ _ _ _ _ _ _ _ _ _ _ _ _ LD) as HD.
  destruct (level_metadata_spec _ _ _ _ _ _ _ _ _ HT HW) as (f & l & F1 & W0 & O0 & EW & _).
  destruct (table_struct _ _ _ _ _ _ _ _ HT) as (f' & l' & st & F2 & _ & _ & _ & _ & _ & T). assert (f' = f) by congruence. subst f'.
  exists m, w, o, table, ld, f. split; [exact MD|]. split; [apply WP; exact S1|]. split; [apply WP; exact S2|]. split; [exact HT|]. split; [apply LD|].
  split; [rewrite E3, EW; reflexivity|]. split; [exact O0|]. split; [intros k r Hk; apply (T k r Hk)|].
  intros WO W2 C2 [RC LC] IN k r ch row Hk Hc. rewrite <- LC in HD.
  destruct (nth_error table 0) as [r0|] eqn:R0. 2:{ destruct table; [destruct k; discriminate|discriminate]. }
  destruct (T _ _ R0) as (_ & _ & _ & T0). change (Z.of_nat 0) with 0%Z in T0. set (s0 := (to_n_samples _ _ _ _ - 1)%Z) in *.
  refine (level_vecs table ld (lm_n_samples m) w o x s0 WO W2 ltac:(lia) _ _ RC HD k r ch row Hk Hc).
  - pose proof (IN _ _ R0). lia.
  - intros j rj Hj. destruct (T _ _ Hj) as (_ & _ & _ & TJ). split; [exact TJ|]. apply (IN _ _ Hj).
Qed.
(** windows that correspond *)
Lemma windows_part rnd nt ndl ref k p p' d d' wd wd' i x x' m m' w o ld ld' table table' wl wl' :
  windower_run rnd nt ndl ref p d = Ok wd -> windower_run rnd nt ndl ref p' d' = Ok wd' -> wd_get_level wd (Z.of_nat i) = Ok x -> wd_get_level wd' (Z.of_nat i) = Ok x' ->
  wd_level_md wd (Z.of_nat i) = Ok wl -> wd_level_md wd' (Z.of_nat i) = Ok wl' ->
  nth_error (wp_win_sizes p) i = Some w -> nth_error (wp_olap_sizes p) i = Some o -> nth_error (wp_win_sizes p') i = Some w -> nth_error (wp_olap_sizes p') i = Some o ->
  nth_error (dd_levels_md d) i = Some m -> nth_error (dd_levels_md d') i = Some m' -> get_level d (Z.of_nat i) = Ok ld -> get_level d' (Z.of_nat i) = Ok ld' ->
  get_win_table rnd nt ndl ref m w o = Ok table -> get_win_table rnd nt ndl ref m' w o = Ok table' ->
  length (dd_chans d) = length (dd_chans d') -> (2 <= length (dd_chans d'))%nat -> shape_ok d' m' ld' -> part_rows k (lm_n_samples m) ld ld' -> (0 <= k)%Z -> (k + lm_n_samples m <= lm_n_samples m')%Z ->
  lm_fs m = lm_fs m' -> (o < w)%Z -> (2 <= w < lm_n_samples m)%Z ->
  (forall j r, nth_error table j = Some r -> 0 <= wr_from r /\ wr_from r + w <= lm_n_samples m)%Z -> (forall j r, nth_error table' j = Some r -> 0 <= wr_from r /\ wr_from r + w <= lm_n_samples m')%Z ->
  (forall j r, nth_error table j = Some r -> exists j' r', nth_error table' j' = Some r' /\ wr_global r' = wr_global r /\ wr_from r' = (wr_from r + k)%Z) ->
  wl_fs wl = wl_fs wl' /\ wl_win_size wl = w /\ wl_win_size wl' = w /\ wl_olap_size wl = o /\ wl_olap_size wl' = o /\
  part_windows (length (dd_chans d')) (wl_n_wins wl) (wl_offset wl) x (wl_n_wins wl') (wl_offset wl') x'.
Proof.
  intros H H' Hx Hx' Hl Hl' W1 O1 W2 O2 M M' D D' T T' CC C2 SH PR K0 KN EF WO WN IN IN' HP.
  destruct (run_vecs _ _ _ _ _ _ _ _ _ H Hx) as (m1 & w1 & o1 & t1 & ld1 & f & A1 & A2 & A3 & A4 & A5 & A6 & _ & A7 & A8).
  destruct (run_vecs _ _ _ _ _ _ _ _ _ H' Hx') as (m2 & w2 & o2 & t2 & ld2 & f' & B1 & B2 & B3 & B4 & B5 & B6 & _ & B7 & B8).
  assert (m1 = m) by congruence. assert (w1 = w) by congruence. assert (o1 = o) by congruence. assert (ld1 = ld) by congruence. subst m1 w1 o1 ld1. assert (t1 = table) by congruence. subst t1.
  assert (m2 = m') by congruence. assert (w2 = w) by congruence. assert (o2 = o) by congruence. assert (ld2 = ld') by congruence. subst m2 w2 o2 ld2. assert (t2 = table') by congruence. subst t2.
  rewrite A6 in Hl. rewrite B6 in Hl'. injection Hl as <-. injection Hl' as <-. cbn [wl_fs wl_win_size wl_olap_size wl_n_wins wl_offset]. split; [exact EF|]. do 4 (split; [reflexivity|]).
  destruct SH as [SR SL]. unfold part_rows in PR.
  assert (SH0 : shape_ok d m ld).
  { split; [|rewrite PR, map_length; congruence]. intros r Hr. rewrite PR in Hr. apply in_map_iff in Hr. destruct Hr as (r' & <- & Hr'). pose proof (SR _ Hr'). rewrite slice_length by lia. lia. }
  assert (SH1 : shape_ok d' m' ld') by (split; assumption).
  intros j Hj. destruct (nth_error table (Z.to_nat j)) as [r|] eqn:Er. 2:{ apply nth_error_None in Er. lia. }
  destruct (HP _ _ Er) as (j' & r' & Er' & G & FR). pose proof (A7 _ _ Er) as GA. pose proof (B7 _ _ Er') as GB. assert (j' < length table')%nat by (apply nth_error_Some; congruence).
  split; [lia|]. replace (Z.to_nat (f + j - f')) with j' by lia. intros ch Hch. destruct (nth_error ld' ch) as [row|] eqn:ER. 2:{ apply nth_error_None in ER. lia. }
  assert (ER0 : nth_error ld ch = Some (slice k (k + lm_n_samples m) row)) by (rewrite PR; apply map_nth_error; exact ER).
  exists (slice (wr_from r') (wr_from r' + w) row). split.
  - rewrite (A8 WO WN ltac:(lia) SH0 IN _ _ _ _ Er ER0). destruct (IN _ _ Er). rewrite slice_slice by lia. rewrite FR. do 2 f_equal; lia.
  - apply (B8 WO ltac:(lia) C2 SH1 IN' _ _ _ _ Er' ER).
Qed.

Lemma c99_windows rnd nt ndl ref k p p' d d' wd wd' i x x' m m' w o ld ld' wl wl' :
  windower_run rnd nt ndl ref p d = Ok wd -> windower_run rnd nt ndl ref p' d' = Ok wd' -> wd_get_level wd (Z.of_nat i) = Ok x -> wd_get_level wd' (Z.of_nat i) = Ok x' ->
  wd_level_md wd (Z.of_nat i) = Ok wl -> wd_level_md wd' (Z.of_nat i) = Ok wl' ->
  nth_error (wp_win_sizes p) i = Some w -> nth_error (wp_olap_sizes p) i = Some o -> nth_error (wp_win_sizes p') i = Some w -> nth_error (wp_olap_sizes p') i = Some o ->
  nth_error (dd_levels_md d) i = Some m -> nth_error (dd_levels_md d') i = Some m' -> get_level d (Z.of_nat i) = Ok ld -> get_level d' (Z.of_nat i) = Ok ld' ->
  length (dd_chans d) = length (dd_chans d') -> (2 <= length (dd_chans d'))%nat -> shape_ok d' m' ld' -> part_rows k (lm_n_samples m) ld ld' -> part_level k m m' ->
  recorded rnd m -> recorded rnd m' -> precise rnd ref m -> precise rnd ref m' -> ref <= lm_first m' -> (o < w)%Z -> (2 <= w < lm_n_samples m)%Z -> (w <= 2 ^ 52)%Z ->
  wl_fs wl = wl_fs wl' /\ wl_win_size wl = w /\ wl_win_size wl' = w /\ wl_olap_size wl = o /\ wl_olap_size wl' = o /\
  part_windows (length (dd_chans d')) (wl_n_wins wl) (wl_offset wl) x (wl_n_wins wl') (wl_offset wl') x'.
Proof.
  intros H H' Hx Hx' Hl Hl' W1 O1 W2 O2 M M' D D' CC C2 SH PR PL R R' P P' Hr WO WN WB.
  destruct (run_vecs _ _ _ _ _ _ _ _ _ H Hx) as (m1 & w1 & o1 & t1 & ld1 & f & A1 & A2 & A3 & A4 & _ & _ & OP & _).
  destruct (run_vecs _ _ _ _ _ _ _ _ _ H' Hx') as (m2 & w2 & o2 & t2 & ld2 & f' & B1 & B2 & B3 & B4 & _).
  assert (m1 = m) by congruence. assert (w1 = w) by congruence. assert (o1 = o) by congruence. subst m1 w1 o1.
  assert (m2 = m') by congruence. assert (w2 = w) by congruence. assert (o2 = o) by congruence. subst m2 w2 o2.
  pose proof PL as (PF & PK & PS & PN).
  assert (F : 0 < lm_fs m') by apply R'. assert (DT : 0 < 1 / lm_fs m') by (apply Qlt_shift_div_l; lra).
  assert (Hr2 : ref <= lm_first m). { rewrite PS. unfold stamp. pose proof (inj_nonneg k PK). nra. }
  refine (windows_part rnd nt ndl ref k p p' d d' wd wd' i x x' m m' w o ld ld' t1 t2 wl wl' H H' Hx Hx' Hl Hl' W1 O1 W2 O2 M M' D D' A4 B4 CC C2 SH PR PK PN PF WO WN _ _ _).
  - intros j r Hj. destruct (c30 rnd nt ndl ref m w o t1 R P Hr2 ltac:(lia) WB A4) as (g0 & s0 & K). destruct (K _ _ Hj) as (_ & _ & _ & K1 & K2 & K3). lia.
  - intros j r Hj. destruct (c30 rnd nt ndl ref m' w o t2 R' P' Hr ltac:(lia) WB B4) as (g0 & s0 & K). destruct (K _ _ Hj) as (_ & _ & _ & K1 & K2 & K3). lia.
  - intros j r Hj. destruct (table_part rnd nt ndl ref k m m' w o t1 t2 R R' P P' PL Hr ltac:(lia) WB A4 B4 j r Hj) as (j' & r' & E1 & E2 & E3 & _). exists j', r'. auto.
Qed.
(** appending samples, every rounding *)
Lemma c99_windows_more rnd nt ndl ref p p' d d' wd wd' i x x' m m' w o ld ld' wl wl' : good_rnd rnd ->
  windower_run rnd nt ndl ref p d = Ok wd -> windower_run rnd nt ndl ref p' d' = Ok wd' -> wd_get_level wd (Z.of_nat i) = Ok x -> wd_get_level wd' (Z.of_nat i) = Ok x' ->
  wd_level_md wd (Z.of_nat i) = Ok wl -> wd_level_md wd' (Z.of_nat i) = Ok wl' ->
  nth_error (wp_win_sizes p) i = Some w -> nth_error (wp_olap_sizes p) i = Some o -> nth_error (wp_win_sizes p') i = Some w -> nth_error (wp_olap_sizes p') i = Some o ->
  nth_error (dd_levels_md d) i = Some m -> nth_error (dd_levels_md d') i = Some m' -> get_level d (Z.of_nat i) = Ok ld -> get_level d' (Z.of_nat i) = Ok ld' ->
  length (dd_chans d) = length (dd_chans d') -> (2 <= length (dd_chans d'))%nat -> shape_ok d' m' ld' -> part_rows 0 (lm_n_samples m) ld ld' ->
  lm_fs m = lm_fs m' -> lm_first m = lm_first m' -> (lm_n_samples m <= lm_n_samples m')%Z ->
  sampled rnd m -> sampled rnd m' -> ref <= lm_first m' -> lm_last m' <= stamp ref (period rnd (lm_fs m')) (2 ^ 47) -> (o < w)%Z -> (2 <= w < lm_n_samples m)%Z -> (w <= 1000000)%Z ->
  wl_fs wl = wl_fs wl' /\ wl_win_size wl = w /\ wl_win_size wl' = w /\ wl_olap_size wl = o /\ wl_olap_size wl' = o /\
  part_windows (length (dd_chans d')) (wl_n_wins wl) (wl_offset wl) x (wl_n_wins wl') (wl_offset wl') x'.
Proof.
  intros G H H' Hx Hx' Hl Hl' W1 O1 W2 O2 M M' D D' CC C2 SH PR EF E1 EN S S' Hr LB WO WN WB.
  destruct (run_vecs _ _ _ _ _ _ _ _ _ H Hx) as (m1 & w1 & o1 & t1 & ld1 & f & A1 & A2 & A3 & A4 & _ & _ & OP & _).
  destruct (run_vecs _ _ _ _ _ _ _ _ _ H' Hx') as (m2 & w2 & o2 & t2 & ld2 & f' & B1 & B2 & B3 & B4 & _).
  assert (m1 = m) by congruence. assert (w1 = w) by congruence. assert (o1 = o) by congruence. subst m1 w1 o1.
  assert (m2 = m') by congruence. assert (w2 = w) by congruence. assert (o2 = o) by congruence. subst m2 w2 o2.
  assert (PP : 0 < period rnd (lm_fs m')) by (destruct S' as (X1 & X2 & _); exact (Proofs.SamplingErr.period_pos G _ X1 X2)).
  assert (LL : lm_last m <= lm_last m').
  { destruct S as (_ & _ & _ & X). destruct S' as (_ & _ & _ & X'). rewrite X, X', EF, E1. unfold stamp. assert (inject_Z (lm_n_samples m - 1) <= inject_Z (lm_n_samples m' - 1)) by (apply (proj1 (inject_Z_le _ _)); lia). nra. }
  destruct SH as [SR SL]. assert (SH : shape_ok d' m' ld') by (split; assumption).
  assert (SH0 : shape_ok d m ld).
  { split; [|rewrite PR, map_length; congruence]. intros r Hr0. rewrite PR in Hr0. apply in_map_iff in Hr0. destruct Hr0 as (r' & <- & Hr'). pose proof (SR _ Hr'). rewrite slice_length by lia. lia. }
  refine (windows_part rnd nt ndl ref 0 p p' d d' wd wd' i x x' m m' w o ld ld' t1 t2 wl wl' H H' Hx Hx' Hl Hl' W1 O1 W2 O2 M M' D D' A4 B4 CC C2 SH PR (Z.le_refl 0) EN EF WO WN _ _ _).
  - destruct (windower_contents_any _ _ _ _ _ _ _ _ _ G H Hx) as (m3 & w3 & o3 & t3 & ld3 & C1 & C2' & C3 & C4 & C5 & _ & C6).
    assert (m3 = m) by congruence. assert (w3 = w) by congruence. assert (o3 = o) by congruence. assert (ld3 = ld) by congruence. subst m3 w3 o3 ld3. assert (t3 = t1) by congruence. subst t3.
    destruct (C6 S ltac:(rewrite E1; exact Hr) ltac:(rewrite EF; lra) ltac:(lia) SH0 WN) as (C7 & _). intros j r Hj.
    destruct (wf_rows rnd ref m w o G S ltac:(rewrite E1; exact Hr) ltac:(lia) ltac:(lia) ltac:(rewrite EF; lra) nt ndl t1 A4 j r Hj) as (_ & _ & _ & X & _).
    destruct (table_struct _ _ _ _ _ _ _ _ A4) as (ff & ll & st & _ & _ & _ & _ & _ & _ & T). destruct (T _ _ Hj) as (_ & _ & T1 & _).
    assert (0 <= wr_from r)%Z by (apply (C7 ltac:(intros Z0; rewrite Z0 in CC; cbn in CC; lia) _ _ Hj)). lia.
  - destruct (windower_contents_any _ _ _ _ _ _ _ _ _ G H' Hx') as (m3 & w3 & o3 & t3 & ld3 & C1 & C2' & C3 & C4 & C5 & _ & C6).
    assert (m3 = m') by congruence. assert (w3 = w) by congruence. assert (o3 = o) by congruence. assert (ld3 = ld') by congruence. subst m3 w3 o3 ld3. assert (t3 = t2) by congruence. subst t3.
    destruct (C6 S' Hr LB ltac:(lia) SH ltac:(lia)) as (C7 & _). intros j r Hj.
    destruct (wf_rows rnd ref m' w o G S' Hr ltac:(lia) ltac:(lia) LB nt ndl t2 B4 j r Hj) as (_ & _ & _ & X & _).
    destruct (table_struct _ _ _ _ _ _ _ _ B4) as (ff & ll & st & _ & _ & _ & _ & _ & _ & T). destruct (T _ _ Hj) as (_ & _ & T1 & _).
    assert (0 <= wr_from r)%Z by (apply (C7 ltac:(intros Z0; rewrite Z0 in C2; cbn in C2; lia) _ _ Hj)). lia.
  - intros j r Hj. destruct (table_more rnd nt ndl ref m m' w o t1 t2 G S S' EF E1 EN Hr ltac:(lia) ltac:(lia) LB A4 B4) as (more & ->). exists j, r.
    split; [rewrite nth_error_app1; [exact Hj|apply nth_error_Some; congruence]|]. split; [reflexivity|lia].
Qed.

(** ** the spectra *)
Lemma last_part {A B} (f : list A -> res (list B)) c n off x n' off' x' y y' : nd_last f x = Ok y -> nd_last f x' = Ok y' -> part_windows c n off x n' off' x' -> part_windows c n off y n' off' y'.
Proof.
  intros E E' P k Hk. destruct (P k Hk) as [P1 P2]. split; [exact P1|]. intros ch Hch. destruct (P2 ch Hch) as (v & V & V').
  destruct (nd_last_vec f _ _ _ _ E V) as (w & F1 & F2). destruct (nd_last_vec f _ _ _ _ E' V') as (w' & G1 & G2). assert (w' = w) by congruence. subst w'. exists w. auto.
Qed.
Lemma fourier_part rnd nf T c a b da db level wl wl' x x' : (0 <= level)%Z -> (level < wd_n_levels a)%Z -> (level < wd_n_levels b)%Z -> fourier_run rnd nf T a = Ok da -> fourier_run rnd nf T b = Ok db ->
  wd_level_md a level = Ok wl -> wd_level_md b level = Ok wl' -> wd_get_level a level = Ok x -> wd_get_level b level = Ok x' ->
  wl_fs wl = wl_fs wl' -> wl_win_size wl = wl_win_size wl' -> wl_olap_size wl = wl_olap_size wl' ->
  part_windows c (wl_n_wins wl) (wl_offset wl) x (wl_n_wins wl') (wl_offset wl') x' -> part_spectra c level da db.
Proof.
  intros L0 L1 L2 A B M M' X X' E1 E2 E3 P.
  destruct (fourier_level_at _ _ _ _ _ _ A (conj L0 L1)) as (m & fr & x1 & y & A1 & A2 & A3 & A4 & A5 & A6).
  destruct (fourier_level_at _ _ _ _ _ _ B (conj L0 L2)) as (m' & fr' & x1' & y' & B1 & B2 & B3 & B4 & B5 & B6).
  assert (m = wl) by congruence. assert (m' = wl') by congruence. assert (x1 = x) by congruence. assert (x1' = x') by congruence. subst m m' x1 x1'.
  rewrite <- E1, <- E2 in B2. assert (fr' = fr) by congruence. subst fr'. rewrite <- E2 in B4.
  exists (fourier_level_md wl fr), (fourier_level_md wl' fr), y, y'. do 4 (split; [assumption|]). unfold fourier_level_md. cbn [sl_fs sl_win_size sl_olap_size sl_freqs sl_n_freqs sl_n_wins sl_offset].
  do 3 (split; [assumption|]). do 2 (split; [reflexivity|]). exact (last_part _ _ _ _ _ _ _ _ _ _ A4 B4 P).
Qed.
Lemma smooth_at name f d d' level : smooth_run name f d = Ok d' -> (0 <= level < sm_n_levels (sd_md d))%Z ->
  exists g x y, f level = Ok g /\ sd_get_level d level = Ok x /\ nd_last (fun v => Ok (g v)) x = Ok y /\ sd_get_level d' level = Ok y /\ sd_level_md d' level = sd_level_md d level /\ sm_n_levels (sd_md d') = sm_n_levels (sd_md d).
Proof.
  intros H Hl. unfold smooth_run in H. apply bind_ok in H. destruct H as (r & Hr & H). apply make_spec_ok in H. subst d'.
  assert (N : nth_error (arange (sm_n_levels (sd_md d))) (Z.to_nat level) = Some level) by (rewrite arange_nth by lia; f_equal; lia).
  destruct (mapM_nth _ _ _ _ _ Hr N) as (y & Ny & Hy). cbv beta in Hy. apply bind_ok in Hy. destruct Hy as (g & Hg & Hy). apply bind_ok in Hy. destruct Hy as (x & Hx & Hy). apply bind_ok in Hy. destruct Hy as (z & Hz & Hy). injection Hy as <-.
  exists g, x, z. do 3 (split; [assumption|]). split; [|split; reflexivity].
  assert (F : map fst r = arange (sm_n_levels (sd_md d))).
  { clear - Hr. apply mapM_ok in Hr. induction Hr as [|l y ls r E F IH]; [reflexivity|]. cbn [map]. rewrite IH. f_equal. repeat (apply bind_ok in E; destruct E as (? & ? & E)). injection E as <-. reflexivity. }
  destruct (find_key _ _ _ _ F Ny) as [_ K]. rewrite Z2Nat.id in K by lia.
  unfold sd_get_level, sd_at. cbn [sd_md with_spec_history sm_n_levels sd_data]. replace (level >=? sm_n_levels (sd_md d))%Z with false by lia. rewrite K. reflexivity.
Qed.
Lemma smooth_part name f g c level a b a' b' : (0 <= level)%Z -> (level < sm_n_levels (sd_md a))%Z -> (level < sm_n_levels (sd_md b))%Z ->
  (forall u v, f level = Ok u -> g level = Ok v -> u = v) -> smooth_run name f a = Ok a' -> smooth_run name g b = Ok b' -> part_spectra c level a b ->
  part_spectra c level a' b' /\ sm_n_levels (sd_md a') = sm_n_levels (sd_md a) /\ sm_n_levels (sd_md b') = sm_n_levels (sd_md b).
Proof.
  intros L0 L1 L2 FG A B (m & m' & x & x' & M & M' & X & X' & E1 & E2 & E3 & E4 & E5 & P).
  destruct (smooth_at _ _ _ _ _ A (conj L0 L1)) as (h & x1 & y & A1 & A2 & A3 & A4 & A5 & A6).
  destruct (smooth_at _ _ _ _ _ B (conj L0 L2)) as (h' & x1' & y' & B1 & B2 & B3 & B4 & B5 & B6).
  pose proof (FG _ _ A1 B1). subst h'. assert (x1 = x) by congruence. assert (x1' = x') by congruence. subst x1 x1'. split; [|split; assumption].
  exists m, m', y, y'. rewrite A5, B5. do 9 (split; [assumption|]). exact (last_part _ _ _ _ _ _ _ _ _ _ A3 B3 P).
Qed.
Lemma sprocs_part L ps c level : forall a b a' b', (0 <= level)%Z -> (level < sm_n_levels (sd_md a))%Z -> (level < sm_n_levels (sd_md b))%Z -> run_sprocs L ps a = Ok a' -> run_sprocs L ps b = Ok b' ->
  part_spectra c level a b -> part_spectra c level a' b' /\ sm_n_levels (sd_md a') = sm_n_levels (sd_md a) /\ sm_n_levels (sd_md b') = sm_n_levels (sd_md b).
Proof.
  induction ps as [|p ps IH]; intros a b a' b' L0 L1 L2 A B P; cbn [run_sprocs] in A, B; [injection A as <-; injection B as <-; auto|].
  apply bind_ok in A. destruct A as (a1 & A1 & A). apply bind_ok in B. destruct B as (b1 & B1 & B).
  assert (X : part_spectra c level a1 b1 /\ sm_n_levels (sd_md a1) = sm_n_levels (sd_md a) /\ sm_n_levels (sd_md b1) = sm_n_levels (sd_md b)).
  { destruct p; cbn [run_sproc] in A1, B1; refine (smooth_part _ _ _ _ _ _ _ _ _ L0 L1 L2 _ A1 B1 P); cbv beta; [|congruence].
    destruct P as (m & m' & x & x' & M & M' & _ & _ & _ & _ & _ & _ & E5 & _). rewrite M, M'. cbn [bind]. rewrite E5. congruence. }
  destruct X as (P' & N1 & N2). destruct (IH a1 b1 a' b' L0 ltac:(lia) ltac:(lia) A B P') as (P2 & N3 & N4). split; [exact P2|]. split; congruence.
Qed.
Lemma evals_part p c level a b a' b' : (0 <= level)%Z -> (level < sm_n_levels (sd_md a))%Z -> (level < sm_n_levels (sd_md b))%Z -> evals_run p a = Ok a' -> evals_run p b = Ok b' ->
  part_spectra c level a b -> part_spectra c level a' b'.
Proof.
  intros L0 L1 L2 A B (m & m' & x & x' & M & M' & X & X' & E1 & E2 & E3 & E4 & E5 & P).
  destruct (evals_level_at _ _ _ _ A (conj L0 L1)) as (n & ev & x1 & y & A1 & A2 & A3 & A4 & A5 & A6).
  destruct (evals_level_at _ _ _ _ B (conj L0 L2)) as (n' & ev' & x1' & y' & B1 & B2 & B3 & B4 & B5 & B6).
  assert (n = m) by congruence. assert (n' = m') by congruence. assert (x1 = x) by congruence. assert (x1' = x') by congruence. assert (ev' = ev) by congruence. subst n n' x1 x1' ev'. rewrite <- E4 in B4.
  eexists _, _, y, y'. split; [exact A6|]. split; [exact B6|]. split; [exact A5|]. split; [exact B5|]. cbn [sl_fs sl_win_size sl_olap_size sl_freqs sl_n_freqs sl_n_wins sl_offset].
  do 3 (split; [assumption|]). do 2 (split; [reflexivity|]). exact (last_part _ _ _ _ _ _ _ _ _ _ A4 B4 P).
Qed.

(** ** the first level of the pipeline *)
Lemma first_level rnd orc b maxf p td dd rest : dp_increments p = 1%Z :: rest -> decimator_run rnd orc b maxf p td = Ok dd ->
  get_level dd 0 = Ok (rows td) /\ nth_error (dd_levels_md dd) 0 = Some (level_of td) /\ nth_error (dd_fs dd) 0 = Some (fs (meta td)) /\ (1 <= dd_n_levels dd)%Z /\ dd_chans dd = chans (meta td).
Proof.
  intros E H. assert (N : (0 < dp_n_levels p)%Z).
  { destruct (Z_lt_ge_dec 0 (dp_n_levels p)) as [|N]; [assumption|]. unfold decimator_run in H. replace (Z.to_nat (dp_n_levels p)) with 0%nat in H by lia. discriminate H. }
  split; [exact (first_level_rows _ _ _ _ _ _ _ _ E N H)|]. unfold decimator_run in H. rewrite E in H. destruct (Z.to_nat (dp_n_levels p)) as [|k] eqn:K; [lia|]. cbn [firstn] in H.
  apply bind_ok in H. destruct H as ([d l] & H1 & H). cbn [dec_loop dec_step Z.eqb Pos.eqb] in H1. cbv beta iota delta [bind] in H1.
  destruct (n_samples (meta td) <? dp_min_samples p)%Z.
  - injection H1 as <- <-. discriminate H.
  - destruct (dec_loop rnd orc b maxf (dp_min_samples p) (firstn k rest) (0 + 1) td) as [[d' l']|]; [|discriminate H1]. injection H1 as <- <-.
    cbv beta iota in H. injection H as <-. cbn [dd_levels_md dd_fs dd_n_levels dd_chans map nth_error length]. repeat split; try reflexivity. lia.
Qed.
Lemma setup_first rnd c n n' dfs dfs' p p' f : (1 <= n)%Z -> (1 <= n')%Z -> nth_error dfs 0 = Some f -> nth_error dfs' 0 = Some f -> win_setup_run rnd c n dfs = Ok p -> win_setup_run rnd c n' dfs' = Ok p' ->
  exists w o, nth_error (wp_win_sizes p) 0 = Some w /\ nth_error (wp_win_sizes p') 0 = Some w /\ nth_error (wp_olap_sizes p) 0 = Some o /\ nth_error (wp_olap_sizes p') 0 = Some o.
Proof.
  intros Hn Hn' F F' H H'. unfold win_setup_run in H, H'.
  apply bind_ok in H. destruct H as (ws & H1 & H). apply bind_ok in H. destruct H as (ws2 & H2 & H). apply bind_ok in H. destruct H as (os & H3 & H). injection H as <-.
  apply bind_ok in H'. destruct H' as (ws' & H1' & H'). apply bind_ok in H'. destruct H' as (ws2' & H2' & H'). apply bind_ok in H'. destruct H' as (os' & H3' & H'). injection H' as <-.
  cbn [wp_win_sizes wp_olap_sizes].
  assert (FL : forall m l l', (1 <= m)%Z -> fit_levels m l = Ok l' -> nth_error l' 0 = nth_error l 0 /\ exists v, nth_error l' 0 = Some v).
  { intros m l l' Hm E. destruct (fit_levels_spec m l l' ltac:(lia) E) as [-> L]. destruct l as [|v l]; [rewrite firstn_nil in L; cbn in L; lia|]. destruct (Z.to_nat m) eqn:K; [lia|]. split; [reflexivity|]. exists v. reflexivity. }
  destruct (FL _ _ _ Hn H2) as [A1 [w A2]]. destruct (FL _ _ _ Hn' H2') as [B1 [w' B2]]. destruct (FL _ _ _ Hn H3) as [A3 [o A4]]. destruct (FL _ _ _ Hn' H3') as [B3 [o' B4]].
  assert (W0 : nth_error ws 0 = nth_error ws' 0).
  { destruct (ws_win_sizes c) as [l|]; [congruence|]. unfold setup_win_sizes in H1, H1'.
    destruct (Z.to_nat n) as [|k] eqn:K; [lia|]. destruct (Z.to_nat n') as [|k'] eqn:K'; [lia|]. cbn [seq mapM] in H1, H1'. rewrite F in H1. rewrite F' in H1'.
    destruct (setup_win_size rnd c f) as [u|]; [|discriminate]. cbn [bind] in H1, H1'. apply bind_ok in H1. destruct H1 as (t & _ & H1). apply bind_ok in H1'. destruct H1' as (t' & _ & H1'). injection H1 as <-. injection H1' as <-. reflexivity. }
  assert (w' = w) by congruence. subst w'. exists w, o. do 3 (split; [assumption|]).
  rewrite B4. destruct (ws_olap_sizes c) as [l|]; [congruence|]. rewrite nth_error_map in A3, B3. rewrite A2 in A3. rewrite B2 in B3. congruence.
Qed.

Lemma fourier_levels rnd nf T d d' : fourier_run rnd nf T d = Ok d' -> sm_n_levels (sd_md d') = wd_n_levels d.
Proof. intros H. unfold fourier_run in H. apply bind_ok in H. destruct H as (r & _ & H). apply make_spec_ok in H. subst d'. reflexivity. Qed.
Section Evals.
  Variables (L : library) (c : config) (ref : time).
  Hypothesis HT : cf_target c = None.
  (** from the windows of the first level on *)
  Lemma evals_first C a b p p2 ea eb : to_evals L c ref a = Ok (p, ea) -> to_evals L c ref b = Ok (p2, eb) -> 
    (exists a' b' pr, run_all (l_rnd L) (l_drnd L) (l_orc L) (cf_time c) a = Ok a' /\ run_all (l_rnd L) (l_drnd L) (l_orc L) (cf_time c) b = Ok b' /\ fs (meta a') = fs (meta b') /\ dp_increments p = 1%Z :: pr /\
      forall dd dd' wp wp' wd wd' x x' wl wl' w o, get_level dd 0 = Ok (rows a') -> get_level dd' 0 = Ok (rows b') -> nth_error (dd_levels_md dd) 0 = Some (level_of a') -> nth_error (dd_levels_md dd') 0 = Some (level_of b') ->
        dd_chans dd = chans (meta a') -> dd_chans dd' = chans (meta b') -> nth_error (wp_win_sizes wp) 0 = Some w -> nth_error (wp_win_sizes wp') 0 = Some w -> nth_error (wp_olap_sizes wp) 0 = Some o -> nth_error (wp_olap_sizes wp') 0 = Some o ->
        windower_run (l_rnd L) (l_ns_time L) (l_ns_delta L) ref wp dd = Ok wd -> windower_run (l_rnd L) (l_ns_time L) (l_ns_delta L) ref wp' dd' = Ok wd' ->
        wd_get_level wd 0 = Ok x -> wd_get_level wd' 0 = Ok x' -> wd_level_md wd 0 = Ok wl -> wd_level_md wd' 0 = Ok wl' ->
        (exists m, sd_level_md ea 0 = Ok m /\ sl_win_size m = w /\ sl_olap_size m = o) ->
        wl_fs wl = wl_fs wl' /\ wl_win_size wl = w /\ wl_win_size wl' = w /\ wl_olap_size wl = o /\ wl_olap_size wl' = o /\
        part_windows C (wl_n_wins wl) (wl_offset wl) x (wl_n_wins wl') (wl_offset wl') x') ->
    part_spectra C 0 ea eb.
  Proof.
    intros A B (a' & b' & pr & RA & RB & FS & INC & K). unfold to_evals in A, B. rewrite RA in A. rewrite RB in B. cbn [bind] in A, B. rewrite FS in A.
    apply bind_ok in A. destruct A as (p1 & A2 & A). rewrite A2 in B. cbn [bind] in B.
    apply bind_ok in A. destruct A as (dd & A3 & A). apply bind_ok in B. destruct B as (dd' & B3 & B).
    apply bind_ok in A. destruct A as (wd & A4 & A). apply bind_ok in B. destruct B as (wd' & B4 & B).
    apply bind_ok in A. destruct A as (sd & A5 & A). apply bind_ok in B. destruct B as (sd' & B5 & B).
    apply bind_ok in A. destruct A as (se & A6 & A). apply bind_ok in B. destruct B as (se' & B6 & B).
    apply bind_ok in A. destruct A as (ed & A7 & A). apply bind_ok in B. destruct B as (ed' & B7 & B).
    injection A as -> ->. injection B as _ ->.
    destruct (first_level _ _ _ _ _ _ _ _ INC A3) as (D1 & D2 & D3 & D4 & D5). destruct (first_level _ _ _ _ _ _ _ _ INC B3) as (E1 & E2 & E3 & E4 & E5).
    unfold run_windowing in A4, B4. rewrite HT in A4, B4. apply bind_ok in A4. destruct A4 as (wp & W1 & A4). apply bind_ok in B4. destruct B4 as (wp' & W1' & B4).
    rewrite <- FS in E3. destruct (setup_first _ _ _ _ _ _ _ _ _ D4 E4 D3 E3 W1 W1') as (w & o & P1 & P2 & P3 & P4).
    assert (N1 : (0 < wd_n_levels wd)%Z).
    { destruct (windower_levels _ _ _ _ _ _ _ A4) as (_ & _ & _ & xs & wls & HL & _ & _ & N & NE). destruct (window_loop_spec _ _ _ _ _ _ _ _ _ _ _ HL) as (I1 & _). rewrite N, <- I1. destruct xs; [contradiction|cbn [length]; lia]. }
    assert (N2 : (0 < wd_n_levels wd')%Z).
    { destruct (windower_levels _ _ _ _ _ _ _ B4) as (_ & _ & _ & xs & wls & HL & _ & _ & N & NE). destruct (window_loop_spec _ _ _ _ _ _ _ _ _ _ _ HL) as (I1 & _). rewrite N, <- I1. destruct xs; [contradiction|cbn [length]; lia]. }
    destruct (fourier_level_at _ _ _ _ _ _ A5 (conj (Z.le_refl 0) N1)) as (wl & fr & x & y & F1 & F2 & F3 & F4 & F5 & F6).
    destruct (fourier_level_at _ _ _ _ _ _ B5 (conj (Z.le_refl 0) N2)) as (wl' & fr' & x' & y' & G1 & G2 & G3 & G4 & G5 & G6).
    destruct (run_vecs _ _ _ _ _ _ _ 0%nat x A4 F3) as (m1 & w1 & o1 & t1 & l1 & f1 & V1 & V2 & V3 & V4 & V5 & V6 & _). change (Z.of_nat 0) with 0%Z in V6. rewrite V6 in F1.
    assert (w1 = w) by congruence. assert (o1 = o) by congruence. subst w1 o1.
    assert (ML : exists m, sd_level_md ea 0 = Ok m /\ sl_win_size m = w /\ sl_olap_size m = o).
    { assert (SP : forall ps u v, (0 < sm_n_levels (sd_md u))%Z -> run_sprocs L ps u = Ok v -> sd_level_md v 0 = sd_level_md u 0 /\ sm_n_levels (sd_md v) = sm_n_levels (sd_md u)).
      { induction ps as [|q ps IH]; intros u v Hu Hv; cbn [run_sprocs] in Hv; [injection Hv as <-; auto|]. apply bind_ok in Hv. destruct Hv as (u1 & H1 & Hv).
        assert (X : sd_level_md u1 0 = sd_level_md u 0 /\ sm_n_levels (sd_md u1) = sm_n_levels (sd_md u)).
        { destruct q; cbn [run_sproc] in H1; destruct (smooth_at _ _ _ _ _ H1 (conj (Z.le_refl 0) Hu)) as (_ & _ & _ & _ & _ & _ & _ & X1 & X2); auto. }
        destruct X as [X1 X2]. destruct (IH u1 v ltac:(lia) Hv) as [Y1 Y2]. split; congruence. }
      pose proof (fourier_levels _ _ _ _ _ A5) as FL. destruct (SP _ sd se ltac:(lia) A6) as [X1 X2].
      assert (N3 : (0 <= 0 < sm_n_levels (sd_md se))%Z) by lia. destruct (evals_level_at _ se _ 0%Z A7 N3) as (n & ev & x1 & y1 & Y1 & _ & _ & _ & _ & Y6). eexists. split; [exact Y6|]. cbn [sl_win_size sl_olap_size].
      rewrite X1, F6 in Y1. injection F1 as <-. injection Y1 as <-. unfold fourier_level_md. cbn [sl_win_size sl_olap_size wl_win_size wl_olap_size]. split; reflexivity. }
    rewrite <- V6 in F1. assert (WL : wd_level_md wd 0 = Ok wl) by (rewrite V6; rewrite V6 in F1; exact F1).
    destruct (K dd dd' wp wp' wd wd' x x' wl wl' w o D1 E1 D2 E2 D5 E5 P1 P2 P3 P4 A4 B4 F3 G3 WL G1 ML) as (Q1 & Q2 & Q3 & Q4 & Q5 & Q6).
    pose proof (fourier_part _ _ _ C _ _ _ _ 0 wl wl' x x' (Z.le_refl 0) N1 N2 A5 B5 WL G1 F3 G3 Q1 ltac:(congruence) ltac:(congruence) Q6) as PS.
    pose proof (fourier_levels _ _ _ _ _ A5) as FA. pose proof (fourier_levels _ _ _ _ _ B5) as FB.
    destruct (sprocs_part L _ C 0 sd sd' se se' (Z.le_refl 0) ltac:(lia) ltac:(lia) A6 B6 PS) as (PS2 & M1 & M2).
    exact (evals_part _ C 0 se se' _ _ (Z.le_refl 0) ltac:(lia) ltac:(lia) A7 B7 PS2).
  Qed.
  Variables (k : Z) (a b a' b' : tdata) (p p2 : dec_params) (pr : list Z) (ea eb : spec_data cq) (m : spec_level).
  Hypotheses (A : to_evals L c ref a = Ok (p, ea)) (B : to_evals L c ref b = Ok (p2, eb))
    (RA : run_all (l_rnd L) (l_drnd L) (l_orc L) (cf_time c) a = Ok a') (RB : run_all (l_rnd L) (l_drnd L) (l_orc L) (cf_time c) b = Ok b')
    (PO : part_of k a' b') (INC : dp_increments p = 1%Z :: pr) (C2 : (2 <= length (chans (meta b')))%nat) (Hr : ref <= first_time (meta b'))
    (HM : sd_level_md ea 0 = Ok m) (WO : (sl_olap_size m < sl_win_size m)%Z) (WN : (2 <= sl_win_size m < n_samples (meta a'))%Z).
  Lemma c99_spectra : recorded (l_rnd L) (level_of a') -> recorded (l_rnd L) (level_of b') -> precise (l_rnd L) ref (level_of a') -> precise (l_rnd L) ref (level_of b') -> (sl_win_size m <= 2 ^ 52)%Z ->
    part_spectra (length (chans (meta b'))) 0 ea eb.
  Proof.
    intros R R' P P' WB. destruct PO as (O1 & O2 & O3 & O4 & O5 & O6 & O7 & O8).
    apply (evals_first _ a b p p2 ea eb A B). exists a', b', pr. split; [exact RA|]. split; [exact RB|]. split; [exact O2|]. split; [exact INC|].
    intros dd dd' wp wp' wd wd' x x' wl wl' w o D1 E1 D2 E2 D3 E3 W1 W2 W3 W4 HW HW' X X' Y Y' (m0 & M1 & M2 & M3). assert (m0 = m) by congruence. subst m0 w o. rewrite <- E3.
    refine (c99_windows (l_rnd L) (l_ns_time L) (l_ns_delta L) ref k wp wp' dd dd' wd wd' 0 x x' (level_of a') (level_of b') _ _ (rows a') (rows b') wl wl' HW HW' X X' Y Y' W1 W3 W2 W4 D2 E2 D1 E1 _ _ _ O6 _ R R' P P' Hr WO WN WB).
    - congruence.
    - rewrite E3. exact C2.
    - split; [exact O8|]. rewrite E3. exact O7.
    - repeat split; assumption.
  Qed.
  Lemma c99_spectra_more : good_rnd (l_rnd L) -> k = 0%Z -> first_time (meta a') = first_time (meta b') -> sampled (l_rnd L) (level_of a') -> sampled (l_rnd L) (level_of b') ->
    last_time (meta b') <= stamp ref (period (l_rnd L) (fs (meta b'))) (2 ^ 47) -> (sl_win_size m <= 1000000)%Z -> part_spectra (length (chans (meta b'))) 0 ea eb.
  Proof.
    intros G K0 F S S' LB WB. destruct PO as (O1 & O2 & O3 & O4 & O5 & O6 & O7 & O8). subst k.
    apply (evals_first _ a b p p2 ea eb A B). exists a', b', pr. split; [exact RA|]. split; [exact RB|]. split; [exact O2|]. split; [exact INC|].
    intros dd dd' wp wp' wd wd' x x' wl wl' w o D1 E1 D2 E2 D3 E3 W1 W2 W3 W4 HW HW' X X' Y Y' (m0 & M1 & M2 & M3). assert (m0 = m) by congruence. subst m0 w o. rewrite <- E3.
    refine (c99_windows_more (l_rnd L) (l_ns_time L) (l_ns_delta L) ref wp wp' dd dd' wd wd' 0 x x' (level_of a') (level_of b') _ _ (rows a') (rows b') wl wl' G HW HW' X X' Y Y' W1 W3 W2 W4 D2 E2 D1 E1 _ _ _ O6 O2 F O5 S S' Hr LB WO WN WB).
    - congruence.
    - rewrite E3. exact C2.
    - split; [exact O8|]. rewrite E3. exact O7.
  Qed.
End Evals.
