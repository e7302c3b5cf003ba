(** The window table in every correctly rounded arithmetic. Times are compared with
    the sample period [T] the code works with: window [g] starts at
    [stamp ref T (g * (w - o))], sample [k] of the recording is at [stamp first T k]. *)
From Coq Require Import String.
From Verif Require Import Base.Prelude Base.Rounding Base.ListUtil Base.NdArray Model.Sampling Model.Time Model.Decimate Model.Window
  Spec.Sampling Spec.Window Proofs.Sampling Proofs.SamplingFloat Proofs.SamplingErr Proofs.TimeMeta Proofs.Window Proofs.WindowTable
  Proofs.WindowRun Proofs.WindowFinal.
Open Scope Q_scope.

Section F.
  Variables (rnd : Q -> Q) (ref : Q) (m : level_md) (w o : Z).
  Hypothesis G : good_rnd rnd.
  Hypothesis SM : sampled rnd m.
  Hypothesis RF : ref <= lm_first m.
  Hypothesis WO : (0 <= o < w)%Z.
  Hypothesis WB : (w <= 1000000)%Z.
  Let T := period rnd (lm_fs m).
  Hypothesis LB : lm_last m <= stamp ref T (2 ^ 47).
  Let k := inject_Z (w - o).
  Let N := (lm_first m - ref) / T.

  Lemma wf_T : 0 < T. Proof. unfold T. apply (period_pos G); apply SM. Qed.
  Lemma wf_k : 1 <= k. Proof. unfold k. change 1 with (inject_Z 1). rewrite <- inject_Z_le. lia. Qed.
  Lemma wf_kb : k <= 1000000 # 1. Proof. unfold k. change (1000000 # 1) with (inject_Z 1000000). rewrite <- inject_Z_le. lia. Qed.
  Lemma wf_first : lm_first m == ref + N * T.
  Proof. unfold N. pose proof wf_T. field. lra. Qed.
  Lemma wf_last : lm_last m == ref + (N + inject_Z (lm_n_samples m - 1)) * T.
  Proof. destruct SM as (_ & _ & _ & L). fold T in L. rewrite L. unfold stamp. rewrite wf_first. ring. Qed.
  Lemma wf_N0 : 0 <= N.
  Proof. unfold N. apply Qle_shift_div_l; [exact wf_T|]. lra. Qed.
  Lemma wf_n0 : 0 <= inject_Z (lm_n_samples m - 1).
  Proof. apply inj_nonneg. destruct SM as (_ & _ & H & _). lia. Qed.
  Lemma le_T a b : a * T <= b * T -> a <= b. Proof. pose proof wf_T. intros. nra. Qed.
  Lemma T_le a b : a <= b -> a * T <= b * T. Proof. pose proof wf_T. intros. nra. Qed.
  Lemma T_lt a b : a < b -> a * T < b * T. Proof. pose proof wf_T. intros. nra. Qed.
  Lemma wf_X : N + inject_Z (lm_n_samples m - 1) <= 140737488355328 # 1.
  Proof.
    apply le_T. pose proof LB as H. rewrite wf_last in H. unfold stamp in H. change (inject_Z (2 ^ 47)) with (140737488355328 # 1) in H. lra.
  Qed.
  Lemma wf_inc : inc_duration rnd w o (lm_fs m) == k * T. Proof. unfold inc_duration. fold T k. ring. Qed.
  Lemma wf_inc_pos : 0 < inc_duration rnd w o (lm_fs m).
  Proof. rewrite wf_inc. pose proof wf_T. pose proof wf_k. nra. Qed.

  (** the quotient, in samples *)
  Lemma wf_quot t x : t == ref + x * T -> 0 <= x -> x <= 140737488355328 # 1 ->
    let q := win_quot rnd ref t (inc_duration rnd w o (lm_fs m)) in
    ~ total_seconds rnd (inc_duration rnd w o (lm_fs m)) == 0 /\
    x - (11 # 64) <= q * k /\ q * k <= x + (11 # 64).
  Proof.
    intros Ht X0 X1. cbv zeta. pose proof wf_T as TP. pose proof wf_k as KP.
    assert (R : ref <= t) by (rewrite Ht; nra).
    destruct (win_quot_err G ref t _ R wf_inc_pos) as (A & B & C). cbv zeta in *.
    set (q := win_quot rnd ref t (inc_duration rnd w o (lm_fs m))) in *.
    assert (E : (t - ref) / inc_duration rnd w o (lm_fs m) * k == x).
    { rewrite wf_inc, Ht. field. split; lra. }
    set (v := (t - ref) / inc_duration rnd w o (lm_fs m)) in *.
    assert (B' : v * (1 - 11 * uu) * k <= q * k) by (apply Qmult_le_compat_r; lra).
    assert (C' : q * k <= v * (1 + 11 * uu) * k) by (apply Qmult_le_compat_r; lra).
    assert (B2 : v * (1 - 11 * uu) * k == x * (1 - 11 * uu)) by (rewrite <- E; ring).
    assert (C2 : v * (1 + 11 * uu) * k == x * (1 + 11 * uu)) by (rewrite <- E; ring).
    rewrite B2 in B'. rewrite C2 in C'. unfold uu in *. split; [lra|]. split; lra.
  Qed.

  Definition wf_f := qceil (win_quot rnd ref (lm_first m) (inc_duration rnd w o (lm_fs m))).
  Definition wf_l0 := qfloor (win_quot rnd ref (lm_last m) (inc_duration rnd w o (lm_fs m))).
  Lemma wf_f_spec : N - (11 # 64) <= inject_Z wf_f * k /\ (inject_Z wf_f - 1) * k <= N + (11 # 64).
  Proof.
    destruct (wf_quot _ N wf_first wf_N0) as (_ & A & B). { pose proof wf_X. pose proof wf_n0. lra. }
    destruct (qceil_spec (win_quot rnd ref (lm_first m) (inc_duration rnd w o (lm_fs m)))) as [C D]. fold wf_f in C, D.
    pose proof wf_k. set (q := win_quot _ _ _ _) in *. split; nra.
  Qed.
  Lemma wf_l0_spec : inject_Z wf_l0 * k <= N + inject_Z (lm_n_samples m - 1) + (11 # 64) /\
    N + inject_Z (lm_n_samples m - 1) - (11 # 64) <= (inject_Z wf_l0 + 1) * k.
  Proof.
    destruct (wf_quot _ _ wf_last) as (_ & A & B); [pose proof wf_N0; pose proof wf_n0; lra|apply wf_X|].
    destruct (qfloor_spec (win_quot rnd ref (lm_last m) (inc_duration rnd w o (lm_fs m)))) as [C D]. fold wf_l0 in C, D.
    pose proof wf_k. set (q := win_quot _ _ _ _) in *. split; nra.
  Qed.
  Lemma wf_start g : win_to_datetime ref g (inc_duration rnd w o (lm_fs m)) == ref + inject_Z g * k * T.
  Proof. unfold win_to_datetime. rewrite wf_inc. ring. Qed.
  Lemma wf_stamp g : stamp ref T (g * (w - o)) == ref + inject_Z g * k * T.
  Proof. unfold stamp. rewrite inject_Z_mult. fold k. ring. Qed.
  Lemma wf_end g : win_to_datetime ref g (inc_duration rnd w o (lm_fs m)) + win_duration rnd w (lm_fs m)
    == ref + (inject_Z g * k + inject_Z (w - 1)) * T.
  Proof. rewrite wf_start. unfold win_duration. fold T. ring. Qed.
  Lemma wf_stamp_end g : stamp ref T (g * (w - o) + (w - 1)) == ref + (inject_Z g * k + inject_Z (w - 1)) * T.
  Proof. unfold stamp. rewrite inject_Z_plus, inject_Z_mult. fold k. ring. Qed.

  Lemma wf_search : get_first_and_last_win rnd ref m w o =
    let l := adjust_last 2 ref (lm_last m) (inc_duration rnd w o (lm_fs m)) (win_duration rnd w (lm_fs m)) wf_l0 in
    if Qltb (lm_last m) (win_to_datetime ref l (inc_duration rnd w o (lm_fs m)) + win_duration rnd w (lm_fs m))
    then Err ValueError else Ok (wf_f, l).
  Proof.
    unfold get_first_and_last_win.
    replace (Qeq_bool (lm_fs m) 0) with false.
    2:{ symmetry. destruct (Qeq_bool _ _) eqn:E; [|reflexivity]. apply Qeq_bool_iff in E. destruct SM as (F & _). lra. }
    cbv zeta.
    destruct (wf_quot _ N wf_first wf_N0) as (NZ & _). { pose proof wf_X. pose proof wf_n0. lra. }
    rewrite dtw_ok by assumption.
    assert (RL : ref <= lm_last m). { rewrite wf_last. pose proof wf_T. pose proof wf_N0. pose proof wf_n0. nra. }
    rewrite dtw_ok by assumption. fold wf_f wf_l0. cbv beta iota delta [bind]. reflexivity.
  Qed.

  Lemma wf_range f l : get_first_and_last_win rnd ref m w o = Ok (f, l) ->
    f = wf_f /\ (inject_Z l * k + inject_Z (w - 1)) <= N + inject_Z (lm_n_samples m - 1) /\
    ((2 <= w)%Z -> N + inject_Z (lm_n_samples m - 1) < inject_Z (l + 1) * k + inject_Z (w - 1)).
  Proof.
    rewrite wf_search. cbv zeta.
    destruct (adjust_last_spec ref (lm_last m) (inc_duration rnd w o (lm_fs m)) (win_duration rnd w (lm_fs m)) 2 wf_l0) as (i & Hi & E & H2 & _).
    rewrite E. destruct (Qltb _ _) eqn:L; [discriminate|]. intros H. assert (f = wf_f) as -> by congruence.
    assert (l = (wf_l0 - Z.of_nat i)%Z) as -> by congruence. clear H. apply Qltb_false in L. split; [reflexivity|].
    rewrite wf_end, wf_last in L. split; [apply le_T; lra|].
    intros W2. destruct i as [|i].
    - destruct wf_l0_spec as [_ B]. rewrite inject_Z_plus. change (inject_Z 1) with 1. replace (wf_l0 - Z.of_nat 0)%Z with wf_l0 by lia.
      assert (1 <= inject_Z (w - 1)) by (change 1 with (inject_Z 1); rewrite <- inject_Z_le; lia). lra.
    - specialize (H2 i ltac:(lia)). rewrite wf_end, wf_last in H2. replace (wf_l0 - Z.of_nat (S i) + 1)%Z with (wf_l0 - Z.of_nat i)%Z by lia.
      apply Qnot_le_lt. intro C. apply T_le in C. lra.
  Qed.

  (** windows found: all complete at the end, and none missed that starts a quarter of a sample after the first sample *)
  Lemma wf_complete f l : get_first_and_last_win rnd ref m w o = Ok (f, l) ->
    (forall g, (f <= g)%Z -> lm_first m <= stamp ref T (g * (w - o)) + (1 # 4) * T) /\
    (forall g, lm_first m + (1 # 4) * T <= stamp ref T (g * (w - o)) -> (f <= g)%Z) /\
    (forall g, (g <= l)%Z -> stamp ref T (g * (w - o) + (w - 1)) <= lm_last m) /\
    ((2 <= w)%Z -> forall g, stamp ref T (g * (w - o) + (w - 1)) <= lm_last m -> (g <= l)%Z).
  Proof.
    intros H. destruct (wf_range f l H) as (-> & L1 & L2). clear H. destruct wf_f_spec as [F1 F2]. pose proof wf_k as KP. pose proof wf_T as TP.
    assert (MONO : forall a b, (a <= b)%Z -> inject_Z a * k <= inject_Z b * k).
    { intros a b Hab. apply Qmult_le_compat_r; [apply (proj1 (inject_Z_le _ _)); exact Hab|lra]. }
    repeat apply conj.
    - intros g Hg. rewrite wf_stamp, wf_first. pose proof (MONO _ _ Hg). assert (N * T <= (inject_Z g * k + (1 # 4)) * T) by (apply T_le; lra). lra.
    - intros g Hg. rewrite wf_stamp, wf_first in Hg. destruct (Z_le_gt_dec wf_f g) as [|L]; [assumption|]. exfalso.
      assert (A : (N + (1 # 4)) * T <= inject_Z g * k * T) by lra. apply le_T in A.
      pose proof (MONO g (wf_f - 1)%Z ltac:(lia)) as B. unfold Z.sub in B. rewrite inject_Z_plus in B. change (inject_Z (- (1))) with (- (1)) in B. lra.
    - intros g Hg. rewrite wf_stamp_end, wf_last. pose proof (MONO _ _ Hg).
      assert ((inject_Z g * k + inject_Z (w - 1)) * T <= (N + inject_Z (lm_n_samples m - 1)) * T) by (apply T_le; lra). lra.
    - intros W2 g Hg. rewrite wf_stamp_end, wf_last in Hg. destruct (Z_le_gt_dec g l) as [|L]; [assumption|]. exfalso.
      assert (A : (inject_Z g * k + inject_Z (w - 1)) * T <= (N + inject_Z (lm_n_samples m - 1)) * T) by lra. apply le_T in A.
      pose proof (MONO (l + 1)%Z g ltac:(lia)) as B. specialize (L2 W2). lra.
  Qed.

  Lemma wf_succeeds : (2 * o <= w)%Z -> exists f l, get_first_and_last_win rnd ref m w o = Ok (f, l).
  Proof.
    intros Ho. rewrite wf_search. cbv zeta.
    destruct (adjust_last_spec ref (lm_last m) (inc_duration rnd w o (lm_fs m)) (win_duration rnd w (lm_fs m)) 2 wf_l0) as (i & Hi & E & _ & H3).
    rewrite E. destruct (Qltb _ _) eqn:L; [|eexists; eexists; reflexivity]. exfalso. apply Qltb_true in L.
    destruct (Nat.eq_dec i 2) as [->|]; [|specialize (H3 ltac:(lia)); lra].
    rewrite wf_end, wf_last in L. destruct wf_l0_spec as [B _]. replace (wf_l0 - Z.of_nat 2)%Z with (wf_l0 + -2)%Z in L by lia. rewrite inject_Z_plus in L.
    change (inject_Z (-2)) with (- (2)) in L.
    assert (W : inject_Z (w - 1) <= 2 * k - 1).
    { assert (X : 2 * k - 1 == inject_Z (2 * (w - o) + -1)) by (rewrite inject_Z_plus, inject_Z_mult; reflexivity). rewrite X, <- inject_Z_le. lia. }
    assert (A : ((inject_Z wf_l0 + - (2)) * k + inject_Z (w - 1)) * T <= (N + inject_Z (lm_n_samples m - 1)) * T) by (apply T_le; lra). lra.
  Qed.

  (** the first sample of the first window *)
  Definition wf_s0 := (to_n_samples rnd (win_to_datetime ref wf_f (inc_duration rnd w o (lm_fs m)) - lm_first m) (lm_fs m) Mfloor - 1)%Z.
  Lemma wf_s0_spec : inject_Z wf_f * k - N - (5 # 4) < inject_Z wf_s0 /\ inject_Z wf_s0 <= inject_Z wf_f * k - N + (1 # 4).
  Proof.
    destruct wf_f_spec as [F1 F2]. pose proof wf_k as KP. pose proof wf_kb as KB. pose proof wf_T as TP.
    set (D := inject_Z wf_f * k - N). assert (D0 : - (11 # 64) <= D) by (unfold D; lra). assert (D1 : D <= 1000001 # 1) by (unfold D; lra).
    destruct SM as (FS0 & FS1 & _). pose proof (period_err G (lm_fs m) FS0 FS1) as PE. fold T in PE. apply Qabs_Qle_condition in PE.
    set (p := T * lm_fs m) in *.
    assert (PB : - (1033 # 10000000000) <= p - 1 /\ p - 1 <= 1033 # 10000000000) by (unfold uu in PE; lra).
    set (d := win_to_datetime ref wf_f (inc_duration rnd w o (lm_fs m)) - lm_first m).
    assert (ED : d == D * T) by (unfold d; rewrite wf_start, wf_first; unfold D; ring).
    assert (EF : d * lm_fs m == D * p) by (rewrite ED; unfold p; ring).
    assert (DP : - (1 # 8) <= D * p - D /\ D * p - D <= 1 # 8).
    { assert (X : D * p - D == D * (p - 1)) by ring. rewrite X. clear X. set (e := p - 1) in *. clearbody e D. split; nra. }
    assert (B : Qabs (d * lm_fs m) <= 1000002 # 1) by (rewrite EF; apply Qabs_Qle_condition; lra).
    pose proof (n_float_abs G d (lm_fs m) _ (Qlt_le_weak _ _ FS0) FS1 B) as E. apply Qabs_Qle_condition in E. rewrite EF in E.
    unfold wf_s0. fold d. rewrite to_n_samples_by. unfold Z.sub. rewrite inject_Z_plus. change (inject_Z (- (1))) with (- (1)).
    destruct (qfloor_spec (n_float rnd d (lm_fs m))) as [S1 S2]. unfold uu in E. lra.
  Qed.

  Section Table.
    Variables (nt nd_ : Q -> Z) (table : list win_row).
    Hypothesis HT : get_win_table rnd nt nd_ ref m w o = Ok table.
    Lemma wf_table : exists l, get_first_and_last_win rnd ref m w o = Ok (wf_f, l) /\
      length table = Z.to_nat (l - wf_f + 1) /\
      forall i r, nth_error table i = Some r ->
        wr_local r = Z.of_nat i /\ wr_global r = (wf_f + Z.of_nat i)%Z /\ (wf_f + Z.of_nat i <= l)%Z /\
        wr_from r = (wf_s0 + Z.of_nat i * (w - o))%Z /\ wr_to r = (wr_from r + w - 1)%Z.
    Proof.
      destruct (table_struct _ _ _ _ _ _ _ _ HT) as (f & l & st & H1 & H2 & H3 & H4 & H5 & H6 & H7).
      destruct (wf_range f l H1) as (-> & _). exists l. split; [exact H1|]. split; [exact H6|].
      intros i r Hr. destruct (H7 i r Hr) as (A & B & C & D).
      assert (i < length table)%nat by (apply nth_error_Some; congruence).
      split; [exact A|]. split; [exact B|]. split; [lia|]. split; [exact D|exact C].
    Qed.

    Lemma wf_rows i r : nth_error table i = Some r ->
      stamp ref T (wr_global r * (w - o)) - (5 # 4) * T < stamp (lm_first m) T (wr_from r) /\
      stamp (lm_first m) T (wr_from r) <= stamp ref T (wr_global r * (w - o)) + (1 # 4) * T /\
      (-1 <= wr_from r)%Z /\ (wr_to r <= lm_n_samples m - 1)%Z /\
      (lm_first m + (1 # 4) * T <= stamp ref T (wf_f * (w - o)) -> (0 <= wr_from r)%Z).
    Proof.
      intros Hr. destruct wf_table as (l & H1 & _ & K). destruct (K i r Hr) as (K1 & K2 & K3 & K4 & K5).
      destruct (wf_range _ _ H1) as (_ & L1 & _). destruct wf_f_spec as [F1 F2]. destruct wf_s0_spec as [S1 S2].
      pose proof wf_k as KP. pose proof wf_T as TP.
      assert (GI : inject_Z (wr_global r) * k == inject_Z wf_f * k + inject_Z (Z.of_nat i * (w - o))).
      { rewrite K2, inject_Z_plus, inject_Z_mult. fold k. ring. }
      assert (FI : inject_Z (wr_from r) == inject_Z wf_s0 + inject_Z (Z.of_nat i * (w - o))) by (rewrite K4, inject_Z_plus; reflexivity).
      set (j := inject_Z (Z.of_nat i * (w - o))) in *.
      assert (S0 : (-1 <= wf_s0)%Z).
      { assert (inject_Z (-2) < inject_Z wf_s0); [|apply (proj2 (inject_Z_lt _ _)) in H; lia]. change (inject_Z (-2)) with (- (2)). lra. }
      assert (J0 : (0 <= Z.of_nat i * (w - o))%Z) by (apply Z.mul_nonneg_nonneg; lia).
      rewrite wf_stamp. repeat apply conj.
      - unfold stamp. rewrite wf_first, GI, FI.
        assert ((inject_Z wf_f * k + j - (5 # 4)) * T < (N + (inject_Z wf_s0 + j)) * T) by (apply T_lt; lra). lra.
      - unfold stamp. rewrite wf_first, GI, FI.
        assert ((N + (inject_Z wf_s0 + j)) * T <= (inject_Z wf_f * k + j + (1 # 4)) * T) by (apply T_le; lra). lra.
      - lia.
      - assert (ML : inject_Z (wr_global r) * k <= inject_Z l * k).
        { apply Qmult_le_compat_r; [apply (proj1 (inject_Z_le _ _)); lia|lra]. }
        assert (L : inject_Z (wr_to r) < inject_Z (lm_n_samples m - 1 + 1)).
        { rewrite K5. replace (wr_from r + w - 1)%Z with (wr_from r + (w - 1))%Z by lia. rewrite !inject_Z_plus. change (inject_Z 1) with 1. lra. }
        apply (proj2 (inject_Z_lt _ _)) in L. lia.
      - intros H. rewrite wf_stamp, wf_first in H.
        assert (A : (N + (1 # 4)) * T <= inject_Z wf_f * k * T) by lra. apply le_T in A.
        assert (inject_Z (-1) < inject_Z wf_s0) as B by (change (inject_Z (-1)) with (- (1)); lra). apply (proj2 (inject_Z_lt _ _)) in B. lia.
    Qed.
  End Table.
End F.

(** ** window contents in every rounding *)
Lemma py_slice_minus_one {A} step (k : nat) (l r : list A) : (0 < step)%Z -> (1 <= k)%nat -> (1 <= length l)%nat ->
  ((Z.of_nat k - 1) * step <= Z.of_nat (length l))%Z ->
  py_slice (-1) (-1 + (Z.of_nat k - 1) * step + 1) step l = Ok r -> (length r < k)%nat.
Proof.
  intros Hs Hk Hl Hb. unfold py_slice. destruct (Z.eqb_spec step 0) as [|_]; [lia|].
  destruct (Z.ltb_spec 0 step) as [_|]; [|lia]. cbv zeta. change (-1 <? 0)%Z with true. cbv iota.
  replace (-1 + (Z.of_nat k - 1) * step + 1)%Z with ((Z.of_nat k - 1) * step)%Z by lia.
  assert (N1 : (0 <= (Z.of_nat k - 1) * step)%Z) by nia.
  destruct (Z.ltb_spec ((Z.of_nat k - 1) * step) 0) as [|_]; [lia|].
  rewrite (Z.max_r 0) by lia. rewrite Z.min_r by lia. set (n := Z.of_nat (length l)) in *. set (x := ((Z.of_nat k - 1) * step)%Z) in *.
  intros E. apply (f_equal (fun z => match z with Ok y => y | Err _ => [] end)) in E. cbv beta iota in E. rewrite <- E. clear E.
  assert (L : forall c, (length (flat_map (fun j => match nth_error l (Z.to_nat (-1 + n + Z.of_nat j * step)) with Some y => [y] | None => [] end) (seq 0 c)) <= c)%nat).
  { intros c. generalize 0%nat. induction c as [|c IH]; intros s; [apply le_n|]. cbn [seq flat_map]. rewrite app_length. specialize (IH (S s)).
    destruct (nth_error _ _); cbn [length]; lia. }
  eapply Nat.le_lt_trans; [apply L|].
  assert (X0 : k = 1%nat -> x = 0%Z) by (intros ->; reflexivity). clearbody x.
  destruct (Nat.eq_dec k 1) as [K1|K1].
  - rewrite (X0 K1). assert ((0 - (-1 + n) + step - 1) / step < 1)%Z by (apply Z.div_lt_upper_bound; lia).
    generalize dependent ((0 - (-1 + n) + step - 1) / step)%Z. intros z Hz. lia.
  - assert ((x - (-1 + n) + step - 1) / step < 2)%Z by (apply Z.div_lt_upper_bound; lia).
    generalize dependent ((x - (-1 + n) + step - 1) / step)%Z. intros z Hz. lia.
Qed.

Lemma level_contents_gen rnd nt ndl ref m w o table ld c x : (1 <= w)%Z -> (o < w)%Z ->
  get_win_table rnd nt ndl ref m w o = Ok table ->
  (forall i r, nth_error table i = Some r -> (-1 <= wr_from r)%Z /\ (wr_to r <= lm_n_samples m - 1)%Z) ->
  rect ld (lm_n_samples m) -> c = Z.of_nat (length ld) ->
  get_level_data ld table c w o = Ok x -> nd_len x = Ok (Z.of_nat (length table)) ->
  (2 <= w < lm_n_samples m)%Z ->
  ((1 <= c)%Z -> forall i r, nth_error table i = Some r -> (0 <= wr_from r)%Z) /\
  ((2 <= c)%Z ->
    forall i r ch row s, nth_error table i = Some r -> nth_error ld ch = Some row -> (0 <= s < w)%Z ->
      exists v, nth_error row (Z.to_nat (wr_from r + s)) = Some v /\ nd_at x [i; ch; Z.to_nat s] = Some (Sc v)) /\
  (c = 1%Z ->
    forall i r row s, nth_error table i = Some r -> nth_error ld 0 = Some row -> (0 <= s < w)%Z ->
      exists v, nth_error row (Z.to_nat (wr_from r + s)) = Some v /\ nd_at x [i; Z.to_nat s] = Some (Sc v)).
Proof.
  intros Hw Hwo HT TI R Hc H HN W2.
  destruct (table_struct _ _ _ _ _ _ _ _ HT) as (f & l & st & _ & _ & _ & _ & _ & _ & H5).
  unfold get_level_data in H. destruct table as [|r0 tb] eqn:ET; [discriminate|]. rewrite <- ET in *.
  apply bind_ok in H. destruct H as (v & H6 & H).
  set (k := length table) in *. set (s0 := (to_n_samples rnd (win_to_datetime ref f (inc_duration rnd w o (lm_fs m)) - lm_first m) (lm_fs m) Mfloor - 1)%Z) in *.
  assert (K1 : (1 <= k)%nat) by (unfold k; rewrite ET; cbn; lia).
  assert (R0 : nth_error table 0 = Some r0) by (rewrite ET; reflexivity).
  assert (RL : nth_error table (k - 1) = Some (last table r0)).
  { unfold k. rewrite ET. clear. revert r0. induction tb as [|r1 tb IH]; intros r0; [reflexivity|].
    change (last (r0 :: r1 :: tb) r0) with (last (r1 :: tb) r0). replace (length (r0 :: r1 :: tb) - 1)%nat with (S (length (r1 :: tb) - 1)) by (cbn; lia).
    cbn [nth_error]. rewrite (IH r1). f_equal. apply last_indep. discriminate. }
  destruct (H5 _ _ R0) as (_ & _ & _ & F0). destruct (H5 _ _ RL) as (_ & _ & TL & FL).
  destruct (TI _ _ R0) as [P0 _]. destruct (TI _ _ RL) as [_ QL].
  rewrite FL, F0 in H. replace (s0 + Z.of_nat 0 * (w - o))%Z with s0 in * by lia.
  replace (Z.of_nat (k - 1)) with (Z.of_nat k - 1)%Z in * by lia.
  assert (SL : forall L r : list (nd cell),
     py_slice s0 (s0 + (Z.of_nat k - 1) * (w - o) + 1) (w - o) L = Ok r -> Z.of_nat (length L) = (lm_n_samples m - w + 1)%Z -> length r = k -> (0 <= s0)%Z /\
       forall i, (i < k)%nat -> nth_error r i = nth_error L (Z.to_nat (s0 + Z.of_nat i * (w - o)))).
  { intros L r Hr HL Hk. destruct (Z_le_gt_dec 0 s0) as [S0|S0].
    - split; [exact S0|]. destruct (py_slice_pos s0 (w - o) k L S0 ltac:(lia) K1) as (r' & E1 & E2 & E3); [lia|]. assert (r' = r) by congruence. subst r'. exact E3.
    - assert (s0 = (-1)%Z) as E0 by lia. rewrite E0 in Hr. exfalso. apply py_slice_minus_one in Hr; lia. }
  assert (IN : (0 <= s0)%Z -> forall i r, nth_error table i = Some r -> (i < k)%nat /\ (0 <= wr_from r <= lm_n_samples m - w)%Z /\ wr_from r = (s0 + Z.of_nat i * (w - o))%Z).
  { intros S0 i r Hr. destruct (TI i r Hr) as (A1 & A2). destruct (H5 _ _ Hr) as (_ & _ & A3 & A4).
    assert (0 <= Z.of_nat i * (w - o))%Z by (apply Z.mul_nonneg_nonneg; lia).
    split; [unfold k; apply nth_error_Some; rewrite Hr; discriminate|]. split; [lia|exact A4]. }
  assert (C2 : (2 <= c)%Z -> (0 <= s0)%Z /\ forall i r ch row s, nth_error table i = Some r -> nth_error ld ch = Some row -> (0 <= s < w)%Z ->
      exists v, nth_error row (Z.to_nat (wr_from r + s)) = Some v /\ nd_at x [i; ch; Z.to_nat s] = Some (Sc v)).
  { intros C2. rewrite (view_full ld c w (lm_n_samples m) v R Hc C2 W2 H6) in H. apply bind_ok in H. destruct H as (y & E1 & H).
    assert (x = Ax y) as -> by congruence. clear H. cbn [nd_len] in HN. assert (LY : length y = k) by (apply Nat2Z.inj; congruence).
    destruct (SL _ _ E1 ltac:(rewrite map_length, arange_length; lia) LY) as [S0 E3]. split; [exact S0|].
    intros i r ch row s Hr Hrow Hs. destruct (IN S0 i r Hr) as (Hi & Hf & Ef).
    assert (LR : (Z.to_nat (wr_from r + s) < length row)%nat) by (assert (In row ld) by (eapply nth_error_In; eassumption); pose proof (R row H); lia).
    destruct (nth_error row (Z.to_nat (wr_from r + s))) as [z|] eqn:EZ; [|apply nth_error_None in EZ; lia]. exists z. split; [reflexivity|].
    cbn [nd_at nd_nth]. rewrite (E3 i Hi), <- Ef, nth_error_map, arange_nth by lia. cbn [option_map]. rewrite Z2Nat.id by lia.
    cbn [nd_at nd_nth]. rewrite nth_error_map, Hrow. cbn [option_map nd_at]. rewrite row_window_at by lia. rewrite EZ. reflexivity. }
  assert (C1 : c = 1%Z -> (0 <= s0)%Z /\ forall i r row s, nth_error table i = Some r -> nth_error ld 0 = Some row -> (0 <= s < w)%Z ->
      exists v, nth_error row (Z.to_nat (wr_from r + s)) = Some v /\ nd_at x [i; Z.to_nat s] = Some (Sc v)).
  { intros ->. destruct ld as [|row0 [|? ?]]; [cbn in Hc; lia| |cbn in Hc; lia].
    assert (RR : Z.of_nat (length row0) = lm_n_samples m) by (apply R; left; reflexivity).
    rewrite (view_one_chan row0 w (lm_n_samples m) v RR W2 H6) in H. apply bind_ok in H. destruct H as (y & E1 & H).
    assert (x = Ax y) as -> by congruence. clear H. cbn [nd_len] in HN. assert (LY : length y = k) by (apply Nat2Z.inj; congruence).
    destruct (SL _ _ E1 ltac:(rewrite map_length, arange_length; lia) LY) as [S0 E3]. split; [exact S0|].
    intros i r row s Hr Hrow Hs. cbn [nth_error] in Hrow. injection Hrow as <-. destruct (IN S0 i r Hr) as (Hi & Hf & Ef).
    destruct (nth_error row0 (Z.to_nat (wr_from r + s))) as [z|] eqn:EZ; [|apply nth_error_None in EZ; lia]. exists z. split; [reflexivity|].
    cbn [nd_at nd_nth]. rewrite (E3 i Hi), <- Ef, nth_error_map, arange_nth by lia. cbn [option_map nd_at]. rewrite Z2Nat.id by lia.
    rewrite row_window_at by lia. rewrite EZ. reflexivity. }
  split; [|split; [intros E; apply C2; exact E|intros E; apply C1; exact E]].
  intros CC i r Hr. assert (S0 : (0 <= s0)%Z) by (destruct (Z.eq_dec c 1) as [E|E]; [apply C1; exact E|apply C2; lia]).
  destruct (IN S0 i r Hr) as (_ & A & _). lia.
Qed.

Lemma windower_contents_any rnd nt ndl ref p d wd i x : good_rnd rnd -> windower_run rnd nt ndl ref p d = Ok wd -> wd_get_level wd (Z.of_nat i) = Ok x ->
  exists m w o table ld, nth_error (dd_levels_md d) i = Some m /\
    nth_error (wp_win_sizes p) i = Some w /\ nth_error (wp_olap_sizes p) i = Some o /\
    get_win_table rnd nt ndl ref m w o = Ok table /\ get_level d (Z.of_nat i) = Ok ld /\ nd_len x = Ok (Z.of_nat (length table)) /\
    (sampled rnd m -> ref <= lm_first m -> lm_last m <= stamp ref (period rnd (lm_fs m)) (2 ^ 47) -> (o < w <= 1000000)%Z ->
     shape_ok d m ld -> (2 <= w < lm_n_samples m)%Z ->
     (dd_chans d <> [] -> forall k r, nth_error table k = Some r -> (0 <= wr_from r)%Z) /\
     ((2 <= length (dd_chans d))%nat ->
       forall k r ch row s, nth_error table k = Some r -> nth_error ld ch = Some row -> (0 <= s < w)%Z ->
       exists v, nth_error row (Z.to_nat (wr_from r + s)) = Some v /\ nd_at x [k; ch; Z.to_nat s] = Some (Sc v)) /\
     (length (dd_chans d) = 1%nat ->
       forall k r row s, nth_error table k = Some r -> nth_error ld 0 = Some row -> (0 <= s < w)%Z ->
       exists v, nth_error row (Z.to_nat (wr_from r + s)) = Some v /\ nd_at x [k; Z.to_nat s] = Some (Sc v))).
Proof.
  intros G H Hx. destruct (windower_levels _ _ _ _ _ _ _ H) as (_ & _ & _ & xs & wls & HL & D & L & N & _).
  destruct (run_level _ _ _ _ _ _ _ _ _ _ _ _ HL D L N) as (_ & _ & _ & _ & K).
  destruct (K i x Hx) as (wl & m & w & o & table & ld & E1 & E2 & E3 & LD).
  pose proof (ld_sizes _ _ _ _ _ _ _ _ _ _ _ _ _ _ _ _ LD) as SZ. cbv beta in SZ.
  apply bind_ok in SZ. destruct SZ as (w' & S1 & SZ). apply bind_ok in SZ. destruct SZ as (o' & S2 & SZ). injection SZ as -> ->.
  pose proof (ld_md _ _ _ _ _ _ _ _ _ _ _ _ _ _ _ _ LD) as MD. rewrite Nat2Z.id in MD.
  assert (WP : forall l y, wp_level p l (Z.of_nat i) = Ok y -> nth_error l i = Some y).
  { intros l0 y0. unfold wp_level. destruct (_ || _); [discriminate|]. rewrite Nat2Z.id. destruct (nth_error l0 i); [intros [= ->]; reflexivity|discriminate]. }
  pose proof (ld_table _ _ _ _ _ _ _ _ _ _ _ _ _ _ _ _ LD) as HT. pose proof (ld_check _ _ _ _ _ _ _ _ _ _ _ _ _ _ _ _ LD eq_refl) as CK.
  exists m, w, o, table, ld. split; [exact MD|]. split; [apply WP; exact S1|]. split; [apply WP; exact S2|].
  split; [exact HT|]. split; [apply LD|]. split; [exact CK|]. intros SM Hr LB Hwo [RC LC] H2.
  destruct (level_metadata_spec _ _ _ _ _ _ _ _ _ HT (ld_wl _ _ _ _ _ _ _ _ _ _ _ _ _ _ _ _ LD)) as (f & l & _ & W0 & O0 & _).
  destruct (level_contents_gen rnd nt ndl ref m w o table ld (Z.of_nat (length (dd_chans d))) x ltac:(lia) ltac:(lia) HT) as (A & B & C); try assumption.
  - intros j r Hj. destruct (wf_rows rnd ref m w o G SM Hr ltac:(lia) ltac:(lia) LB nt ndl table HT j r Hj) as (_ & _ & X1 & X2 & _). split; assumption.
  - lia.
  - apply LD.
  - split; [|split].
    + intros NE. apply A. destruct (dd_chans d); [contradiction|cbn; lia].
    + intros C2. apply B. lia.
    + intros C1. apply C. lia.
Qed.
