From Coq Require Import String.
From Verif Require Import Base.Prelude Base.Rounding Base.ListUtil Base.NdArray Model.Sampling Model.Time Model.Decimate Model.Window
  Spec.Sampling Spec.Window Proofs.Sampling Proofs.SamplingFloat Proofs.TimeMeta Proofs.Window.
Open Scope Q_scope.

Lemma adjust_last_spec ref last inc dur k l : exists i, (i <= k)%nat /\
  adjust_last k ref last inc dur l = (l - Z.of_nat i)%Z /\
  (forall j, (j < i)%nat -> last < win_to_datetime ref (l - Z.of_nat j) inc + dur) /\
  ((i < k)%nat -> win_to_datetime ref (l - Z.of_nat i) inc + dur <= last).
Proof.
  revert l. induction k as [|k IH]; intros l; cbn [adjust_last].
  - exists 0%nat. split; [lia|]. split; [lia|]. split; intros; lia.
  - destruct (Qle_bool (win_to_datetime ref l inc + dur) last) eqn:E.
    + exists 0%nat. split; [lia|]. split; [lia|]. split; [intros; lia|]. intros _. apply Qle_bool_iff in E.
      replace (l - Z.of_nat 0)%Z with l by lia. exact E.
    + apply Qle_bool_false in E. destruct (IH (l - 1)%Z) as (i & Hi & H1 & H2 & H3). exists (S i). split; [lia|].
      split; [rewrite H1; lia|]. split.
      * intros [|j] Hj; [replace (l - Z.of_nat 0)%Z with l by lia; exact E|].
        specialize (H2 j ltac:(lia)). replace (l - Z.of_nat (S j))%Z with (l - 1 - Z.of_nat j)%Z by lia. exact H2.
      * intros Hi'. replace (l - Z.of_nat (S i))%Z with (l - 1 - Z.of_nat i)%Z by lia. apply H3. lia.
Qed.

Section F.
  Variables (rnd : Q -> Q) (ref : Q) (m : level_md) (w o : Z).
  Hypothesis FA : faithful rnd ref m w o.
  Let fs := lm_fs m.
  Lemma Ffs : 0 < fs. Proof. exact (proj1 (fa_rec _ _ _ _ _ FA)). Qed.
  Lemma Fper : period rnd fs == 1 / fs. Proof. destruct (fa_rec _ _ _ _ _ FA) as (_ & _ & P & _). exact P. Qed.
  Lemma Fpw : 0 < inject_Z (w - o). Proof. apply inj_pos, (fa_wo _ _ _ _ _ FA). Qed.
  Lemma start_S g : window_start ref fs w o (g + 1) == window_start ref fs w o g + inject_Z (w - o) / fs.
  Proof. unfold window_start. rewrite inject_Z_plus. change (inject_Z 1) with 1. pose proof Ffs. field. lra. Qed.
  Lemma start_le g t : window_start ref fs w o g <= t <-> inject_Z g <= (t - ref) * fs / inject_Z (w - o).
  Proof.
    pose proof Ffs as F. pose proof Fpw as P. unfold window_start. split; intros H.
    - apply Qle_shift_div_l; [assumption|]. 
      assert (X : inject_Z g * inject_Z (w - o) == (inject_Z g * inject_Z (w - o) / fs) * fs) by (field; lra). rewrite X.
      apply Qmult_le_compat_r; lra.
    - assert (X : (t - ref) == ((t - ref) * fs / inject_Z (w - o)) * inject_Z (w - o) / fs) by (field; lra).
      assert (inject_Z g * inject_Z (w - o) / fs <= t - ref); [|lra]. rewrite X.
      apply Qmult_le_compat_r; [|apply Qlt_le_weak, Qinv_lt_0_compat; assumption]. apply Qmult_le_compat_r; lra.
  Qed.
  Lemma start_lt g t : t < window_start ref fs w o g <-> (t - ref) * fs / inject_Z (w - o) < inject_Z g.
  Proof.
    split; intros H; apply Qnot_le_lt; intro K; [apply (proj2 (start_le _ _)) in K|apply (proj1 (start_le _ _)) in K]; lra.
  Qed.
  Lemma dur_eq : win_duration rnd w fs == inject_Z (w - 1) / fs.
  Proof. unfold win_duration. rewrite Fper. pose proof Ffs. field. lra. Qed.
  Lemma end_eq g : win_to_datetime ref g (inc_duration rnd w o fs) + win_duration rnd w fs == window_end ref fs w o g.
  Proof. rewrite (win_time_eq _ _ _ _ _ _ Ffs Fper), dur_eq. reflexivity. Qed.

  Definition g_first := qceil ((lm_first m - ref) * fs / inject_Z (w - o)).
  Definition g_last0 := qfloor ((lm_last m - ref) * fs / inject_Z (w - o)).
  Lemma g_first_spec : lm_first m <= window_start ref fs w o g_first /\ window_start ref fs w o (g_first - 1) < lm_first m.
  Proof.
    destruct (qceil_spec ((lm_first m - ref) * fs / inject_Z (w - o))) as [C1 C2]. fold g_first in C1, C2. split.
    - pose proof Ffs as F. pose proof Fpw as P. unfold window_start.
      assert (lm_first m - ref <= inject_Z g_first * inject_Z (w - o) / fs); [|lra].
      apply Qle_shift_div_l; [assumption|].
      assert (X : (lm_first m - ref) * fs == ((lm_first m - ref) * fs / inject_Z (w - o)) * inject_Z (w - o)) by (field; lra).
      apply Qle_trans with (((lm_first m - ref) * fs / inject_Z (w - o)) * inject_Z (w - o)); [apply Qle_lteq; right; exact X|].
      apply Qmult_le_compat_r; lra.
    - apply Qnot_le_lt. intro K.
      pose proof Ffs as F. pose proof Fpw as P. unfold window_start in K.
      assert (K2 : (lm_first m - ref) * fs / inject_Z (w - o) <= inject_Z (g_first - 1)).
      { apply Qle_shift_div_r; [assumption|]. 
        assert (X : inject_Z (g_first - 1) * inject_Z (w - o) == (inject_Z (g_first - 1) * inject_Z (w - o) / fs) * fs) by (field; lra). rewrite X.
        apply Qmult_le_compat_r; lra. }
      assert (E1 : inject_Z (g_first - 1) == inject_Z g_first - 1) by (unfold Z.sub; rewrite inject_Z_plus; reflexivity).
      rewrite E1 in K2. lra.
  Qed.
  Lemma g_last0_spec : window_start ref fs w o g_last0 <= lm_last m /\ lm_last m < window_start ref fs w o (g_last0 + 1).
  Proof.
    destruct (qfloor_spec ((lm_last m - ref) * fs / inject_Z (w - o))) as [C1 C2]. fold g_last0 in C1, C2. split.
    - apply (proj2 (start_le _ _)). exact C1.
    - apply (proj2 (start_lt _ _)). rewrite inject_Z_plus. exact C2.
  Qed.

  Lemma first_last_eq : get_first_and_last_win rnd ref m w o =
    let l := adjust_last 2 ref (lm_last m) (inc_duration rnd w o fs) (win_duration rnd w fs) g_last0 in
    if Qltb (lm_last m) (window_end ref fs w o l) then Err ValueError else Ok (g_first, l).
  Proof.
    unfold get_first_and_last_win. fold fs. 
    replace (Qeq_bool fs 0) with false.
    2:{ symmetry. destruct (Qeq_bool _ _) eqn:E; [|reflexivity]. apply Qeq_bool_iff in E. pose proof Ffs. lra. }
    pose proof (fa_first _ _ _ _ _ FA) as A1. pose proof (fa_last _ _ _ _ _ FA) as A2. fold fs in A1, A2. fold g_first in A1. fold g_last0 in A2.
    cbv zeta. rewrite A1, A2. cbv beta iota delta [bind].
    rewrite (Qltb_comp _ _ (Qeq_refl (lm_last m)) _ _ (end_eq _)). reflexivity.
  Qed.

  Lemma first_last_spec f l : (1 <= w)%Z -> get_first_and_last_win rnd ref m w o = Ok (f, l) ->
    lm_first m <= window_start ref fs w o f /\ window_start ref fs w o (f - 1) < lm_first m /\
    window_end ref fs w o l <= lm_last m /\ lm_last m < window_end ref fs w o (l + 1) /\ f = g_first.
  Proof.
    intros Hw. rewrite first_last_eq. cbv zeta.
    destruct (adjust_last_spec ref (lm_last m) (inc_duration rnd w o fs) (win_duration rnd w fs) 2 g_last0) as (i & Hi & E & H2 & _).
    rewrite E. destruct (Qltb _ _) eqn:L; [discriminate|]. intros [= <- <-]. apply Qltb_false in L.
    destruct g_first_spec as [A1 A2]. repeat split; try assumption.
    destruct i as [|i].
    - replace (g_last0 - Z.of_nat 0 + 1)%Z with (g_last0 + 1)%Z by lia. destruct g_last0_spec as [_ B].
      unfold window_end. assert (0 <= inject_Z (w - 1) / fs).
      { pose proof Ffs. apply Qle_shift_div_l; [assumption|]. pose proof (inj_nonneg (w - 1) ltac:(lia)). lra. } lra.
    - specialize (H2 i ltac:(lia)). rewrite end_eq in H2. replace (g_last0 - Z.of_nat (S i) + 1)%Z with (g_last0 - Z.of_nat i)%Z by lia. exact H2.
  Qed.

  (** enough attempts when the overlap is at most about half a window *)
  Lemma first_last_succeeds : (2 * o <= w + 1)%Z -> is_ok (get_first_and_last_win rnd ref m w o) = true.
  Proof.
    intros Ho. rewrite first_last_eq. cbv zeta.
    destruct (adjust_last_spec ref (lm_last m) (inc_duration rnd w o fs) (win_duration rnd w fs) 2 g_last0) as (i & Hi & E & _ & H3).
    rewrite E. destruct (Qltb _ _) eqn:L; [|reflexivity]. exfalso. apply Qltb_true in L.
    destruct (Nat.eq_dec i 2) as [->|].
    - destruct g_last0_spec as [B _]. pose proof Ffs as F.
      assert (S2 : window_start ref fs w o g_last0 == window_start ref fs w o (g_last0 - Z.of_nat 2) + inject_Z (2 * (w - o)) / fs).
      { replace g_last0 with (g_last0 - Z.of_nat 2 + 1 + 1)%Z at 1 by lia. rewrite !start_S.
        rewrite inject_Z_mult. change (inject_Z 2) with 2. field. lra. }
      unfold window_end in L.
      assert (inject_Z (w - 1) / fs <= inject_Z (2 * (w - o)) / fs).
      { apply Qmult_le_compat_r; [|apply Qlt_le_weak, Qinv_lt_0_compat; assumption]. apply (proj1 (inject_Z_le _ _)). lia. }
      lra.
    - specialize (H3 ltac:(lia)). rewrite end_eq in H3. lra.
  Qed.

  Section Table.
    Variables (nt nd_ : Q -> Z).
    Lemma table_spec table : (1 <= w)%Z -> get_win_table rnd nt nd_ ref m w o = Ok table ->
      exists f l s0, get_first_and_last_win rnd ref m w o = Ok (f, l) /\
        s0 = qfloor ((window_start ref fs w o f - lm_first m) * fs) /\ (-1 <= l - f)%Z /\
        length table = Z.to_nat (l - f + 1) /\
        forall i r, nth_error table i = Some r ->
          wr_local r = Z.of_nat i /\ wr_global r = (f + Z.of_nat i)%Z /\
          wr_from r = (s0 + Z.of_nat i * (w - o))%Z /\ wr_to r = (s0 + w - 1 + Z.of_nat i * (w - o))%Z /\
          wr_start r = (nt (win_to_datetime ref f (inc_duration rnd w o fs)) + Z.of_nat i * nd_ (rnd (1 / rnd (fs / inject_Z (w - o)))))%Z.
    Proof.
      intros Hw H. unfold get_win_table in H. apply bind_ok in H. destruct H as ([f l] & H1 & H).
      destruct (first_last_spec f l Hw H1) as (_ & _ & _ & _ & Hf).
      exists f, l, (qfloor ((window_start ref fs w o f - lm_first m) * fs)). split; [exact H1|]. split; [reflexivity|].
      pose proof (fa_wo _ _ _ _ _ FA) as Hwo. 
      destruct (w - o =? 0)%Z eqn:Z0; [apply Z.eqb_eq in Z0; lia|]. fold fs in H.
      apply bind_ok in H. destruct H as (st & H2 & H). unfold datetime_array_estimate in H2.
      destruct (Qeq_bool (rnd (fs / inject_Z (w - o))) 0) eqn:E0; [discriminate|].
      destruct (Z.ltb_spec (l - f + 1) 0) as [N|N]; [discriminate|]. injection H2 as <-.
      injection H as <-. split; [lia|].
      assert (LEN : length (combine (arange (l - f + 1)) (map (fun k => (nt (win_to_datetime ref f (inc_duration rnd w o fs)) + k * nd_ (rnd (1 / rnd (fs / inject_Z (w - o)))))%Z) (arange (l - f + 1)))) = Z.to_nat (l - f + 1)).
      { rewrite combine_length, map_length, arange_length. lia. }
      split; [rewrite map_length; exact LEN|].
      intros i r Hr. assert (Hi : (i < Z.to_nat (l - f + 1))%nat).
      { rewrite <- LEN. rewrite <- (map_length (fun is : Z * Z => let '(i, s) := is in mkWinRow (f + i) i
              (to_n_samples rnd (win_to_datetime ref f (inc_duration rnd w o fs) - lm_first m) fs Mfloor - 1 + i * (w - o))
              (to_n_samples rnd (win_to_datetime ref f (inc_duration rnd w o fs) - lm_first m) fs Mfloor - 1 + w - 1 + i * (w - o)) s
              (s + win_end_offset rnd nd_ w fs))). apply nth_error_Some. rewrite Hr. discriminate. }
      rewrite nth_error_map in Hr.
      assert (EC : nth_error (combine (arange (l - f + 1)) (map (fun k => (nt (win_to_datetime ref f (inc_duration rnd w o fs)) + k * nd_ (rnd (1 / rnd (fs / inject_Z (w - o)))))%Z) (arange (l - f + 1)))) i
         = Some (Z.of_nat i, (nt (win_to_datetime ref f (inc_duration rnd w o fs)) + Z.of_nat i * nd_ (rnd (1 / rnd (fs / inject_Z (w - o)))))%Z)).
      { assert (CM : forall (A : Type) (g : Z -> A) (L : list Z), combine L (map g L) = map (fun k => (k, g k)) L).
        { intros A g L. induction L as [|a L IH]; [reflexivity|]. cbn [combine map]. rewrite IH. reflexivity. }
        rewrite CM, nth_error_map, arange_nth by lia. reflexivity. }
      rewrite EC in Hr. cbn [option_map] in Hr. injection Hr as <-. cbn [wr_local wr_global wr_from wr_to wr_start].
      pose proof (fa_sample _ _ _ _ _ FA f Hf) as A1. fold fs in A1. rewrite A1. repeat split; lia.
    Qed.

    Lemma table_inside table i r : (1 <= w)%Z -> get_win_table rnd nt nd_ ref m w o = Ok table -> nth_error table i = Some r ->
      (0 <= wr_from r)%Z /\ (wr_to r <= lm_n_samples m - 1)%Z /\ (wr_to r = wr_from r + w - 1)%Z /\
      stamp (lm_first m) (1 / fs) (wr_from r) <= window_start ref fs w o (wr_global r) /\
      window_start ref fs w o (wr_global r) < stamp (lm_first m) (1 / fs) (wr_from r + 1).
    Proof.
      intros Hw HT Hr. destruct (table_spec table Hw HT) as (f & l & s0 & H1 & Hs & Hn & LEN & K).
      destruct (first_last_spec f l Hw H1) as (A1 & A2 & A3 & A4 & _).
      assert (Hi : (i < length table)%nat) by (apply nth_error_Some; rewrite Hr; discriminate).
      destruct (K i r Hr) as (K1 & K2 & K3 & K4 & _). rewrite K2, K3, K4.
      pose proof Ffs as F. pose proof (fa_wo _ _ _ _ _ FA) as Hwo.
      destruct (qfloor_spec ((window_start ref fs w o f - lm_first m) * fs)) as [S1 S2]. rewrite <- Hs in S1, S2.
      assert (S0 : (0 <= s0)%Z).
      { assert (inject_Z (-1) < inject_Z s0); [|apply inject_Z_lt in H; lia]. change (inject_Z (-1)) with (-(1)).
        assert (0 <= (window_start ref fs w o f - lm_first m) * fs) by (apply Qmult_le_0_compat; lra). lra. }
      assert (ST : forall j, window_start ref fs w o (f + j) == window_start ref fs w o f + inject_Z (j * (w - o)) / fs).
      { intros j. unfold window_start. rewrite inject_Z_plus, inject_Z_mult. field. lra. }
      assert (SP : forall k, stamp (lm_first m) (1 / fs) k == lm_first m + inject_Z k / fs) by (intros; unfold stamp; field; lra).
      assert (U : forall a b, a * fs <= b * fs -> a <= b) by (intros a b; nra).
      assert (U2 : forall a b, a * fs < b * fs -> a < b) by (intros a b; nra).
      assert (J1 : stamp (lm_first m) (1 / fs) (s0 + Z.of_nat i * (w - o)) <= window_start ref fs w o (f + Z.of_nat i)).
      { rewrite SP, ST. rewrite inject_Z_plus.
        assert (X : lm_first m + (inject_Z s0 + inject_Z (Z.of_nat i * (w - o))) / fs == lm_first m + inject_Z s0 / fs + inject_Z (Z.of_nat i * (w - o)) / fs) by (field; lra).
        rewrite X. apply Qplus_le_compat; [|lra]. apply U.
        assert (Y : (lm_first m + inject_Z s0 / fs) * fs == lm_first m * fs + inject_Z s0) by (field; lra). rewrite Y. lra. }
      assert (J2 : window_start ref fs w o (f + Z.of_nat i) < stamp (lm_first m) (1 / fs) (s0 + Z.of_nat i * (w - o) + 1)).
      { rewrite SP, ST. rewrite !inject_Z_plus. change (inject_Z 1) with 1.
        assert (X : lm_first m + (inject_Z s0 + inject_Z (Z.of_nat i * (w - o)) + 1) / fs == lm_first m + (inject_Z s0 + 1) / fs + inject_Z (Z.of_nat i * (w - o)) / fs) by (field; lra).
        rewrite X. apply Qplus_lt_le_compat; [|lra]. apply U2.
        assert (Y : (lm_first m + (inject_Z s0 + 1) / fs) * fs == lm_first m * fs + inject_Z s0 + 1) by (field; lra). rewrite Y. lra. }
      split; [nia|]. split; [|split; [lia|split; assumption]].
      (* the last sample *)
      assert (HL : (f + Z.of_nat i <= l)%Z) by lia.
      destruct (fa_rec _ _ _ _ _ FA) as (_ & N1 & _ & LL). fold fs in LL.
      assert (W : window_end ref fs w o (f + Z.of_nat i) <= lm_last m).
      { apply Qle_trans with (window_end ref fs w o l); [|exact A3]. unfold window_end, window_start.
        assert (inject_Z (f + Z.of_nat i) * inject_Z (w - o) / fs <= inject_Z l * inject_Z (w - o) / fs).
        { apply Qmult_le_compat_r; [|apply Qlt_le_weak, Qinv_lt_0_compat; assumption].
          apply Qmult_le_compat_r; [apply (proj1 (inject_Z_le _ _)); lia|]. pose proof Fpw. lra. }
        lra. }
      unfold window_end in W. rewrite LL, SP in W.
      assert (V : stamp (lm_first m) (1 / fs) (s0 + Z.of_nat i * (w - o)) + inject_Z (w - 1) / fs <= lm_first m + inject_Z (lm_n_samples m - 1) / fs) by lra.
      rewrite SP in V.
      assert (V2 : inject_Z (s0 + Z.of_nat i * (w - o)) + inject_Z (w - 1) <= inject_Z (lm_n_samples m - 1)).
      { assert (V3 : (lm_first m + inject_Z (s0 + Z.of_nat i * (w - o)) / fs + inject_Z (w - 1) / fs) * fs <= (lm_first m + inject_Z (lm_n_samples m - 1) / fs) * fs) by (apply Qmult_le_compat_r; lra).
        assert (Y1 : (lm_first m + inject_Z (s0 + Z.of_nat i * (w - o)) / fs + inject_Z (w - 1) / fs) * fs == lm_first m * fs + inject_Z (s0 + Z.of_nat i * (w - o)) + inject_Z (w - 1)) by (field; lra).
        assert (Y2 : (lm_first m + inject_Z (lm_n_samples m - 1) / fs) * fs == lm_first m * fs + inject_Z (lm_n_samples m - 1)) by (field; lra).
        rewrite Y1, Y2 in V3. lra. }
      rewrite <- inject_Z_plus in V2. apply (proj2 (inject_Z_le _ _)) in V2. lia.
    Qed.
  End Table.
End F.
