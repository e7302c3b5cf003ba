From Coq Require Import String.
From Verif Require Import Base.Prelude Base.Rounding Base.ListUtil Base.NdArray Model.Sampling Model.Time Model.Decimate Model.Window
  Spec.Sampling Spec.Window Proofs.Sampling Proofs.SamplingFloat Proofs.TimeMeta.
Open Scope Q_scope.

Lemma Qpos_neq x : 0 < x -> ~ x == 0. Proof. intros H E. rewrite E in H. apply (Qlt_irrefl 0 H). Qed.
Lemma inj_pos k : (0 < k)%Z -> 0 < inject_Z k.
Proof. intros. change 0 with (inject_Z 0). apply (proj1 (inject_Z_lt _ _)). assumption. Qed.
Lemma inj_nonneg k : (0 <= k)%Z -> 0 <= inject_Z k.
Proof. intros. change 0 with (inject_Z 0). apply (proj1 (inject_Z_le _ _)). assumption. Qed.

(** ** datetime_to_win *)
Lemma total_seconds_comp {rnd} (G : good_rnd rnd) d d' : d == d' -> total_seconds rnd d == total_seconds rnd d'.
Proof.
  intros H. unfold total_seconds, to_seconds. 
  rewrite (td_days_comp _ _ H), (td_seconds_comp _ _ H), (td_micros_comp _ _ H).
  repeat first [exact (td_nanos_comp _ _ H) | reflexivity | assumption | apply (gr_comp _ G)
                 | apply Qdiv_comp | apply Qplus_comp | apply Qmult_comp].
Qed.
Lemma total_seconds_exact d : total_seconds exact d == d.
Proof. pose proof (to_seconds_exact d) as H. unfold total_seconds. destruct (to_seconds exact d) as [a b]. exact H. Qed.
Lemma total_seconds_128 d k p : (p <= 7)%Z -> (Z.abs k <= 2 ^ 53)%Z -> d == inject_Z k * pow2 (- p) -> total_seconds b64 d == d.
Proof.
  intros Hp Hk Hd.
  assert (E : d == inject_Z (k * 2 ^ (7 - p)) * (1 # 128)).
  { rewrite Hd, inject_Z_mult, <- pow2_Z by lia. change (1#128) with (pow2 (-7)).
    rewrite <- Qmult_assoc, <- pow2_plus. replace (7 - p + -7)%Z with (- p)%Z by lia. reflexivity. }
  pose proof (to_seconds_128 _ _ E) as H. unfold total_seconds. destruct (to_seconds b64 d) as [a b]. cbn [fst snd] in H.
  assert (E2 : inject_Z a + b == d) by (rewrite H; ring). rewrite (b64_comp _ _ E2).
  apply (gr_is b64_good d k (-p) Hk Hd).
Qed.

Definition win_quot rnd (ref t inc : Q) : Q := rnd (total_seconds rnd (t - ref) / total_seconds rnd inc).

Lemma dtw_ok rnd ref t inc m : ref <= t -> ~ total_seconds rnd inc == 0 ->
  datetime_to_win rnd ref t inc m =
  Ok (match m with Mfloor => qfloor (win_quot rnd ref t inc) | Mceil => qceil (win_quot rnd ref t inc) | Mround => qround (win_quot rnd ref t inc) end).
Proof.
  intros H N. unfold datetime_to_win. replace (Qltb t ref) with false by (symmetry; apply Qltb_false; assumption).
  replace (Qeq_bool (total_seconds rnd inc) 0) with false.
  2:{ symmetry. destruct (Qeq_bool _ _) eqn:E; [|reflexivity]. apply Qeq_bool_iff in E. contradiction. }
  fold (win_quot rnd ref t inc). destruct (q_is_integer (win_quot rnd ref t inc)) eqn:E; [|reflexivity].
  apply q_is_integer_true in E. f_equal. destruct m.
  - rewrite (qround_int _ _ E). reflexivity.
  - reflexivity.
  - symmetry. exact (qceil_floor_int _ _ E).
Qed.
Lemma dtw_before rnd ref t inc m : t < ref -> datetime_to_win rnd ref t inc m = Err ValueError.
Proof. intros H. unfold datetime_to_win. rewrite (proj2 (Qltb_true _ _) H). reflexivity. Qed.

(** Rounding a quotient of integers below 2^53 does not move it over an integer *)
Lemma rnd_quot_floor {rnd} (G : good_rnd rnd) a b : (0 <= a < 2 ^ 53)%Z -> (0 < b)%Z ->
  qfloor (rnd (inject_Z a / inject_Z b)) = qfloor (inject_Z a / inject_Z b) /\
  qceil (rnd (inject_Z a / inject_Z b)) = qceil (inject_Z a / inject_Z b).
Proof.
  intros Ha Hb. pose proof (inj_pos b Hb) as PB. assert (NB : ~ inject_Z b == 0) by (apply Qpos_neq; assumption).
  set (x := inject_Z a / inject_Z b).
  assert (X0 : 0 <= x). { unfold x. apply Qle_shift_div_l; [assumption|]. rewrite Qmult_0_l. apply inj_nonneg. lia. }
  assert (XB : x * inject_Z b == inject_Z a) by (unfold x; field; assumption).
  set (q := qfloor x). destruct (qfloor_spec x) as [F1 F2]. fold q in F1, F2.
  assert (Q0 : (0 <= q)%Z).
  { assert (inject_Z (-1) < inject_Z q) by (change (inject_Z (-1)) with (-(1)); lra). apply inject_Z_lt in H. lia. }
  assert (QA : (q * b <= a)%Z).
  { apply (proj2 (inject_Z_le _ _)). rewrite inject_Z_mult. nra. }
  assert (QA2 : (a < (q + 1) * b)%Z).
  { apply (proj2 (inject_Z_lt _ _)). rewrite inject_Z_mult, inject_Z_plus. change (inject_Z 1) with 1. nra. }
  assert (Qb : (q <= 2 ^ 53 - 1)%Z) by nia.
  assert (R1 : inject_Z q <= rnd x).
  { rewrite <- (gr_int G q) by lia. apply (gr_mono _ G). exact F1. }
  assert (R2 : rnd x < inject_Z q + 1).
  { pose proof (gr_err _ G x) as E. apply Qabs_Qle_condition in E. rewrite (Qabs_pos x X0) in E.
    assert (A1 : (a + 1 <= (q + 1) * b)%Z) by lia. apply (proj1 (inject_Z_le _ _)) in A1.
    rewrite inject_Z_mult, !inject_Z_plus in A1. change (inject_Z 1) with 1 in A1.
    assert (A2 : inject_Z a * (1 # 9007199254740992) < 1).
    { assert (inject_Z a < inject_Z (2 ^ 53)) by (apply (proj1 (inject_Z_lt _ _)); lia).
      change (inject_Z (2^53)) with (9007199254740992 # 1) in H. lra. }
    assert (x + x * (1 # 9007199254740992) < inject_Z q + 1); [|lra].
    assert ((x + x * (1 # 9007199254740992)) * inject_Z b < (inject_Z q + 1) * inject_Z b); [|nra].
    rewrite Qmult_plus_distr_l. assert (E3 : x * (1 # 9007199254740992) * inject_Z b == inject_Z a * (1 # 9007199254740992)) by (rewrite <- XB; ring).
    rewrite E3, XB. lra. }
  split; [apply qfloor_unique; assumption|].
  destruct (q_is_integer x) eqn:EI.
  - apply q_is_integer_true in EI. fold q in EI. assert (RX : rnd x == inject_Z q) by (rewrite (gr_comp _ G _ _ EI); apply (gr_int G); lia).
    rewrite (qceil_comp _ _ RX), (qceil_comp _ _ EI). reflexivity.
  - pose proof (qceil_floor_nonint _ EI) as C. fold q in C. rewrite C.
    apply q_is_integer_false in EI. fold q in EI.
    assert (RX : inject_Z q < rnd x).
    { apply Qle_lt_or_eq in R1. destruct R1 as [R1|R1]; [exact R1|].
      exfalso. pose proof (gr_err _ G x) as E. apply Qabs_Qle_condition in E. rewrite (Qabs_pos x X0) in E.
      assert (A1 : (q * b + 1 <= a)%Z).
      { assert (q * b < a)%Z; [|lia]. apply (proj2 (inject_Z_lt _ _)). rewrite inject_Z_mult. nra. }
      apply (proj1 (inject_Z_le _ _)) in A1. rewrite inject_Z_plus, inject_Z_mult in A1. change (inject_Z 1) with 1 in A1.
      assert (A2 : inject_Z a * (1 # 9007199254740992) < 1).
      { assert (inject_Z a < inject_Z (2 ^ 53)) by (apply (proj1 (inject_Z_lt _ _)); lia).
        change (inject_Z (2^53)) with (9007199254740992 # 1) in H. lra. }
      assert (L : x - x * (1 # 9007199254740992) <= inject_Z q) by lra.
      assert (L2 : (x - x * (1 # 9007199254740992)) * inject_Z b <= inject_Z q * inject_Z b) by nra.
      assert (E3 : (x - x * (1 # 9007199254740992)) * inject_Z b == inject_Z a - inject_Z a * (1 # 9007199254740992)) by (rewrite <- XB; ring).
      rewrite E3 in L2. lra. }
    apply qceil_unique; rewrite inject_Z_plus; change (inject_Z 1) with 1; lra.
Qed.

(** ** the calculations are what they should be *)
Record faithful (rnd : Q -> Q) (ref : Q) (m : level_md) (w o : Z) : Prop := {
  fa_rec : recorded rnd m;
  fa_ref : ref <= lm_first m;
  fa_wo : (0 < w - o)%Z;
  fa_first : datetime_to_win rnd ref (lm_first m) (inc_duration rnd w o (lm_fs m)) Mceil =
             Ok (qceil ((lm_first m - ref) * lm_fs m / inject_Z (w - o)));
  fa_last : datetime_to_win rnd ref (lm_last m) (inc_duration rnd w o (lm_fs m)) Mfloor =
             Ok (qfloor ((lm_last m - ref) * lm_fs m / inject_Z (w - o)));
  fa_sample : forall g, g = qceil ((lm_first m - ref) * lm_fs m / inject_Z (w - o)) ->
     to_n_samples rnd (win_to_datetime ref g (inc_duration rnd w o (lm_fs m)) - lm_first m) (lm_fs m) Mfloor =
     (qfloor ((window_start ref (lm_fs m) w o g - lm_first m) * lm_fs m) + 1)%Z }.

Lemma last_after_first rnd m : recorded rnd m -> lm_first m <= lm_last m.
Proof.
  intros (F & N & P & L). rewrite L. unfold stamp. pose proof (inj_nonneg (lm_n_samples m - 1) ltac:(lia)).
  assert (0 < 1 / lm_fs m) by (apply Qlt_shift_div_l; lra). nra.
Qed.
Lemma win_time_eq rnd ref fs w o g : 0 < fs -> period rnd fs == 1 / fs ->
  win_to_datetime ref g (inc_duration rnd w o fs) == window_start ref fs w o g.
Proof. intros F P. unfold win_to_datetime, inc_duration, window_start. rewrite P. field. lra. Qed.
Lemma inc_eq rnd fs w o : 0 < fs -> period rnd fs == 1 / fs -> inc_duration rnd w o fs == inject_Z (w - o) / fs.
Proof. intros F P. unfold inc_duration. rewrite P. field. lra. Qed.

Lemma faithful_exact ref m w o : recorded exact m -> ref <= lm_first m -> (0 < w - o)%Z -> faithful exact ref m w o.
Proof.
  intros R Hr Hw. pose proof (last_after_first _ _ R) as LF. pose proof R as (F & N & P & L).
  pose proof (inj_pos _ Hw) as PW.
  assert (E : forall t, win_quot exact ref t (inc_duration exact w o (lm_fs m)) == (t - ref) * lm_fs m / inject_Z (w - o)).
  { intros t. unfold win_quot. unfold exact at 1. rewrite !total_seconds_exact, (inc_eq _ _ _ _ F P). field. split; apply Qpos_neq; assumption. }
  assert (NZ : ~ total_seconds exact (inc_duration exact w o (lm_fs m)) == 0).
  { rewrite total_seconds_exact, (inc_eq _ _ _ _ F P). apply Qpos_neq. apply Qlt_shift_div_l; [assumption|]. lra. }
  split; try assumption.
  - rewrite dtw_ok; [|assumption|assumption]. f_equal. apply qceil_comp, E.
  - rewrite dtw_ok; [|lra|assumption]. f_equal. apply qfloor_comp, E.
  - intros g _. rewrite to_n_samples_exact_floor. f_equal. apply qfloor_comp. rewrite (win_time_eq _ _ _ _ _ _ F P). reflexivity.
Qed.

Lemma faithful_b64 ref m w o p k : recorded b64 m -> (0 < w - o)%Z -> (w - o <= 2 ^ 52)%Z ->
  (p <= 7)%Z -> lm_fs m = pow2 p -> lm_first m - ref == inject_Z k / lm_fs m -> (0 <= k)%Z -> (k + lm_n_samples m <= 2 ^ 52)%Z ->
  faithful b64 ref m w o.
Proof.
  intros R Hw Hw2 Hp Hfs Hk K0 KN. pose proof R as (F & N & P & L).
  pose proof (inj_pos _ Hw) as PW. assert (NW : ~ inject_Z (w - o) == 0) by (apply Qpos_neq; assumption).
  assert (IF : 1 / lm_fs m == pow2 (- p)).
  { rewrite Hfs. pose proof (pow2_opp p). pose proof (pow2_pos p). assert (1 / pow2 p == (pow2 p * pow2 (-p)) / pow2 p) by (rewrite H; reflexivity).
    rewrite H1. field. lra. }
  assert (Df : forall x, x / lm_fs m == x * pow2 (-p)) by (intros; rewrite <- IF; field; lra).
  assert (Hr : ref <= lm_first m). { assert (0 <= lm_first m - ref); [|lra]. rewrite Hk, Df. pose proof (pow2_pos (-p)). pose proof (inj_nonneg k K0). nra. }
  pose proof (last_after_first _ _ R) as LF.
  assert (TI : total_seconds b64 (inc_duration b64 w o (lm_fs m)) == inject_Z (w - o) / lm_fs m).
  { rewrite <- (inc_eq b64 (lm_fs m) w o F P). apply (total_seconds_128 _ (w - o) p); [assumption|lia|]. rewrite (inc_eq _ _ _ _ F P). apply Df. }
  assert (NZ : ~ total_seconds b64 (inc_duration b64 w o (lm_fs m)) == 0).
  { rewrite TI. apply Qpos_neq. apply Qlt_shift_div_l; [assumption|]. lra. }
  assert (TD : forall t j, t - ref == inject_Z j / lm_fs m -> (0 <= j < 2 ^ 53)%Z ->
     win_quot b64 ref t (inc_duration b64 w o (lm_fs m)) == b64 (inject_Z j / inject_Z (w - o))).
  { intros t j Ht Hj. unfold win_quot.
    assert (E : total_seconds b64 (t - ref) == inject_Z j / lm_fs m).
    { rewrite <- Ht. apply (total_seconds_128 _ j p); [assumption|lia|]. rewrite Ht. apply Df. }
    apply (gr_comp _ b64_good). rewrite E, TI. field. split; [assumption|apply Qpos_neq; assumption]. }
  assert (SQ : forall t j, t - ref == inject_Z j / lm_fs m -> (t - ref) * lm_fs m / inject_Z (w - o) == inject_Z j / inject_Z (w - o)).
  { intros t j Ht. rewrite Ht. field. split; [assumption|apply Qpos_neq; assumption]. }
  assert (LK : lm_last m - ref == inject_Z (k + (lm_n_samples m - 1)) / lm_fs m).
  { rewrite L. unfold stamp. rewrite inject_Z_plus. assert (lm_first m == ref + inject_Z k / lm_fs m) by (rewrite <- Hk; ring). rewrite H. field. apply Qpos_neq; assumption. }
  split; try assumption.
  - rewrite dtw_ok; [|assumption|assumption]. f_equal. rewrite (qceil_comp _ _ (TD _ _ Hk ltac:(lia))), (qceil_comp _ _ (SQ _ _ Hk)).
    apply (rnd_quot_floor b64_good); lia.
  - rewrite dtw_ok; [|lra|assumption]. f_equal. rewrite (qfloor_comp _ _ (TD _ _ LK ltac:(lia))), (qfloor_comp _ _ (SQ _ _ LK)).
    apply (rnd_quot_floor b64_good); lia.
  - intros g Hg. rewrite (qceil_comp _ _ (SQ _ _ Hk)) in Hg.
    (* first sample: j = g (w-o) - k, 0 <= j < w - o *)
    set (j := (g * (w - o) - k)%Z).
    assert (G0 : (k <= g * (w - o) < k + (w - o))%Z).
    { destruct (qceil_spec (inject_Z k / inject_Z (w - o))) as [C1 C2]. rewrite <- Hg in C1, C2.
      split; [apply (proj2 (inject_Z_le _ _))|apply (proj2 (inject_Z_lt _ _))].
      - rewrite inject_Z_mult. apply Qle_trans with (inject_Z k / inject_Z (w - o) * inject_Z (w - o)); [|apply Qmult_le_compat_r; lra].
        apply Qle_lteq. right. field. assumption.
      - rewrite inject_Z_plus, inject_Z_mult. 
        assert (X : inject_Z k == inject_Z k / inject_Z (w - o) * inject_Z (w - o)) by (field; assumption). rewrite X.
        nra. }
    assert (JB : (0 <= j < w - o)%Z) by (unfold j; lia).
    assert (E : win_to_datetime ref g (inc_duration b64 w o (lm_fs m)) - lm_first m == inject_Z j / lm_fs m).
    { rewrite (win_time_eq _ _ _ _ _ _ F P). unfold window_start, j. 
      assert (lm_first m == ref + inject_Z k / lm_fs m) by (rewrite <- Hk; ring). rewrite H.
      unfold Z.sub at 2. rewrite inject_Z_plus, inject_Z_opp, inject_Z_mult. field. apply Qpos_neq; assumption. }
    rewrite to_n_samples_eq. cbv zeta.
    assert (E128 : win_to_datetime ref g (inc_duration b64 w o (lm_fs m)) - lm_first m == inject_Z j * pow2 (-p)) by (rewrite E; apply Df).
    assert (NF : n_float b64 (win_to_datetime ref g (inc_duration b64 w o (lm_fs m)) - lm_first m) (lm_fs m) == inject_Z (j + 1)).
    { unfold n_float. assert (JA : (Z.abs j <= 2 ^ 53)%Z) by (clearbody j; lia). pose proof (total_seconds_128 _ _ _ Hp JA E128) as T. unfold total_seconds in T.
      destruct (to_seconds b64 _) as [a b] in *. cbn [fst snd].
      assert (X1 : b64 (inject_Z a + b) * lm_fs m == inject_Z j) by (rewrite T, E; field; apply Qpos_neq; assumption).
      rewrite (b64_comp _ _ X1). assert (X2 : b64 (inject_Z j) == inject_Z j) by (apply (gr_int b64_good); lia).
      assert (X3 : b64 (inject_Z j) + 1 == inject_Z (j + 1)) by (rewrite X2, inject_Z_plus; reflexivity).
      rewrite (b64_comp _ _ X3). apply (gr_int b64_good). lia. }
    rewrite (q_is_integer_Z _ _ NF), (qfloor_comp _ _ NF), qfloor_Z.
    assert (X : (window_start ref (lm_fs m) w o g - lm_first m) * lm_fs m == inject_Z j).
    { rewrite <- (win_time_eq b64 ref (lm_fs m) w o g F P), E. field. apply Qpos_neq; assumption. }
    rewrite (qfloor_comp _ _ X), qfloor_Z. reflexivity.
Qed.

Lemma faithful_precise rnd ref m w o : recorded rnd m -> ref <= lm_first m -> precise rnd ref m ->
  (0 < w - o <= 2 ^ 52)%Z -> faithful rnd ref m w o.
Proof.
  intros R Hr [->|(-> & p & k & H1 & H2 & H3 & H4 & H5)] Hw.
  - apply faithful_exact; [assumption|assumption|lia].
  - apply (faithful_b64 ref m w o p k); try assumption; lia.
Qed.
