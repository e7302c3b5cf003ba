(** C26, C27, C29: decimation factors, increments, frequency lookup *)
From Coq Require Import String.
From Verif Require Import Base.Prelude Base.Rounding Base.ListUtil Model.Sampling Model.Time Model.Decimate Spec.Time Spec.Decimate
  Proofs.EvalFreqs.
Open Scope Q_scope.

(** sampling frequency after j divisions *)
Fixpoint iter_fs (rnd : Q -> Q) (div : Z) (fs : Q) (j : nat) : Q :=
  match j with O => fs | S k => rnd (iter_fs rnd div fs k / inject_Z div) end.

Lemma iter_fs_shift rnd div fs j : iter_fs rnd div (rnd (fs / inject_Z div)) j = iter_fs rnd div fs (S j).
Proof. induction j as [|j IH]; [reflexivity|]. cbn [iter_fs] in *. rewrite IH. reflexivity. Qed.

Lemma factor_loop_char rnd div fuel fs target acc f : factor_loop rnd fuel div fs target acc = Ok f ->
  exists k, (k < fuel)%nat /\ f = (acc * div ^ Z.of_nat k)%Z /\
   (forall j, (1 <= j <= k)%nat -> target <= iter_fs rnd div fs j) /\ iter_fs rnd div fs (S k) < target.
Proof.
  revert fs acc. induction fuel as [|fuel IH]; intros fs acc H; [discriminate|].
  cbn [factor_loop] in H. destruct (div =? 0)%Z; [discriminate|].
  destruct (Qle_bool target (rnd (fs / inject_Z div))) eqn:E.
  - destruct (IH _ _ H) as (k & A & B & C & D). exists (S k). split; [lia|]. split.
    + rewrite B. rewrite Nat2Z.inj_succ, Z.pow_succ_r by lia. ring.
    + split.
      * intros j Hj. destruct j as [|j]; [lia|]. rewrite <- iter_fs_shift. destruct j as [|j].
        -- apply Qle_bool_iff in E. exact E.
        -- apply C. lia.
      * rewrite <- iter_fs_shift. exact D.
  - injection H as <-. exists 0%nat. split; [lia|]. split; [cbn; lia|]. split; [intros; lia|].
    apply Qle_bool_false in E. exact E.
Qed.

Lemma factor_loop_run rnd div k : (div <> 0)%Z -> forall fuel fs target acc, (k < fuel)%nat ->
   (forall j, (1 <= j <= k)%nat -> target <= iter_fs rnd div fs j) -> iter_fs rnd div fs (S k) < target ->
   factor_loop rnd fuel div fs target acc = Ok (acc * div ^ Z.of_nat k)%Z.
Proof.
  intros Hd. induction k as [|k IH]; intros fuel fs target acc Hf C D; (destruct fuel as [|fuel]; [lia|]);
    cbn [factor_loop]; (destruct (Z.eqb_spec div 0); [contradiction|]).
  - cbn [iter_fs] in D. apply Qle_bool_false in D. rewrite D. f_equal. cbn. lia.
  - pose proof (C 1%nat ltac:(lia)) as C1. cbn [iter_fs] in C1. apply Qle_bool_iff in C1. rewrite C1.
    rewrite IH; [|lia| |].
    + rewrite Nat2Z.inj_succ, Z.pow_succ_r by lia. f_equal. ring.
    + intros j Hj. rewrite iter_fs_shift. apply C. lia.
    + rewrite iter_fs_shift. exact D.
Qed.

Section Good.
  Variable rnd : Q -> Q.
  Hypothesis G : good_rnd rnd.
  Variable div : Z.
  Hypothesis Hd : (2 <= div)%Z.
  Variable fs : Q.
  Hypothesis Hfs : 0 < fs.

  Lemma div2 : 2 <= inject_Z div.
  Proof. change 2 with (inject_Z 2). apply (proj1 (inject_Z_le _ _)). exact Hd. Qed.

  Lemma iter_pos j : 0 <= iter_fs rnd div fs j.
  Proof.
    induction j as [|j IH]; cbn; [lra|]. apply gr_nonneg; [exact G|]. pose proof div2.
    apply Qle_shift_div_l; lra.
  Qed.
  Lemma iter_dec j : iter_fs rnd div fs j * (1 + inject_Z (Z.of_nat j) * (1 # 3)) <= fs.
  Proof.
    induction j as [|j IH]; [cbn [iter_fs]; change (inject_Z (Z.of_nat 0)) with 0; lra|].
    pose proof (iter_pos j) as Hp. pose proof div2 as D2.
    assert (Hq : 0 <= iter_fs rnd div fs j / inject_Z div) by (apply Qle_shift_div_l; lra).
    assert (Hq2 : iter_fs rnd div fs j / inject_Z div <= iter_fs rnd div fs j * (1 # 2)).
    { apply Qle_shift_div_r; [lra|]. nra. }
    destruct (rnd_pos_bounds rnd _ G Hq) as [_ B]. cbn [iter_fs].
    set (x := iter_fs rnd div fs j) in *. set (y := rnd (x / inject_Z div)) in *.
    assert (Hy : y <= x * (3 # 4)) by lra.
    rewrite Nat2Z.inj_succ. unfold Z.succ. rewrite inject_Z_plus. change (inject_Z 1) with 1.
    set (n := inject_Z (Z.of_nat j)) in *.
    assert (Hn : 0 <= n). { unfold n. change 0 with (inject_Z 0). apply (proj1 (inject_Z_le _ _)). lia. }
    assert (K : y * (1 + (n + 1) * (1 # 3)) <= x * (3 # 4) * (1 + (n + 1) * (1 # 3))).
    { apply Qmult_le_compat_r; lra. }
    assert (E : x * (3 # 4) * (1 + (n + 1) * (1 # 3)) == x * (1 + n * (1#4))) by ring.
    rewrite E in K. assert (x * (1 + n * (1#4)) <= x * (1 + n * (1#3))) by nra. lra.
  Qed.
  Lemma iter_small t : 0 < t -> exists j, iter_fs rnd div fs (S j) < t.
  Proof.
    intros Ht. set (x := fs * 3 / t). exists (Z.to_nat (Z.max 0 (qceil x))).
    set (n := Z.to_nat (Z.max 0 (qceil x))).
    pose proof (iter_dec (S n)) as D. pose proof (iter_pos (S n)) as Hp. pose proof (qceil_spec x) as [_ K2].
    assert (K3 : inject_Z (qceil x) <= inject_Z (Z.of_nat n)). { apply (proj1 (inject_Z_le _ _)). unfold n. rewrite Z2Nat.id by lia. lia. }
    assert (E : x * t == fs * 3) by (unfold x; field; lra).
    rewrite Nat2Z.inj_succ in D. unfold Z.succ in D. rewrite inject_Z_plus in D. change (inject_Z 1) with 1 in D.
    set (y := iter_fs rnd div fs (S n)) in *. set (N := inject_Z (Z.of_nat n)) in *.
    destruct (Qlt_le_dec y t) as [|L]; [assumption|]. exfalso.
    assert (XN : x <= N) by lra. assert (t * N >= x * t) by nra.
    assert (0 <= x). { unfold x. apply Qle_shift_div_l; lra. }
    assert (y * (1 + (N + 1) * (1#3)) >= t * (1 + (N + 1) * (1 # 3))). { apply Qmult_le_compat_r; lra. }
    assert (t * (1 + (N+1) * (1#3)) == t * (4#3) + t * N * (1#3)) by ring. lra.
  Qed.

  Lemma least_below t : (exists j, iter_fs rnd div fs (S j) < t) ->
    exists k, iter_fs rnd div fs (S k) < t /\ forall j, (1 <= j <= k)%nat -> t <= iter_fs rnd div fs j.
  Proof.
    intros [n H]. revert H. induction n as [n IH] using lt_wf_ind. intros H.
    assert (D : (exists m, (m < n)%nat /\ iter_fs rnd div fs (S m) < t) \/
                (forall m, (m < n)%nat -> t <= iter_fs rnd div fs (S m))).
    { clear. induction n as [|n [IH|IH]].
      - right. intros; lia.
      - left. destruct IH as (m & A & B). exists m. split; [lia|exact B].
      - destruct (Qlt_le_dec (iter_fs rnd div fs (S n)) t) as [L|L].
        + left. exists n. split; [lia|exact L].
        + right. intros m Hm. destruct (Nat.eq_dec m n) as [->|]; [exact L|]. apply IH. lia. }
    destruct D as [(m & A & B)|D]; [exact (IH m A B)|].
    exists n. split; [exact H|]. intros j Hj. destruct j as [|j]; [lia|]. apply D. lia.
  Qed.

  (** the search terminates *)
  Lemma factor_terminates f_max : 0 < f_max -> exists k,
    (exists N, forall fuel, (N <= fuel)%nat -> decimation_factor rnd fuel div fs f_max = Ok (div ^ Z.of_nat k)%Z) /\
    ((fs < rnd (f_max * 4) /\ k = 0%nat) \/
     (rnd (f_max * 4) <= fs /\ (forall j, (1 <= j <= k)%nat -> rnd (f_max * 4) <= iter_fs rnd div fs j) /\
      iter_fs rnd div fs (S k) < rnd (f_max * 4))).
  Proof.
    intros Hm. unfold decimation_factor. destruct (Qltb fs (rnd (f_max * 4))) eqn:E.
    - exists 0%nat. split; [exists 0%nat; reflexivity|]. left. apply Qltb_true in E. auto.
    - apply Qltb_false in E.
      assert (Ht : 0 < rnd (f_max * 4)). { destruct (rnd_pos_bounds rnd (f_max * 4) G ltac:(lra)). lra. }
      destruct (least_below _ (iter_small _ Ht)) as (k & A & B). exists k. split.
      + exists (S k). intros fuel Hf. rewrite (factor_loop_run rnd div k ltac:(lia) fuel fs _ 1); [f_equal; lia|lia|exact B|exact A].
      + right. auto.
  Qed.

  Lemma powQ_pos (j : nat) : 0 < inject_Z (div ^ Z.of_nat j).
  Proof. change 0 with (inject_Z 0). apply (proj1 (inject_Z_lt _ _)). apply Z.pow_pos_nonneg; lia. Qed.
  Lemma powQ_S (j : nat) : inject_Z (div ^ Z.of_nat (S j)) == inject_Z div * inject_Z (div ^ Z.of_nat j).
  Proof. rewrite Nat2Z.inj_succ, Z.pow_succ_r by lia. rewrite inject_Z_mult. reflexivity. Qed.

  (** with exact divisions *)
  Lemma factor_optimal f_max : 0 < f_max -> rnd (f_max * 4) == f_max * 4 ->
    (forall j, iter_fs rnd div fs j == fs / inject_Z (div ^ Z.of_nat j)) ->
    exists k, (exists N, forall fuel, (N <= fuel)%nat -> decimation_factor rnd fuel div fs f_max = Ok (div ^ Z.of_nat k)%Z) /\
      (forall j : nat, 4 * f_max <= fs / inject_Z (div ^ Z.of_nat j) -> (j <= k)%nat) /\
      (4 * f_max <= fs -> 4 * f_max <= fs / inject_Z (div ^ Z.of_nat k)) /\
      (fs < 4 * f_max -> k = 0%nat).
  Proof.
    intros Hm Ht Hit. destruct (factor_terminates f_max Hm) as (k & T & C). exists k. split; [exact T|].
    assert (M : forall a b, (a <= b)%nat -> fs / inject_Z (div ^ Z.of_nat b) <= fs / inject_Z (div ^ Z.of_nat a)).
    { intros a b L. pose proof (powQ_pos a). pose proof (powQ_pos b).
      apply Qle_shift_div_l; [assumption|]. 
      assert (E : fs / inject_Z (div ^ Z.of_nat b) * inject_Z (div ^ Z.of_nat a) == fs * (inject_Z (div ^ Z.of_nat a) / inject_Z (div ^ Z.of_nat b))) by (field; lra).
      rewrite E. assert (inject_Z (div ^ Z.of_nat a) / inject_Z (div ^ Z.of_nat b) <= 1).
      { apply Qle_shift_div_r; [assumption|]. rewrite Qmult_1_l. apply (proj1 (inject_Z_le _ _)). apply Z.pow_le_mono_r; lia. }
      nra. }
    assert (E0 : fs / inject_Z (div ^ Z.of_nat 0) == fs) by (cbn; field).
    destruct C as [[C1 C2]|(C1 & C2 & C3)].
    - rewrite Ht in C1. split; [|split].
      + intros j Hj. pose proof (M 0%nat j ltac:(lia)) as M'. rewrite E0 in M'. lra.
      + intros; lra.
      + intros _; exact C2.
    - split; [|split].
      + intros j Hj. destruct (Nat.le_gt_cases j k) as [|L]; [assumption|]. exfalso.
        pose proof (M (S k) j L) as M'. rewrite Hit, Ht in C3. lra.
      + intros _. destruct k as [|k]; [rewrite E0; lra|]. pose proof (C2 (S k) ltac:(lia)) as K. rewrite Hit, Ht in K. lra.
      + intros L. rewrite Ht in C1. lra.
  Qed.

  (** rounding errors of the repeated division *)
  Lemma iter_err j : (inject_Z (Z.of_nat j) * u < 1) ->
    fs / inject_Z (div ^ Z.of_nat j) * (1 - inject_Z (Z.of_nat j) * u) <= iter_fs rnd div fs j /\
    iter_fs rnd div fs j * (1 - inject_Z (Z.of_nat j) * u) <= fs / inject_Z (div ^ Z.of_nat j).
  Proof.
    induction j as [|j IH]; intros Hj.
    - cbn. split; [assert (E : fs / 1 * (1 - inject_Z 0 * u) == fs) by (unfold Qdiv; change (inject_Z 0) with 0; field); rewrite E; lra|].
      assert (E : fs / 1 == fs) by field. rewrite E. change (inject_Z 0) with 0. lra.
    - rewrite Nat2Z.inj_succ in *. unfold Z.succ in *. rewrite inject_Z_plus in *. change (inject_Z 1) with 1 in *.
      set (n := inject_Z (Z.of_nat j)) in *.
      assert (Hn : 0 <= n). { unfold n. change 0 with (inject_Z 0). apply (proj1 (inject_Z_le _ _)). lia. }
      destruct (IH ltac:(lra)) as [A B]. pose proof (iter_pos j) as Hp. pose proof div2 as D2.
      assert (Hq : 0 <= iter_fs rnd div fs j / inject_Z div) by (apply Qle_shift_div_l; lra).
      destruct (rnd_pos_bounds rnd _ G Hq) as [R1 R2].
      pose proof (powQ_pos j) as Pj. pose proof (powQ_S j) as PS. rewrite Nat2Z.inj_succ in PS. unfold Z.succ in PS.
      assert (E : fs / inject_Z (div ^ (Z.of_nat j + 1)) == fs / inject_Z (div ^ Z.of_nat j) / inject_Z div).
      { rewrite PS. field. split; lra. }
      rewrite E. clear E. cbn [iter_fs].
      set (g := fs / inject_Z (div ^ Z.of_nat j)) in *. set (x := iter_fs rnd div fs j) in *.
      assert (Hg : 0 <= g) by (unfold g; apply Qle_shift_div_l; lra).
      assert (A' : g / inject_Z div * (1 - n * u) <= x / inject_Z div).
      { assert (E : g / inject_Z div * (1 - n * u) == g * (1 - n * u) / inject_Z div) by (field; lra). rewrite E.
        apply Qle_shift_div_l; [lra|]. assert (E2 : g * (1 - n * u) / inject_Z div * inject_Z div == g * (1 - n * u)) by (field; lra).
        rewrite E2. exact A. }
      assert (B' : x / inject_Z div * (1 - n * u) <= g / inject_Z div).
      { assert (E : x / inject_Z div * (1 - n * u) == x * (1 - n * u) / inject_Z div) by (field; lra). rewrite E.
        apply Qle_shift_div_l; [lra|]. assert (E2 : x * (1 - n * u) / inject_Z div * inject_Z div == x * (1 - n * u)) by (field; lra).
        rewrite E2. exact B. }
      assert (Hg' : 0 <= g / inject_Z div) by (apply Qle_shift_div_l; lra).
      set (gd := g / inject_Z div) in *. set (xd := x / inject_Z div) in *. set (y := rnd xd) in *.
      clearbody gd xd y. clear - A' B' R1 R2 Hg' Hq Hj Hn.
      set (w := n * u) in *.
      assert (Hw : 0 <= w) by (unfold w; lra).
      assert (Ew : (n + 1) * u == w + u) by (unfold w; ring). rewrite Ew in *.
      split.
      + apply Qle_trans with (xd * (1 - u)); [|exact R1].
        apply Qle_trans with (gd * (1 - w) * (1 - u)); [|apply Qmult_le_compat_r; lra].
        assert (gd * (1 - w) * (1 - u) == gd * (1 - (w + u)) + gd * (w * u)) by ring.
        assert (0 <= w * u) by lra. assert (0 <= gd * (w * u)) by nra. lra.
      + apply Qle_trans with (xd * (1 + u) * (1 - (w + u))); [apply Qmult_le_compat_r; lra|].
        apply Qle_trans with (xd * (1 - w)); [|exact B'].
        assert (xd * (1 + u) * (1 - (w + u)) == xd * (1 - w) - xd * (u * (w + u))) by ring.
        assert (0 <= u * (w + u)) by lra. assert (0 <= xd * (u * (w + u))) by nra. lra.
  Qed.
End Good.

Lemma iter_exact div fs j : (2 <= div)%Z -> 0 < fs -> iter_fs exact div fs j == fs / inject_Z (div ^ Z.of_nat j).
Proof.
  intros Hd Hf. induction j as [|j IH]; [cbn; field|]. cbn [iter_fs]. unfold exact at 1. rewrite IH.
  rewrite (powQ_S div). pose proof (powQ_pos div Hd j). pose proof (div2 div Hd). field. split; lra.
Qed.

Lemma is_float_rnd rnd x : good_rnd rnd -> is_float x -> rnd x == x.
Proof. intros G (m & e & H & E). exact (gr_is G x m e H E). Qed.
Lemma is_float_scale x e : is_float x -> is_float (x * pow2 e).
Proof. intros (m & k & H & E). exists m, (k + e)%Z. split; [exact H|]. rewrite E, pow2_plus. ring. Qed.
Lemma pow2_inv e : / pow2 e == pow2 (- e).
Proof. pose proof (pow2_opp e). pose proof (pow2_pos e). rewrite <- (Qmult_1_l (/ pow2 e)). rewrite <- H. field. lra. Qed.
Lemma is_float_comp x y : x == y -> is_float x -> is_float y.
Proof. intros E (m & k & H & K). exists m, k. split; [exact H|]. rewrite <- E. exact K. Qed.

Lemma iter_two rnd fs j : good_rnd rnd -> is_float fs -> iter_fs rnd 2 fs j == fs / inject_Z (2 ^ Z.of_nat j).
Proof.
  intros G Hf. rewrite <- pow2_Z by lia.
  assert (E : forall j, fs / pow2 (Z.of_nat j) == fs * pow2 (- Z.of_nat j)). { intros i. unfold Qdiv. rewrite pow2_inv. reflexivity. }
  induction j as [|j IH]; [cbn; field|]. cbn [iter_fs].
  assert (K : iter_fs rnd 2 fs j / inject_Z 2 == fs * pow2 (- Z.of_nat (S j))).
  { rewrite IH, E. rewrite Nat2Z.inj_succ. replace (- Z.succ (Z.of_nat j))%Z with (- Z.of_nat j + -1)%Z by lia.
    rewrite pow2_plus. change (pow2 (-1)) with (1#2). change (inject_Z 2) with 2. field. }
  rewrite (gr_comp _ G _ _ K). rewrite E. apply is_float_rnd; [exact G|]. apply is_float_scale. exact Hf.
Qed.

(** ** C26 *)
Lemma c26_exact : forall div fs f_max, (2 <= div)%Z -> 0 < fs -> 0 < f_max ->
    exists k, (exists N, forall fuel, (N <= fuel)%nat -> decimation_factor exact fuel div fs f_max = Ok (div ^ Z.of_nat k)%Z) /\
      (forall j : nat, 4 * f_max <= fs / inject_Z (div ^ Z.of_nat j) -> (j <= k)%nat) /\
      (4 * f_max <= fs -> 4 * f_max <= fs / inject_Z (div ^ Z.of_nat k)) /\
      (fs < 4 * f_max -> k = 0%nat).
Proof.
  intros div fs f_max Hd Hf Hm. apply (factor_optimal exact exact_good div Hd fs Hf f_max Hm).
  - reflexivity.
  - intros j. apply iter_exact; assumption.
Qed.
Lemma c26_two : forall rnd fs f_max, good_rnd rnd -> is_float fs -> is_float f_max -> 0 < fs -> 0 < f_max ->
    exists k, (exists N, forall fuel, (N <= fuel)%nat -> decimation_factor rnd fuel 2 fs f_max = Ok (2 ^ Z.of_nat k)%Z) /\
      (forall j : nat, 4 * f_max <= fs / inject_Z (2 ^ Z.of_nat j) -> (j <= k)%nat) /\
      (4 * f_max <= fs -> 4 * f_max <= fs / inject_Z (2 ^ Z.of_nat k)) /\
      (fs < 4 * f_max -> k = 0%nat).
Proof.
  intros rnd fs f_max G F1 F2 Hf Hm. apply (factor_optimal rnd G 2 ltac:(lia) fs Hf f_max Hm).
  - apply is_float_rnd; [exact G|]. apply (is_float_comp (f_max * pow2 2)); [reflexivity|]. apply is_float_scale; exact F2.
  - intros j. apply iter_two; assumption.
Qed.
Lemma c26_any : forall rnd div fs f_max, good_rnd rnd -> (2 <= div)%Z -> 0 < fs -> 0 < f_max ->
    exists k, (exists N, forall fuel, (N <= fuel)%nat -> decimation_factor rnd fuel div fs f_max = Ok (div ^ Z.of_nat k)%Z) /\
      (inject_Z (Z.of_nat (S k)) * u < 1 ->
        (4 * f_max <= fs -> 4 * f_max * (1 - u) * (1 - inject_Z (Z.of_nat k) * u) <= fs / inject_Z (div ^ Z.of_nat k)) /\
        fs / inject_Z (div ^ Z.of_nat (S k)) * (1 - inject_Z (Z.of_nat (S k)) * u) < 4 * f_max * (1 + u)).
Proof.
  intros rnd div fs f_max G Hd Hf Hm. destruct (factor_terminates rnd G div Hd fs Hf f_max Hm) as (k & T & C).
  exists k. split; [exact T|]. intros Hk.
  destruct (rnd_pos_bounds rnd (f_max * 4) G ltac:(lra)) as [R1 R2].
  set (t := rnd (f_max * 4)) in *.
  assert (Hk' : inject_Z (Z.of_nat k) * u < 1).
  { rewrite Nat2Z.inj_succ in Hk. unfold Z.succ in Hk. rewrite inject_Z_plus in Hk. change (inject_Z 1) with 1 in Hk. lra. }
  destruct (iter_err rnd G div Hd fs Hf k Hk') as [A1 A2]. destruct (iter_err rnd G div Hd fs Hf (S k) Hk) as [B1 B2].
  assert (Nk : 0 <= inject_Z (Z.of_nat k)). { change 0 with (inject_Z 0). apply (proj1 (inject_Z_le _ _)). lia. }
  destruct C as [[C1 C2]|(C1 & C2 & C3)].
  - subst k. split.
    + intros L. assert (E : fs / inject_Z (div ^ Z.of_nat 0) == fs) by (cbn; field). rewrite E.
      cbn. change (inject_Z 0) with 0. lra.
    + destruct (iter_err rnd G div Hd fs Hf 1 Hk) as [_ _].
      assert (D2 : 2 <= inject_Z div) by (apply div2; exact Hd).
      assert (E : fs / inject_Z (div ^ Z.of_nat 1) <= fs * (1#2)). { change (div ^ Z.of_nat 1)%Z with (div ^ 1)%Z. rewrite Z.pow_1_r. apply Qle_shift_div_r; [lra|]. nra. }
      change (inject_Z (Z.of_nat 1)) with 1. nra.
  - assert (C : t <= iter_fs rnd div fs k). { destruct k as [|k]; [exact C1|]. apply C2. lia. }
    split.
    + intros _. apply Qle_trans with (iter_fs rnd div fs k * (1 - inject_Z (Z.of_nat k) * u)); [|exact A2].
      apply Qmult_le_compat_r; lra.
    + lra.
Qed.

(** it never terminates for div_factor = 1 or f_max <= 0 *)
Lemma c26_div1 : forall rnd fs f_max fuel, good_rnd rnd -> is_float fs -> rnd (f_max * 4) <= fs ->
  decimation_factor rnd fuel 1 fs f_max = Err OutOfFuel.
Proof.
  intros rnd fs f_max fuel G F L. unfold decimation_factor.
  replace (Qltb fs (rnd (f_max * 4))) with false by (symmetry; apply Qltb_false; exact L).
  assert (K : forall acc, factor_loop rnd fuel 1 fs (rnd (f_max * 4)) acc = Err OutOfFuel); [|apply K].
  revert F L. generalize (rnd (f_max * 4)) as t. intros t F L.
  revert fs F L. induction fuel as [|fuel IH]; intros fs F L acc; [reflexivity|]. cbn [factor_loop].
  change (1 =? 0)%Z with false. cbv iota.
  assert (E : rnd (fs / inject_Z 1) == fs).
  { assert (E1 : fs / inject_Z 1 == fs) by (change (inject_Z 1) with 1; field). rewrite (gr_comp _ G _ _ E1). apply is_float_rnd; assumption. }
  replace (Qle_bool t (rnd (fs / inject_Z 1))) with true by (symmetry; apply Qle_bool_iff; rewrite E; exact L).
  apply IH; [|rewrite E; exact L]. apply (is_float_comp fs); [symmetry; exact E|exact F].
Qed.
Lemma c26_fmax0 : forall rnd div fs f_max fuel, good_rnd rnd -> (1 <= div)%Z -> 0 < fs -> f_max <= 0 ->
  decimation_factor rnd fuel div fs f_max = Err OutOfFuel.
Proof.
  intros rnd div fs f_max fuel G Hd Hf Hm. unfold decimation_factor.
  assert (Ht : rnd (f_max * 4) <= 0) by (apply gr_nonpos; [exact G|lra]).
  replace (Qltb fs (rnd (f_max * 4))) with false by (symmetry; apply Qltb_false; lra).
  assert (K : forall acc, factor_loop rnd fuel div fs (rnd (f_max * 4)) acc = Err OutOfFuel); [|apply K].
  revert Ht. generalize (rnd (f_max * 4)) as t. intros t Ht.
  assert (Hf' : 0 <= fs) by lra. clear Hf. revert fs Hf'. induction fuel as [|fuel IH]; intros fs Hf acc; [reflexivity|].
  cbn [factor_loop]. destruct (Z.eqb_spec div 0); [lia|].
  assert (D1 : 1 <= inject_Z div) by (change 1 with (inject_Z 1); apply (proj1 (inject_Z_le _ _)); exact Hd).
  assert (K : 0 <= rnd (fs / inject_Z div)). { apply gr_nonneg; [exact G|]. apply Qle_shift_div_l; lra. }
  replace (Qle_bool t (rnd (fs / inject_Z div))) with true by (symmetry; apply Qle_bool_iff; lra).
  apply IH. exact K.
Qed.
