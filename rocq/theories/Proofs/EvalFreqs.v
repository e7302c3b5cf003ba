(** C25: evaluation frequencies *)
From Coq Require Import String Sorting.Sorted.
From Verif Require Import Base.Prelude Base.Rounding Base.ListUtil Model.Sampling Model.Time Model.Decimate Spec.Time Spec.Decimate.
Open Scope Q_scope.

Notation u := (1 # 9007199254740992).

Lemma Qmul_le_mono a b c d : 0 <= a -> a <= b -> 0 <= c -> c <= d -> a * c <= b * d.
Proof. intros. nra. Qed.

Lemma rnd_pos_bounds rnd x : good_rnd rnd -> 0 <= x -> x * (1 - u) <= rnd x /\ rnd x <= x * (1 + u).
Proof.
  intros G H. pose proof (gr_err _ G x) as E. rewrite (Qabs_pos x H) in E.
  apply Qabs_Qle_condition in E. lra.
Qed.

Section F.
  Variable rnd : Q -> Q.
  Hypothesis G : good_rnd rnd.
  Variable pw : nat -> Q.
  Hypothesis P : good_pow2half pw.
  Variable fs : Q.
  Hypothesis Hfs : 0 < fs.

  Lemma near i : near_half_power (fs / 4) i (nth_eval_freq rnd pw fs i).
  Proof.
    unfold near_half_power, nth_eval_freq.
    set (F := fs / 4). assert (HF : 0 < F) by (unfold F; change (fs / 4) with (fs * (1 # 4)); lra).
    destruct (P i) as (Hp & Hl & Hu). set (p := pw i) in *. pose proof (pow2_pos (Z.of_nat i)) as H2.
    set (t := pow2 (Z.of_nat i)) in *.
    destruct (rnd_pos_bounds rnd F G ltac:(lra)) as [A1 A2]. set (a := rnd F) in *.
    assert (Ha : 0 < a) by lra.
    assert (Hq : 0 < a / p). { apply Qlt_shift_div_l; [exact Hp|]. lra. }
    destruct (rnd_pos_bounds rnd (a / p) G ltac:(lra)) as [B1 B2]. set (f := rnd (a / p)) in *.
    assert (Eq : a / p * p == a) by (field; lra).
    assert (C1 : a * (1 - u) <= f * p) by (rewrite <- Eq; nra).
    assert (C2 : f * p <= a * (1 + u)) by (rewrite <- Eq; nra).
    assert (Hf : 0 < f) by lra.
    split; [exact Hf|].
    assert (D1 : F * ((1 - u) * (1 - u)) <= f * p).
    { apply Qle_trans with (a * (1 - u)); [|exact C1]. lra. }
    assert (D2 : f * p <= F * ((1 + u) * (1 + u))).
    { apply Qle_trans with (a * (1 + u)); [exact C2|]. lra. }
    assert (E1 : F * ((1 - u) * (1 - u)) * (F * ((1 - u) * (1 - u))) <= f * p * (f * p)).
    { apply Qmul_le_mono; try assumption; (assert (0 <= F * ((1 - u) * (1 - u))) by lra; assumption). }
    assert (E2 : f * p * (f * p) <= F * ((1 + u) * (1 + u)) * (F * ((1 + u) * (1 + u)))).
    { assert (0 <= f * p) by nra. apply Qmul_le_mono; assumption. }
    set (S := f * f) in *. assert (HS : 0 < S) by (unfold S; nra).
    assert (E3 : f * p * (f * p) == S * (p * p)) by (unfold S; ring).
    rewrite E3 in E1, E2. set (FF := F * F) in *. assert (HFF : 0 < FF) by (unfold FF; nra).
    assert (E4 : F * ((1 - u) * (1 - u)) * (F * ((1 - u) * (1 - u))) == FF * ((1 - u) * (1 - u) * ((1 - u) * (1 - u)))) by (unfold FF; ring).
    assert (E5 : F * ((1 + u) * (1 + u)) * (F * ((1 + u) * (1 + u))) == FF * ((1 + u) * (1 + u) * ((1 + u) * (1 + u)))) by (unfold FF; ring).
    rewrite E4 in E1. rewrite E5 in E2.
    assert (K1 : S * (t * (1 - (1 # 1125899906842624))) <= S * (p * p)) by (apply Qmult_le_l; assumption).
    assert (K2 : S * (p * p) <= S * (t * (1 + (1 # 1125899906842624)))) by (apply Qmult_le_l; assumption).
    clearbody S FF t. clear - E1 E2 K1 K2 HFF HS H2.
    assert (M : 0 < S * t) by nra.
    assert (L1 : S * (t * (1 - (1 # 1125899906842624))) == (S * t) * (1 - (1 # 1125899906842624))) by ring.
    assert (L2 : S * (t * (1 + (1 # 1125899906842624))) == (S * t) * (1 + (1 # 1125899906842624))) by ring.
    rewrite L1 in K1. rewrite L2 in K2. set (M0 := S * t) in *. clearbody M0.
    split; lra.
  Qed.

  Lemma freq_pos i : 0 < nth_eval_freq rnd pw fs i.
  Proof. exact (proj1 (near i)). Qed.

  Lemma sq_lt a b : 0 < a -> 0 < b -> a * a < b * b -> a < b.
  Proof. intros. destruct (Qlt_le_dec a b) as [|L]; [assumption|]. exfalso. nra. Qed.

  Lemma freq_step i : nth_eval_freq rnd pw fs (S i) < nth_eval_freq rnd pw fs i.
  Proof.
    destruct (near (S i)) as (H1 & _ & B), (near i) as (H2 & A & _).
    set (f := nth_eval_freq rnd pw fs (S i)) in *. set (g := nth_eval_freq rnd pw fs i) in *.
    apply sq_lt; [assumption..|].
    assert (E : pow2 (Z.of_nat (S i)) == 2 * pow2 (Z.of_nat i)).
    { rewrite Nat2Z.inj_succ. unfold Z.succ. rewrite pow2_plus. change (pow2 1) with 2. ring. }
    rewrite E in B. pose proof (pow2_pos (Z.of_nat i)) as Ht. set (t := pow2 (Z.of_nat i)) in *.
    assert (HF : 0 < fs / 4) by (change (fs / 4) with (fs * (1 # 4)); lra).
    set (F := fs / 4) in *. assert (HFF : 0 < F * F) by nra. set (FF := F * F) in *.
    assert (E2 : f * f * (2 * t) == 2 * (f * f * t)) by ring. rewrite E2 in B.
    assert (K : f * f * t < g * g * t) by lra.
    apply (Qmult_lt_r _ _ t Ht). exact K.
  Qed.
  Lemma freq_lt i j : (i < j)%nat -> nth_eval_freq rnd pw fs j < nth_eval_freq rnd pw fs i.
  Proof.
    induction 1 as [|j H IH]; [apply freq_step|]. pose proof (freq_step j). lra.
  Qed.

  Lemma inject_lt_pow2 n : inject_Z (Z.of_nat n) < pow2 (Z.of_nat n).
  Proof. rewrite pow2_Z by lia. apply (proj1 (inject_Z_lt _ _)). apply Z.pow_gt_lin_r; lia. Qed.

  Lemma freq_small f_min : 0 < f_min -> exists n, nth_eval_freq rnd pw fs n < f_min.
  Proof.
    intros Hm. set (F := fs / 4).
    set (x := F * F * (1 + (1 # 140737488355328)) / (f_min * f_min)).
    exists (Z.to_nat (Z.max 0 (qceil x))). set (n := Z.to_nat (Z.max 0 (qceil x))).
    destruct (near n) as (H1 & _ & B). fold F in B. set (f := nth_eval_freq rnd pw fs n) in *.
    apply sq_lt; [assumption..|].
    pose proof (inject_lt_pow2 n) as K. pose proof (qceil_spec x) as [_ K2].
    assert (K3 : inject_Z (qceil x) <= inject_Z (Z.of_nat n)). { apply (proj1 (inject_Z_le _ _)). unfold n. rewrite Z2Nat.id by lia. lia. }
    assert (K4 : x < pow2 (Z.of_nat n)) by lra. pose proof (pow2_pos (Z.of_nat n)) as Ht.
    set (t := pow2 (Z.of_nat n)) in *.
    assert (Hmm : 0 < f_min * f_min) by nra.
    assert (E : x * (f_min * f_min) == F * F * (1 + (1 # 140737488355328))) by (unfold x; field; lra).
    assert (K5 : x * (f_min * f_min) < t * (f_min * f_min)) by (apply Qmult_lt_r; assumption).
    rewrite E in K5.
    apply (Qmult_lt_r _ _ t Ht). rewrite (Qmult_comm (f_min * f_min) t). lra.
  Qed.

  Lemma loop_spec f_min n : (forall i, (i < n)%nat -> f_min <= nth_eval_freq rnd pw fs i) ->
    nth_eval_freq rnd pw fs n < f_min ->
    forall k fuel, (k <= n)%nat -> (n - k < fuel)%nat ->
    eval_freqs_loop rnd pw fuel fs f_min k = Ok (map (nth_eval_freq rnd pw fs) (seq k (n - k))).
  Proof.
    intros A B k fuel. revert k. induction fuel as [|fuel IH]; intros k Hk Hf; [lia|].
    cbn [eval_freqs_loop]. destruct (Nat.eq_dec k n) as [->|N].
    - apply Qltb_true in B. rewrite B. rewrite Nat.sub_diag. reflexivity.
    - assert (L : (k < n)%nat) by lia. pose proof (A k L) as A'. apply Qltb_false in A'. rewrite A'.
      rewrite IH by lia. cbn [bind]. replace (n - k)%nat with (S (n - S k)) by lia. reflexivity.
  Qed.

  Lemma first_below f_min n : nth_eval_freq rnd pw fs n < f_min ->
    exists m, (m <= n)%nat /\ nth_eval_freq rnd pw fs m < f_min /\
      forall i, (i < m)%nat -> f_min <= nth_eval_freq rnd pw fs i.
  Proof.
    induction n as [|n IH]; intros H.
    - exists 0%nat. split; [lia|]. split; [exact H|]. intros; lia.
    - destruct (Qlt_le_dec (nth_eval_freq rnd pw fs n) f_min) as [L|L].
      + destruct (IH L) as (m & A & B & C). exists m. split; [lia|]. auto.
      + exists (S n). split; [lia|]. split; [exact H|]. intros i Hi.
        destruct (Nat.eq_dec i n) as [->|]; [exact L|]. pose proof (freq_lt i n ltac:(lia)). lra.
  Qed.

  Lemma eval_freqs_min_spec f_min : 0 < f_min -> f_min <= rnd (fs / 4) ->
    exists n, (forall i, f_min <= nth_eval_freq rnd pw fs i <-> (i < n)%nat) /\
    forall fuel, (n < fuel)%nat ->
      get_eval_freqs_min rnd pw fuel fs f_min = Ok (map (nth_eval_freq rnd pw fs) (seq 0 n)).
  Proof.
    intros H0 H1. destruct (freq_small f_min H0) as [n0 Hn0].
    destruct (first_below f_min n0 Hn0) as (n & _ & B & C). exists n. split.
    - intros i. split; [|apply C]. intros L. destruct (Nat.lt_ge_cases i n) as [|Ge]; [assumption|].
      exfalso. destruct (Nat.eq_dec i n) as [->|]; [lra|]. pose proof (freq_lt n i ltac:(lia)). lra.
    - intros fuel Hf. unfold get_eval_freqs_min.
      replace (Qle_bool f_min 0) with false by (symmetry; apply Qle_bool_false; exact H0).
      replace (Qltb (rnd (fs / 4)) f_min) with false by (symmetry; apply Qltb_false; exact H1).
      rewrite (loop_spec f_min n C B 0 fuel) by lia. rewrite Nat.sub_0_r. reflexivity.
  Qed.
End F.

Lemma eval_freqs_size_spec : forall rnd pw fs n, good_rnd rnd -> good_pow2half pw -> 0 < fs ->
  let l := get_eval_freqs_size rnd pw fs (Z.of_nat n) in
  length l = n /\
  (forall i f, nth_error l i = Some f -> near_half_power (fs / 4) i f) /\
  (forall i j f g, (i < j)%nat -> nth_error l i = Some f -> nth_error l j = Some g -> g < f).
Proof.
  intros rnd pw fs n G P H. unfold get_eval_freqs_size. rewrite Nat2Z.id.
  assert (E : forall i f, nth_error (map (nth_eval_freq rnd pw fs) (seq 0 n)) i = Some f -> f = nth_eval_freq rnd pw fs i).
  { intros i f. rewrite nth_error_map. destruct (nth_error (seq 0 n) i) eqn:E; cbn; [|discriminate].
    assert (L : (i < n)%nat). { rewrite <- (seq_length n 0). apply nth_error_Some. congruence. }
    rewrite (nth_error_nth' (seq 0 n) 0%nat) in E by (rewrite seq_length; exact L). rewrite seq_nth in E by exact L.
    intros X. cbn in E. congruence. }
  split; [rewrite map_length, seq_length; reflexivity|]. split.
  - intros i f Hi. rewrite (E i f Hi). apply near; assumption.
  - intros i j f g L Hi Hj. rewrite (E i f Hi), (E j g Hj). apply freq_lt; assumption.
Qed.

Lemma eval_freqs_min_full : forall rnd pw fs f_min, good_rnd rnd -> good_pow2half pw -> 0 < fs ->
  0 < f_min -> f_min <= rnd (fs / 4) ->
  exists n, (exists N, forall fuel, (N <= fuel)%nat ->
     get_eval_freqs_min rnd pw fuel fs f_min = Ok (get_eval_freqs_size rnd pw fs (Z.of_nat n))) /\
  forall m i f, nth_error (get_eval_freqs_size rnd pw fs (Z.of_nat m)) i = Some f -> (f_min <= f <-> (i < n)%nat).
Proof.
  intros rnd pw fs f_min G P H H0 H1. destruct (eval_freqs_min_spec rnd G pw P fs H f_min H0 H1) as (n & A & B).
  exists n. split.
  - exists (S n). intros fuel Hf. rewrite (B fuel) by lia. unfold get_eval_freqs_size. rewrite Nat2Z.id. reflexivity.
  - intros m i f. unfold get_eval_freqs_size. rewrite Nat2Z.id, nth_error_map.
    destruct (nth_error (seq 0 m) i) eqn:E; cbn; [|discriminate].
    assert (L : (i < m)%nat). { rewrite <- (seq_length m 0). apply nth_error_Some. congruence. }
    rewrite (nth_error_nth' (seq 0 m) 0%nat) in E by (rewrite seq_length; exact L). rewrite seq_nth in E by exact L.
    intros X. cbn in E. injection E as <-. injection X as <-. apply A.
Qed.

Lemma eval_freqs_min_reject : forall rnd pw fuel fs f_min n, f_min <= 0 \/ rnd (fs / 4) < f_min ->
  get_eval_freqs rnd pw fuel fs (Some f_min) n = Err ValueError.
Proof.
  intros rnd pw fuel fs f_min n H. unfold get_eval_freqs, get_eval_freqs_min.
  destruct (Qle_bool f_min 0) eqn:E; [reflexivity|]. destruct H as [H|H].
  - apply Qle_bool_iff in H. congruence.
  - apply Qltb_true in H. rewrite H. reflexivity.
Qed.

(** the power function of binary64: exact for even i, sqrt(2) rounded for odd i *)
Definition pw64 (i : nat) : Q :=
  pow2 (Z.of_nat i / 2) * (if Nat.even i then 1 else 6369051672525773 # 4503599627370496).

Lemma pw64_good : good_pow2half pw64.
Proof.
  intros i. unfold pw64. pose proof (pow2_pos (Z.of_nat i / 2)) as H.
  set (c := if Nat.even i then 1 else 6369051672525773 # 4503599627370496).
  assert (E : pow2 (Z.of_nat i / 2) * c * (pow2 (Z.of_nat i / 2) * c) == pow2 (Z.of_nat i / 2 + Z.of_nat i / 2) * (c * c)).
  { rewrite pow2_plus. ring. }
  assert (Hc : 0 < c) by (unfold c; destruct (Nat.even i); reflexivity).
  split; [nra|]. rewrite E. clear E.
  pose proof (Z.div_mod (Z.of_nat i) 2 ltac:(lia)) as D. pose proof (Z.mod_pos_bound (Z.of_nat i) 2 ltac:(lia)) as M.
  assert (Ev : Z.even (Z.of_nat i) = Nat.even i).
  { clear. assert (K : forall n, Z.even (Z.of_nat n) = Nat.even n /\ Z.even (Z.of_nat (S n)) = Nat.even (S n)).
    { induction n as [|n [IH1 IH2]]; [split; reflexivity|]. split; [exact IH2|].
      replace (Z.of_nat (S (S n))) with (Z.succ (Z.succ (Z.of_nat n))) by lia. rewrite Z.even_succ_succ, IH1. reflexivity. }
    apply K. }
  unfold c. destruct (Nat.even i) eqn:En.
  - apply Z.even_spec in Ev. destruct Ev as [k Hk].
    replace (Z.of_nat i / 2 + Z.of_nat i / 2)%Z with (Z.of_nat i).
    + pose proof (pow2_pos (Z.of_nat i)). split; lra.
    + assert (Z.of_nat i mod 2 = 0)%Z. { rewrite Hk. rewrite Z.mul_comm. apply Z_mod_mult. } lia.
  - assert (Od : (Z.of_nat i mod 2 = 1)%Z). { rewrite Zmod_odd. rewrite <- Z.negb_even, Ev. reflexivity. }
    assert (E : pow2 (Z.of_nat i) == pow2 (Z.of_nat i / 2 + Z.of_nat i / 2) * pow2 1).
    { rewrite <- pow2_plus.
      assert (X : Z.of_nat i = (Z.of_nat i / 2 + Z.of_nat i / 2 + 1)%Z) by lia. rewrite X at 1. reflexivity. }
    change (pow2 1) with 2 in E. rewrite E.
    pose proof (pow2_pos (Z.of_nat i / 2 + Z.of_nat i / 2)). split; lra.
Qed.
