(** Absolute errors of the conversions between numbers, time deltas and numbers
    of samples, for every correctly rounded arithmetic and also for negative
    time deltas. *)
From Verif Require Import Base.Prelude Base.Rounding Model.Sampling Model.Window Spec.Sampling
  Proofs.Sampling Proofs.SamplingFloat Proofs.Period.
Open Scope Q_scope.

Lemma rnd_near {rnd} (G : good_rnd rnd) x b : - b <= x -> x <= b ->
  x - b * uu <= rnd x /\ rnd x <= x + b * uu.
Proof.
  intros H1 H2. pose proof (gr_err _ G x) as E. apply Qabs_Qle_condition in E.
  assert (A : Qabs x <= b) by (apply Qabs_Qle_condition; lra). unfold uu. lra.
Qed.

(** to_timedelta of a number: the parts below 10^-13 s are dropped, and
    rounding adds at most 10^-15 s *)
Lemma to_timedelta_err {rnd} (G : good_rnd rnd) x :
  Qabs (to_timedelta rnd x - x) <= 101 # 1000000000000000.
Proof.
  unfold to_timedelta. cbv zeta.
  destruct (qfloor_spec x) as [S1 S2]. set (s := qfloor x) in *.
  set (r := x - inject_Z s) in *. assert (R0 : 0 <= r) by (unfold r; lra). assert (R1 : r <= 1) by (unfold r; lra).
  destruct (rnd_near G r 1 ltac:(lra) R1) as [A1 A2]. destruct (rnd_nonneg_upper G r R0) as [A3 _]. set (d1 := rnd r) in *.
  change (inject_Z 1000000) with (1000000#1). change (inject_Z 1000) with (1000#1).
  unfold uu in *.
  destruct (rnd_near G (d1 * (1000000#1)) (1000001#1) ltac:(lra) ltac:(lra)) as [B1 B2].
  destruct (rnd_nonneg_upper G (d1 * (1000000#1)) ltac:(lra)) as [B3 _]. set (d2 := rnd (d1 * (1000000#1))) in *.
  destruct (qfloor_spec d2) as [M1 M2]. set (mi := qfloor d2) in *.
  destruct (rnd_near G (d2 - inject_Z mi) 1 ltac:(lra) ltac:(lra)) as [C1 C2].
  destruct (rnd_nonneg_upper G (d2 - inject_Z mi) ltac:(lra)) as [C3 _]. set (d3 := rnd (d2 - inject_Z mi)) in *.
  unfold uu in *.
  destruct (rnd_near G (d3 * (1000#1)) (1001#1) ltac:(lra) ltac:(lra)) as [D1 D2].
  destruct (rnd_nonneg_upper G (d3 * (1000#1)) ltac:(lra)) as [D3 _]. set (ns := rnd (d3 * (1000#1))) in *.
  destruct (rnd_near G (1#10000) (1#10000) ltac:(lra) ltac:(lra)) as [E1 E2].
  fold (td_eps rnd) in E1, E2. unfold uu in *.
  set (ns' := if negb (Qeq_bool ns 0) && Qltb ns (td_eps rnd) then 0 else ns).
  assert (N : ns - (100001 # 1000000000) <= ns' /\ ns' <= ns).
  { unfold ns'. destruct (negb (Qeq_bool ns 0)); cbn [andb]; [|lra].
    destruct (Qltb ns (td_eps rnd)) eqn:L; [|lra]. apply Qltb_true in L. lra. }
  change (inject_Z mi / (1000000#1)) with (inject_Z mi * (1#1000000)).
  change (ns' / inject_Z 1000000000) with (ns' * (1#1000000000)).
  assert (E : x == inject_Z s + r) by (unfold r; ring). apply Qabs_Qle_condition. rewrite E.
  lra.
Qed.

(** seconds of a time delta of either sign *)
Lemma total_seconds_abs {rnd} (G : good_rnd rnd) d :
  Qabs (total_seconds rnd d - d) <= (Qabs d + (172811 # 1)) * uu.
Proof.
  unfold total_seconds, to_seconds. cbv zeta.
  pose proof (td_seconds_range d) as Rs. pose proof (td_micros_range d) as Rm.
  destruct (td_nanos_range d) as [Rn1 Rn2]. pose proof (td_sum d) as TS.
  set (us := td_micros d) in *. set (s := td_seconds d) in *. set (dd := td_days d) in *. set (ns := td_nanos d) in *.
  assert (S0 : 0 <= inject_Z s) by (change 0 with (inject_Z 0); rewrite <- inject_Z_le; lia).
  assert (S1 : inject_Z s <= 86399 # 1) by (change (86399 # 1) with (inject_Z 86399); rewrite <- inject_Z_le; lia).
  assert (U0 : 0 <= inject_Z us) by (change 0 with (inject_Z 0); rewrite <- inject_Z_le; lia).
  assert (U1 : inject_Z us <= 999999 # 1) by (change (999999 # 1) with (inject_Z 999999); rewrite <- inject_Z_le; lia).
  change (dd * (3600 * 24))%Z with (dd * 86400)%Z.
  change (inject_Z us / inject_Z 1000000) with (inject_Z us * (1#1000000)) in *.
  change (ns / inject_Z 1000000000) with (ns * (1#1000000000)) in *.
  unfold uu in *.
  destruct (rnd_near G (inject_Z us * (1#1000000)) 1 ltac:(lra) ltac:(lra)) as [A1 A2].
  set (u' := rnd (inject_Z us * (1#1000000))) in *.
  destruct (rnd_near G ns (1000#1) ltac:(lra) ltac:(lra)) as [B1 B2]. set (n1 := rnd ns) in *.
  change (n1 / inject_Z 1000000000) with (n1 * (1#1000000000)). unfold uu in *.
  destruct (rnd_near G (n1 * (1#1000000000)) 1 ltac:(lra) ltac:(lra)) as [C1 C2]. set (n' := rnd (n1 * (1#1000000000))) in *.
  unfold uu in *.
  destruct (rnd_near G (inject_Z s + u') (86401#1) ltac:(lra) ltac:(lra)) as [D1 D2]. set (a := rnd (inject_Z s + u')) in *.
  unfold uu in *.
  destruct (rnd_near G (a + n') (86402#1) ltac:(lra) ltac:(lra)) as [E1 E2]. set (b := rnd (a + n')) in *.
  pose proof (gr_err _ G (inject_Z (dd * 86400) + b)) as F. set (c := rnd (inject_Z (dd * 86400) + b)) in *.
  unfold uu in *. set (dy := inject_Z (dd * 86400)) in *.
  assert (K : Qabs (dy + b - d) <= (172808 # 1) * uu) by (unfold uu; apply Qabs_Qle_condition; lra).
  assert (L : Qabs (dy + b) <= Qabs d + (172808 # 1) * uu).
  { assert (X : dy + b == d + (dy + b - d)) by ring. rewrite X. eapply Qle_trans; [apply Qabs_triangle|]. lra. }
  assert (X : c - d == (c - (dy + b)) + (dy + b - d)) by ring. rewrite X. eapply Qle_trans; [apply Qabs_triangle|].
  unfold uu in *. lra.
Qed.

(** numbers of samples *)
Lemma n_float_abs {rnd} (G : good_rnd rnd) d fs b : 0 <= fs -> fs <= 1000000 # 1 -> Qabs (d * fs) <= b ->
  Qabs (n_float rnd d fs - (d * fs + 1)) <= (5 * b) * uu + (1 # 10000).
Proof.
  intros F0 F1 B. unfold n_float. pose proof (total_seconds_abs G d) as T. unfold total_seconds in T.
  destruct (to_seconds rnd d) as [days rem] eqn:E. cbn [fst snd]. set (c := rnd (inject_Z days + rem)) in *. clearbody c. clear E days rem.
  assert (B0 : 0 <= b) by (eapply Qle_trans; [apply Qabs_nonneg|exact B]).
  assert (M : Qabs (c * fs - d * fs) <= (b + (172811000000 # 1)) * uu).
  { assert (X : c * fs - d * fs == (c - d) * fs) by ring. rewrite X, Qabs_Qmult, (Qabs_pos fs F0).
    apply Qle_trans with ((Qabs d + (172811#1)) * uu * fs); [apply Qmult_le_compat_r; assumption|].
    rewrite Qabs_Qmult, (Qabs_pos fs F0) in B. unfold uu. 
    assert ((172811#1) * fs <= 172811000000#1) by lra.
    assert (Y : (Qabs d + (172811 # 1)) * (1 # 9007199254740992) * fs == (Qabs d * fs + (172811#1)*fs) * (1 # 9007199254740992)) by ring.
    rewrite Y. apply Qmult_le_compat_r; [lra|discriminate]. }
  apply Qabs_Qle_condition in M. apply Qabs_Qle_condition in B.
  set (x := c * fs) in *. set (y := d * fs) in *. unfold uu in *.
  destruct (rnd_near G x (b + (b + (172811000000 # 1)) * (1 # 9007199254740992)) ltac:(lra) ltac:(lra)) as [P1 P2].
  set (z := rnd x) in *. unfold uu in *.
  destruct (rnd_near G (z + 1) (b + b + 2) ltac:(lra) ltac:(lra)) as [Q1 Q2]. set (n := rnd (z + 1)) in *. unfold uu in *.
  apply Qabs_Qle_condition. lra.
Qed.

(** the sample period *)
Lemma period_err {rnd} (G : good_rnd rnd) fs : 0 < fs -> fs <= 1000000 # 1 ->
  Qabs (period rnd fs * fs - 1) <= fs * (102 # 1000000000000000) + uu.
Proof.
  intros F0 F1. unfold period. assert (P : 0 < 1 / fs) by (apply Qlt_shift_div_l; lra).
  destruct (rnd_near G (1/fs) (1/fs) ltac:(lra) ltac:(lra)) as [A1 A2]. set (p := rnd (1/fs)) in *.
  pose proof (to_timedelta_err G p) as T. set (t := to_timedelta rnd p) in *. apply Qabs_Qle_condition in T.
  assert (I : 1 / fs * fs == 1) by (field; lra). set (i := 1/fs) in *.
  assert (K1 : t * fs <= (i + i * uu + (101 # 1000000000000000)) * fs) by (apply Qmult_le_compat_r; lra).
  assert (K2 : (i - i * uu - (101 # 1000000000000000)) * fs <= t * fs) by (apply Qmult_le_compat_r; lra).
  assert (X1 : (i + i * uu + (101 # 1000000000000000)) * fs == 1 + uu + fs * (101 # 1000000000000000)).
  { transitivity (i * fs * (1 + uu) + fs * (101 # 1000000000000000)); [ring|]. rewrite I. ring. }
  assert (X2 : (i - i * uu - (101 # 1000000000000000)) * fs == 1 - uu - fs * (101 # 1000000000000000)).
  { transitivity (i * fs * (1 - uu) - fs * (101 # 1000000000000000)); [ring|]. rewrite I. ring. }
  rewrite X1 in K1. rewrite X2 in K2. apply Qabs_Qle_condition. lra.
Qed.
Lemma period_pos {rnd} (G : good_rnd rnd) fs : 0 < fs -> fs <= 1000000 # 1 -> 0 < period rnd fs.
Proof.
  intros F0 F1. pose proof (period_err G fs F0 F1) as E. apply Qabs_Qle_condition in E.
  unfold uu in E. apply Qnot_le_lt. intro C. assert (period rnd fs * fs <= 0) by nra. lra.
Qed.

(** to_seconds: seconds of the days and the rest, added up exactly *)
Lemma to_seconds_abs {rnd} (G : good_rnd rnd) d :
  Qabs (inject_Z (fst (to_seconds rnd d)) + snd (to_seconds rnd d) - d) <= 1 # 50000000000.
Proof.
  unfold to_seconds. cbv zeta. cbn [fst snd].
  pose proof (td_seconds_range d) as Rs. pose proof (td_micros_range d) as Rm.
  destruct (td_nanos_range d) as [Rn1 Rn2]. pose proof (td_sum d) as TS.
  set (us := td_micros d) in *. set (s := td_seconds d) in *. set (dd := td_days d) in *. set (ns := td_nanos d) in *.
  assert (S0 : 0 <= inject_Z s) by (change 0 with (inject_Z 0); rewrite <- inject_Z_le; lia).
  assert (S1 : inject_Z s <= 86399 # 1) by (change (86399 # 1) with (inject_Z 86399); rewrite <- inject_Z_le; lia).
  assert (U0 : 0 <= inject_Z us) by (change 0 with (inject_Z 0); rewrite <- inject_Z_le; lia).
  assert (U1 : inject_Z us <= 999999 # 1) by (change (999999 # 1) with (inject_Z 999999); rewrite <- inject_Z_le; lia).
  change (dd * (3600 * 24))%Z with (dd * 86400)%Z.
  change (inject_Z us / inject_Z 1000000) with (inject_Z us * (1#1000000)) in *.
  change (ns / inject_Z 1000000000) with (ns * (1#1000000000)) in *.
  unfold uu in *.
  destruct (rnd_near G (inject_Z us * (1#1000000)) 1 ltac:(lra) ltac:(lra)) as [A1 A2].
  set (u' := rnd (inject_Z us * (1#1000000))) in *.
  destruct (rnd_near G ns (1000#1) ltac:(lra) ltac:(lra)) as [B1 B2]. set (n1 := rnd ns) in *.
  change (n1 / inject_Z 1000000000) with (n1 * (1#1000000000)). unfold uu in *.
  destruct (rnd_near G (n1 * (1#1000000000)) 1 ltac:(lra) ltac:(lra)) as [C1 C2]. set (n' := rnd (n1 * (1#1000000000))) in *.
  unfold uu in *.
  destruct (rnd_near G (inject_Z s + u') (86401#1) ltac:(lra) ltac:(lra)) as [D1 D2]. set (a := rnd (inject_Z s + u')) in *.
  unfold uu in *.
  destruct (rnd_near G (a + n') (86402#1) ltac:(lra) ltac:(lra)) as [E1 E2]. set (b := rnd (a + n')) in *.
  unfold uu in *. set (dy := inject_Z (dd * 86400)) in *. apply Qabs_Qle_condition. lra.
Qed.

Lemma near_round x y : Qabs (y - x) < 1 # 2 -> (qround x - 1 <= qround y <= qround x + 1)%Z.
Proof.
  intros H. pose proof (qround_spec x) as A. pose proof (qround_spec y) as B.
  apply Qabs_Qle_condition in A. apply Qabs_Qle_condition in B.
  assert (H' : - (1#2) < y - x /\ y - x < 1#2) by (revert H; apply Qabs_case; intros; lra).
  assert (inject_Z (qround x) < inject_Z (qround y + 2)) by (rewrite inject_Z_plus; change (inject_Z 2) with 2; lra).
  assert (inject_Z (qround y) < inject_Z (qround x + 2)) by (rewrite inject_Z_plus; change (inject_Z 2) with 2; lra).
  rewrite <- inject_Z_lt in *. lia.
Qed.

Lemma to_n_samples_by rnd d fs m : to_n_samples rnd d fs m =
  match m with Mfloor => qfloor (n_float rnd d fs) | Mceil => qceil (n_float rnd d fs) | Mround => qround (n_float rnd d fs) end.
Proof.
  rewrite to_n_samples_eq. cbv zeta. destruct (q_is_integer (n_float rnd d fs)) eqn:I; [|destruct m; reflexivity].
  apply q_is_integer_true in I. destruct m; [symmetry; eapply qround_int; exact I|reflexivity|symmetry; eapply qceil_floor_int; exact I].
Qed.

Lemma to_n_samples_near_exact {rnd} (G : good_rnd rnd) d fs m : 0 <= fs -> fs <= 1000000 # 1 -> Qabs (d * fs) <= inject_Z (2 ^ 49) ->
  (to_n_samples exact d fs m - 1 <= to_n_samples rnd d fs m <= to_n_samples exact d fs m + 1)%Z /\
  Qabs (inject_Z (to_n_samples rnd d fs m) - (d * fs + 1)) < 3 # 2.
Proof.
  intros F0 F1 B. rewrite !to_n_samples_by.
  pose proof (n_float_exact d fs) as NE.
  assert (E : Qabs (n_float rnd d fs - (d * fs + 1)) < 1 # 2).
  { eapply Qle_lt_trans; [apply (n_float_abs G d fs _ F0 F1 B)|]. vm_compute. reflexivity. }
  set (y := n_float rnd d fs) in *. set (x := n_float exact d fs) in *.
  assert (E2 : Qabs (y - x) < 1 # 2) by (rewrite NE; exact E).
  split.
  - destruct m; [apply near_round|apply near_floor|apply near_ceil]; exact E2.
  - assert (E' : - (1#2) < y - (d * fs + 1) /\ y - (d * fs + 1) < 1#2) by (revert E; apply Qabs_case; intros; lra).
    assert (K : Qabs (inject_Z match m with Mfloor => qfloor y | Mceil => qceil y | Mround => qround y end - y) < 1).
    { destruct m.
      - eapply Qle_lt_trans; [rewrite Qabs_Qminus; apply qround_spec|reflexivity].
      - destruct (qfloor_spec y). apply Qabs_case; intros; lra.
      - destruct (qceil_spec y). apply Qabs_case; intros; lra. }
    set (z := inject_Z match m with Mround => qround y | Mfloor => qfloor y | Mceil => qceil y end) in *. clearbody z y. 
    assert (K' : - (1) < z - y /\ z - y < 1) by (revert K; apply Qabs_case; intros; lra).
    apply Qabs_case; intros; lra.
Qed.
