(** The sampling period in rounded arithmetic: never negative and at most
    (1+u)^5/fs, so a consistent recording never spans more than its samples. *)
From Verif Require Import Base.Prelude Base.Rounding Model.Sampling Spec.Sampling
  Proofs.Sampling Proofs.SamplingFloat.
Open Scope Q_scope.

Lemma rnd_nonneg_upper {rnd} (G : good_rnd rnd) x : 0 <= x -> 0 <= rnd x /\ rnd x <= x * (1 + uu).
Proof.
  intros H. split; [apply (gr_nonneg G); exact H|].
  pose proof (gr_err _ G x) as E. rewrite (Qabs_pos x) in E by exact H.
  apply Qabs_Qle_condition in E. unfold uu. lra.
Qed.

Lemma to_timedelta_upper {rnd} (G : good_rnd rnd) x : 0 <= x ->
  0 <= to_timedelta rnd x /\ to_timedelta rnd x <= x * hi 4.
Proof.
  intros Hx. unfold to_timedelta. cbv zeta.
  destruct (qfloor_spec x) as [S1 S2]. set (s := qfloor x) in *.
  assert (S0 : (0 <= s)%Z).
  { assert (inject_Z (-1) < inject_Z s) as L by (change (inject_Z (-1)) with (-(1)); lra).
    rewrite <- inject_Z_lt in L. lia. }
  assert (S0' : 0 <= inject_Z s) by (change 0 with (inject_Z 0); rewrite <- inject_Z_le; exact S0).
  set (r := x - inject_Z s) in *. assert (R0 : 0 <= r) by (unfold r; lra).
  destruct (rnd_nonneg_upper G r R0) as [A1 A2]. set (d1 := rnd r) in *.
  change (inject_Z 1000000) with (1000000#1). change (inject_Z 1000) with (1000#1).
  assert (B0 : 0 <= d1 * (1000000#1)) by lra.
  destruct (rnd_nonneg_upper G _ B0) as [B1 B2]. set (d2 := rnd (d1 * (1000000#1))) in *.
  destruct (qfloor_spec d2) as [M1 M2]. set (mi := qfloor d2) in *.
  assert (M0 : (0 <= mi)%Z).
  { assert (inject_Z (-1) < inject_Z mi) as L by (change (inject_Z (-1)) with (-(1)); lra).
    rewrite <- inject_Z_lt in L. lia. }
  assert (M0' : 0 <= inject_Z mi) by (change 0 with (inject_Z 0); rewrite <- inject_Z_le; exact M0).
  assert (C0 : 0 <= d2 - inject_Z mi) by lra.
  destruct (rnd_nonneg_upper G _ C0) as [C1 C2]. set (d3 := rnd (d2 - inject_Z mi)) in *.
  assert (D0 : 0 <= d3 * (1000#1)) by lra.
  destruct (rnd_nonneg_upper G _ D0) as [D1 D2]. set (ns := rnd (d3 * (1000#1))) in *.
  set (ns' := if negb (Qeq_bool ns 0) && Qltb ns (td_eps rnd) then 0 else ns).
  assert (N : 0 <= ns' /\ ns' <= ns) by (unfold ns'; destruct (_ && _); lra).
  change (inject_Z mi / (1000000#1)) with (inject_Z mi * (1#1000000)).
  change (ns' / inject_Z 1000000000) with (ns' * (1#1000000000)).
  split; [lra|].
  assert (H4 : hi 4 == (1+uu)*(1+uu)*(1+uu)*(1+uu)).
  { rewrite !hi_S. unfold hi. cbn. ring. }
  rewrite H4. unfold uu in *.
  assert (E : x == inject_Z s + r) by (unfold r; ring). rewrite E.
  unfold r in *. lra.
Qed.

Lemma period_upper {rnd} (G : good_rnd rnd) fs : 0 < fs ->
  0 <= period rnd fs /\ period rnd fs * fs <= hi 5.
Proof.
  intros Hf. unfold period.
  assert (P : 0 < 1 / fs) by (apply Qlt_shift_div_l; lra).
  destruct (rnd_nonneg_upper G (1/fs) ltac:(lra)) as [A B]. set (p := rnd (1/fs)) in *.
  destruct (to_timedelta_upper G p A) as [C D]. split; [exact C|].
  assert (U : p * fs <= 1 + uu).
  { assert (p * fs <= 1 / fs * (1 + uu) * fs) by (apply Qmult_le_compat_r; lra).
    assert (E : 1 / fs * (1 + uu) * fs == 1 + uu) by (field; lra). lra. }
  assert (V : to_timedelta rnd p * fs <= p * hi 4 * fs) by (apply Qmult_le_compat_r; lra).
  rewrite hi_S. pose proof (hi_pos 4) as HP.
  assert (W : p * fs * hi 4 <= (1 + uu) * hi 4) by (apply Qmult_le_compat_r; lra).
  lra.
Qed.

(** the span of a recording *)
Lemma span_bound {rnd} (G : good_rnd rnd) fs n : 0 < fs -> (1 <= n <= 2 ^ 49 - 1)%Z ->
  0 <= inject_Z (n - 1) * period rnd fs /\
  inject_Z (n - 1) * period rnd fs * fs < inject_Z n - (1#2).
Proof.
  intros Hf Hn. destruct (period_upper G fs Hf) as [A B]. set (p := period rnd fs) in *.
  assert (H5 : hi 5 <= 1 + 6 * uu) by (vm_compute; discriminate).
  assert (N0 : 0 <= inject_Z (n - 1)) by (change 0 with (inject_Z 0); rewrite <- inject_Z_le; lia).
  assert (N1 : inject_Z (n - 1) <= inject_Z (2^49)) by (rewrite <- inject_Z_le; lia).
  change (inject_Z (2^49)) with (562949953421312#1) in N1.
  assert (EN : inject_Z n == inject_Z (n - 1) + 1) by (unfold Z.sub; rewrite inject_Z_plus; change (inject_Z (-(1))) with (-(1)); ring).
  assert (K : inject_Z (n - 1) * (p * fs) <= inject_Z (n - 1) * (1 + 6 * uu)).
  { rewrite !(Qmult_comm (inject_Z (n-1))). apply Qmult_le_compat_r; [lra|exact N0]. }
  unfold uu in *. split; [nra|]. lra.
Qed.
