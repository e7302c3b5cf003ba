(** C10 in every correctly rounded arithmetic *)
From Coq Require Import String Qminmax.
From Verif Require Import Base.Prelude Base.Rounding Base.ListUtil Base.Interp Model.Sampling Model.Time
  Spec.Sampling Spec.Time Proofs.Sampling Proofs.SamplingFloat Proofs.SamplingErr Proofs.Period Proofs.TimeMeta Proofs.TimeProc.
Open Scope Q_scope.

Lemma n_float_zero {rnd} (G : good_rnd rnd) d fs : d == 0 -> n_float rnd d fs == 1.
Proof.
  intros E. unfold n_float, to_seconds. cbn [fst snd].
  assert (F : qfloor d = 0%Z) by (unfold qfloor; rewrite (Qfloor_comp _ _ E); reflexivity).
  assert (D : td_days d = 0%Z). { unfold td_days, qfloor. assert (X : d / inject_Z 86400 == 0) by (rewrite E; reflexivity). rewrite (Qfloor_comp _ _ X). reflexivity. }
  assert (S : td_seconds d = 0%Z) by (unfold td_seconds; rewrite F, D; reflexivity).
  assert (M : td_micros d = 0%Z). { unfold td_micros. rewrite F. unfold qfloor. assert (X : (d - inject_Z 0) * inject_Z 1000000 == 0) by (rewrite E; reflexivity). rewrite (Qfloor_comp _ _ X). reflexivity. }
  assert (N : td_nanos d == 0). { unfold td_nanos. rewrite F, M, E. reflexivity. }
  rewrite D, S, M. set (z := inject_Z (0 * (3600 * 24))).
  assert (R1 : rnd (rnd (td_nanos d) / inject_Z 1000000000) == 0).
  { rewrite (gr_comp _ G _ 0); [apply (gr_0 G)|]. rewrite (gr_comp _ G _ _ N), (gr_0 G). reflexivity. }
  assert (R2 : rnd (inject_Z 0 / inject_Z 1000000) == 0) by (rewrite (gr_comp _ G _ 0); [apply (gr_0 G)|reflexivity]).
  assert (R3 : rnd (inject_Z 0 + rnd (inject_Z 0 / inject_Z 1000000)) == 0).
  { rewrite (gr_comp _ G _ 0); [apply (gr_0 G)|]. rewrite R2. reflexivity. }
  assert (R4 : rnd (rnd (inject_Z 0 + rnd (inject_Z 0 / inject_Z 1000000)) + rnd (rnd (td_nanos d) / inject_Z 1000000000)) == 0).
  { rewrite (gr_comp _ G _ 0); [apply (gr_0 G)|]. rewrite R1, R3. reflexivity. }
  set (r4 := rnd (rnd (inject_Z 0 + rnd (inject_Z 0 / inject_Z 1000000)) + rnd (rnd (td_nanos d) / inject_Z 1000000000))) in *.
  assert (R5 : rnd (z + r4) == 0). { rewrite (gr_comp _ G _ 0); [apply (gr_0 G)|]. rewrite R4. reflexivity. }
  assert (R6 : rnd (rnd (z + r4) * fs) == 0). { rewrite (gr_comp _ G _ 0); [apply (gr_0 G)|]. rewrite R5. ring. }
  rewrite (gr_comp _ G _ 1); [exact (gr_int G 1 ltac:(lia))|]. rewrite R6. reflexivity.
Qed.

(** the relative error of the computed sample number plus one *)
Lemma n_float_rel {rnd} (G : good_rnd rnd) d fs : 0 <= d -> 0 <= fs ->
  (d * fs + 1) * (1 - 7 * uu) <= n_float rnd d fs /\ n_float rnd d fs <= (d * fs + 1) * (1 + 7 * uu).
Proof.
  intros Hd Hf. destruct (n_float_approx G d fs Hd Hf) as (A & B & C).
  assert (L : 1 - 7 * uu <= lo 6) by (vm_compute; discriminate).
  assert (U : hi 6 <= 1 + 7 * uu) by (vm_compute; discriminate).
  split.
  - eapply Qle_trans; [|exact B]. rewrite (Qmult_comm _ (1 - _)), (Qmult_comm _ (lo 6)). apply Qmult_le_compat_r; assumption.
  - eapply Qle_trans; [exact C|]. rewrite (Qmult_comm _ (hi 6)), (Qmult_comm _ (1 + _)). apply Qmult_le_compat_r; assumption.
Qed.

Lemma slack_scaled first fs z : 0 < fs -> slack first fs z * fs == ((z - first) * fs + 1) * (1 # 1125899906842624).
Proof. intros F. unfold slack. field. lra. Qed.
Lemma nominal_scaled first fs j : 0 < fs -> (nominal first fs j - first) * fs == inject_Z j.
Proof. intros F. unfold nominal. field. lra. Qed.

Lemma ceil_le x k : (qceil x <= k)%Z <-> x <= inject_Z k.
Proof.
  destruct (qceil_spec x) as [A B]. split; intros H.
  - rewrite Zle_Qle in H. lra.
  - apply Z.lt_succ_r. rewrite Zlt_Qlt. unfold Z.succ. rewrite inject_Z_plus. change (inject_Z 1) with 1. lra.
Qed.
Lemma le_floor x k : (k <= qfloor x)%Z <-> inject_Z k <= x.
Proof.
  destruct (qfloor_spec x) as [A B]. split; intros H.
  - rewrite Zle_Qle in H. lra.
  - apply Z.lt_succ_r. rewrite Zlt_Qlt. unfold Z.succ. rewrite inject_Z_plus. change (inject_Z 1) with 1. lra.
Qed.

Lemma scaled_le fs a b : 0 < fs -> (a <= b <-> a * fs <= b * fs).
Proof. intros F. split; intros H; [nra|]. apply Qnot_lt_le. intro C. assert (b * fs < a * fs) by nra. lra. Qed.

Lemma from_time_kept {rnd} (G : good_rnd rnd) fs first last f a : 0 < fs -> first <= last -> from_time_to_sample rnd fs first last f = Ok a ->
  (f <= first -> a = 0%Z) /\ forall j,
  (Qmax f first + slack first fs (Qmax f first) <= nominal first fs j -> (a <= j)%Z) /\
  ((a <= j)%Z -> Qmax f first - slack first fs (Qmax f first) <= nominal first fs j).
Proof.
  intros F FL H. unfold from_time_to_sample, check_from_time, bind in H.
  destruct (Qltb last f) eqn:A1; [discriminate|]. apply Qltb_false in A1.
  set (f' := Qmax f first). assert (F' : first <= f') by apply Q.le_max_r.
  assert (E : exists g, g == f' /\ a = (qceil (n_float rnd (g - first) fs) - 1)%Z).
  { destruct (Qltb (f - first) 0) eqn:A2.
    - apply Qltb_true in A2. exists first. split; [unfold f'; rewrite Q.max_r by lra; reflexivity|]. injection H as <-. rewrite to_n_samples_by. reflexivity.
    - apply Qltb_false in A2. exists f. split; [unfold f'; rewrite Q.max_l by lra; reflexivity|]. injection H as <-. rewrite to_n_samples_by. reflexivity. }
  destruct E as (g & Eg & Ea). split.
  - intros L. assert (N : n_float rnd (g - first) fs == 1). { apply (n_float_zero G). rewrite Eg. unfold f'. rewrite Q.max_r by exact L. ring. }
    rewrite Ea. unfold qceil. rewrite (Qceiling_comp _ _ N). reflexivity.
  - intros j. assert (K : (a <= j)%Z <-> n_float rnd (g - first) fs <= inject_Z (j + 1)) by (rewrite <- ceil_le; lia).
    rewrite inject_Z_plus in K. change (inject_Z 1) with 1 in K.
    assert (D0 : 0 <= g - first) by lra.
    destruct (n_float_rel G (g - first) fs D0 ltac:(lra)) as [N1 N2]. set (n := n_float rnd (g - first) fs) in *.
    assert (X0 : 0 <= (g - first) * fs) by nra.
    assert (EX : (g - first) * fs == (f' - first) * fs) by (rewrite Eg; reflexivity).
    pose proof (slack_scaled first fs f' F) as SS. pose proof (nominal_scaled first fs j F) as NS.
    set (x := (g - first) * fs) in *. rewrite <- EX in SS. clearbody n. unfold uu in *.
    split.
    + intros HJ. apply K. apply (scaled_le fs _ _ F) in HJ.
      assert (H1 : nominal first fs j * fs == inject_Z j + first * fs) by lra.
      assert (H2 : (f' + slack first fs f') * fs == f' * fs + slack first fs f' * fs) by ring.
      assert (H3 : x == f' * fs - first * fs) by (rewrite EX; ring). lra.
    + intros HJ. apply K in HJ. apply (scaled_le fs _ _ F).
      assert (H1 : nominal first fs j * fs == inject_Z j + first * fs) by lra.
      assert (H2 : (f' - slack first fs f') * fs == f' * fs - slack first fs f' * fs) by ring.
      assert (H3 : x == f' * fs - first * fs) by (rewrite EX; ring). lra.
Qed.

Lemma to_time_kept {rnd} (G : good_rnd rnd) fs first last t b : 0 < fs -> first <= last -> to_time_to_sample rnd fs first last t = Ok b -> forall j,
  (nominal first fs j <= Qmin t last - slack first fs (Qmin t last) -> (j <= b)%Z) /\
  ((j <= b)%Z -> nominal first fs j <= Qmin t last + slack first fs (Qmin t last)).
Proof.
  intros F FL H j. unfold to_time_to_sample, check_to_time, bind in H.
  destruct (Qltb t first) eqn:A1; [discriminate|]. apply Qltb_false in A1.
  set (t' := Qmin t last). assert (T' : first <= t') by (apply Q.min_glb; assumption).
  assert (E : exists g, g == t' /\ b = (qfloor (n_float rnd (g - first) fs) - 1)%Z).
  { destruct (Qltb (last - t) 0) eqn:A2.
    - apply Qltb_true in A2. exists last. split; [unfold t'; rewrite Q.min_r by lra; reflexivity|]. injection H as <-. rewrite to_n_samples_by. reflexivity.
    - apply Qltb_false in A2. exists t. split; [unfold t'; rewrite Q.min_l by lra; reflexivity|]. injection H as <-. rewrite to_n_samples_by. reflexivity. }
  destruct E as (g & Eg & Ea).
  assert (K : (j <= b)%Z <-> inject_Z (j + 1) <= n_float rnd (g - first) fs) by (rewrite <- le_floor; lia).
  rewrite inject_Z_plus in K. change (inject_Z 1) with 1 in K.
  assert (D0 : 0 <= g - first) by lra.
  destruct (n_float_rel G (g - first) fs D0 ltac:(lra)) as [N1 N2]. set (n := n_float rnd (g - first) fs) in *.
  assert (X0 : 0 <= (g - first) * fs) by nra.
  assert (EX : (g - first) * fs == (t' - first) * fs) by (rewrite Eg; reflexivity).
  pose proof (slack_scaled first fs t' F) as SS. pose proof (nominal_scaled first fs j F) as NS.
  set (x := (g - first) * fs) in *. rewrite <- EX in SS. clearbody n. unfold uu in *.
  assert (H1 : nominal first fs j * fs == inject_Z j + first * fs) by lra.
  assert (H3 : x == t' * fs - first * fs) by (rewrite EX; ring).
  split.
  - intros HJ. apply K. apply (scaled_le fs _ _ F) in HJ.
    assert (H2 : (t' - slack first fs t') * fs == t' * fs - slack first fs t' * fs) by ring. lra.
  - intros HJ. apply K in HJ. apply (scaled_le fs _ _ F).
    assert (H2 : (t' + slack first fs t') * fs == t' * fs + slack first fs t' * fs) by ring. lra.
Qed.

Theorem c10_rounded : forall rnd td f t, good_rnd rnd -> 0 < fs (meta td) -> (1 <= n_samples (meta td) <= 2 ^ 49 - 1)%Z -> consistent rnd td ->
  let first := first_time (meta td) in let n := n_samples (meta td) in let F := fs (meta td) in
  let f' := Qmax f first in let t' := Qmin t (last_time (meta td)) in
  let surely_inside j := f' + slack first F f' <= nominal first F j /\ nominal first F j <= t' - slack first F t' in
  let nearly_inside j := f' - slack first F f' <= nominal first F j /\ nominal first F j <= t' + slack first F t' in
  (forall td', subsection rnd f t td = Ok td' -> exists a b, (0 <= a)%Z /\ (a < b)%Z /\ (b < n)%Z /\
     rows td' = map (slice a (b + 1)) (rows td) /\ n_samples (meta td') = (b - a + 1)%Z /\
     first_time (meta td') == stamp first (period rnd F) a /\ last_time (meta td') == stamp first (period rnd F) b /\
     (f <= first -> a = 0%Z) /\
     forall j, (0 <= j < n)%Z -> (surely_inside j -> (a <= j <= b)%Z) /\ ((a <= j <= b)%Z -> nearly_inside j)) /\
  (forall i j, (0 <= i < j)%Z -> (j < n)%Z -> f <= last_time (meta td) -> first <= t -> surely_inside i -> surely_inside j -> exists td', subsection rnd f t td = Ok td').
Proof.
  intros rnd td f t G F N C. cbv zeta. destruct C as (_ & _ & _ & _ & CL). set (m := meta td) in *.
  destruct (meta_span G m F N CL) as [FL _]. split.
  - intros td' H. destruct (subsection_inv _ _ _ _ _ H) as (a & b & Ha & Hb & L & ->). fold m in Ha, Hb.
    destruct (sub_indices G m f t a b F N CL Ha Hb) as [A0 B0].
    destruct (from_time_kept G _ _ _ _ _ F FL Ha) as [K0 K1]. pose proof (to_time_kept G _ _ _ _ _ F FL Hb) as K2.
    exists a, b. split; [exact A0|]. split; [exact L|]. split; [lia|]. split; [reflexivity|]. split; [reflexivity|]. split; [reflexivity|]. split.
    { cbn. unfold stamp, period. fold m. set (p := to_timedelta rnd (rnd (1 / fs m))). replace (b - a + 1 - 1)%Z with (b - a)%Z by lia.
      unfold Z.sub. rewrite inject_Z_plus, inject_Z_opp. ring. }
    split; [exact K0|]. intros j J. destruct (K1 j) as [P1 P2], (K2 j) as [Q1 Q2]. split.
    + intros [X Y]. split; [exact (P1 X)|exact (Q1 Y)].
    + intros [X Y]. split; [exact (P2 X)|exact (Q2 Y)].
  - intros i j IJ JN FLT FT [I1 I2] [J1 J2].
    assert (Ha : exists a, from_time_to_sample rnd (fs m) (first_time m) (last_time m) f = Ok a).
    { unfold from_time_to_sample, check_from_time, bind. destruct (Qltb (last_time m) f) eqn:E; [apply Qltb_true in E; exfalso; lra|].
      destruct (Qltb (f - first_time m) 0); eexists; reflexivity. }
    assert (Hb : exists b, to_time_to_sample rnd (fs m) (first_time m) (last_time m) t = Ok b).
    { unfold to_time_to_sample, check_to_time, bind. destruct (Qltb t (first_time m)) eqn:E; [apply Qltb_true in E; exfalso; lra|].
      destruct (Qltb (last_time m - t) 0); eexists; reflexivity. }
    destruct Ha as [a Ha], Hb as [b Hb].
    pose proof (proj1 (proj2 (from_time_kept G _ _ _ _ _ F FL Ha) i) I1) as Li.
    pose proof (proj1 (to_time_kept G _ _ _ _ _ F FL Hb j) J2) as Lj.
    eexists. apply (subsection_ok rnd f t td a b Ha Hb). lia.
Qed.

(** C24: the notch filter away from the ends *)
Lemma notch_valid {rnd} (G : good_rnd rnd) f band b m l : 0 < fs m -> rnd (fs m / 2) == fs m / 2 -> 2 <= fs m -> 0 <= b ->
  (band = Some b \/ band = None /\ b = rnd (rnd (1 # 10) * fs m)) ->
  rnd (b / 2) <= f -> f + rnd (b / 2) <= fs m / 2 ->
  notch_cutoffs rnd f band m = Ok l -> exists w1 w2, l = [w1; w2] /\ 0 <= w1 /\ w1 <= w2 /\ w2 <= 1.
Proof.
  intros Hf HN H1 Hb HB HL HU H. unfold notch_cutoffs in H. destruct (Qltb (nyquist rnd m) f) eqn:E; [discriminate|].
  assert (H' : Ok [rnd (rnd (f - rnd (b / 2)) / nyquist rnd m);
     (if Qltb (nyquist rnd m) (rnd (rnd (f + rnd (b / 2)) / nyquist rnd m)) then nyquist rnd m else rnd (rnd (f + rnd (b / 2)) / nyquist rnd m))] = Ok l).
  { destruct HB as [->|[-> ->]]; exact H. }
  clear H. injection H' as <-. unfold nyquist.
  assert (B2 : 0 <= rnd (b / 2)). { apply (gr_nonneg G). change (b / 2) with (b * (1 # 2)). lra. }
  set (h := rnd (b / 2)) in *. set (N := rnd (fs m / 2)) in *. change (fs m / 2) with (fs m * (1#2)) in *.
  assert (N1 : 1 <= N) by lra. assert (N0 : 0 < N) by lra.
  assert (L0 : 0 <= rnd (f - h)) by (apply (gr_nonneg G); lra).
  assert (LH : rnd (f - h) <= rnd (f + h)) by (apply (gr_mono _ G); lra).
  assert (HN' : rnd (f + h) <= N). { unfold N. apply (gr_mono _ G). exact HU. }
  assert (W1 : 0 <= rnd (rnd (f - h) / N)). { apply (gr_nonneg G). apply Qle_shift_div_l; lra. }
  assert (W2 : rnd (rnd (f - h) / N) <= rnd (rnd (f + h) / N)).
  { apply (gr_mono _ G). unfold Qdiv. apply Qmult_le_compat_r; [exact LH|]. apply Qinv_le_0_compat. lra. }
  assert (W3 : rnd (rnd (f + h) / N) <= 1).
  { rewrite <- (gr_int G 1 ltac:(lia)). apply (gr_mono _ G). change (inject_Z 1) with 1. apply Qle_shift_div_r; [exact N0|]. lra. }
  destruct (Qltb N (rnd (rnd (f + h) / N))) eqn:E2; [apply Qltb_true in E2; exfalso; lra|].
  eexists _, _. split; [reflexivity|]. auto.
Qed.
