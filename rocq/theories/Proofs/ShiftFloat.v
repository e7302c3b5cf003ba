(** C20: the error of shifting timestamps in rounded arithmetic *)
From Coq Require Import String.
From Verif Require Import Base.Prelude Base.Rounding Base.B32 Base.Precision Base.ListUtil Model.Sampling Model.Time
  Spec.Sampling Spec.Time Proofs.Sampling Proofs.TimeMeta Proofs.TimeProc Proofs.TimeData Proofs.TimeData2 Proofs.Shift32.
Open Scope Q_scope.

Lemma tri x y z : Qabs (x - z) <= Qabs (x - y) + Qabs (y - z).
Proof. assert (E : x - z == (x - y) + (y - z)) by ring. rewrite E. apply Qabs_triangle. Qed.
Lemma abs_le_of x y b : Qabs (x - y) <= b -> Qabs x <= Qabs y + b.
Proof. intros H. assert (E : x == (x - y) + y) by ring. rewrite E. pose proof (Qabs_triangle (x - y) y). lra. Qed.
Lemma abs_split x b : Qabs x <= b <-> - b <= x /\ x <= b.
Proof. apply Qabs_Qle_condition. Qed.

Section Chain.
  Variables (r : Q -> Q) (p : Z).
  Hypothesis P : precision p r.
  Let U := pow2 (- p).
  Hypothesis U0 : 0 < U.
  Hypothesis U1 : U <= 1 # 64.

  Lemma r_err x : Qabs (r x - x) <= Qabs x * U.
  Proof. apply (pr_err _ _ P). Qed.

  Lemma chain D one t g a q K : one == 1 -> 0 <= g -> g <= 1 -> Qabs (g - t) <= K * U -> 0 <= K ->
    q = r (r D / one) -> Qabs (r (r (q * g) + a) - (a + D * t)) <= Qabs D * ((K + 7) * U) + Qabs a * U.
  Proof.
    intros H1 G0 G1 Gt K0 ->. pose proof (Qabs_nonneg D) as D0. pose proof (Qabs_nonneg a) as A0.
    set (q := r (r D / one)). set (d := r D).
    assert (Ed : Qabs (d - D) <= Qabs D * U) by apply r_err.
    assert (Eq0 : d / one == d) by (rewrite H1; field).
    assert (Eq : Qabs (q - d) <= Qabs d * U).
    { pose proof (r_err (d / one)) as E. change (r (d / one)) with q in E. revert E Eq0. generalize (d / one). intros y E Ey.
      rewrite Ey in E. exact E. }
    assert (Bd : Qabs d <= Qabs D + Qabs D * U) by (apply abs_le_of; exact Ed).
    set (A := Qabs D) in *. set (V := Qabs a) in *.
    assert (AU : 0 <= A * U) by (apply Qmult_le_0_compat; lra).
    assert (VU : 0 <= V * U) by (apply Qmult_le_0_compat; lra).
    assert (AUU : A * U * U <= A * U * (1 # 64)) by (rewrite !(Qmult_comm (A * U)); apply Qmult_le_compat_r; lra).
    assert (AUU0 : 0 <= A * U * U) by (apply Qmult_le_0_compat; lra).
    assert (AK : 0 <= A * K) by (apply Qmult_le_0_compat; lra).
    assert (MU : forall y z, y <= z -> y * U <= z * U) by (intros; apply Qmult_le_compat_r; lra).
    assert (EqD : Qabs (q - D) <= A * (3 * U)).
    { pose proof (tri q d D). pose proof (MU _ _ Bd). lra. }
    assert (Bq : Qabs q <= A + A * (3 * U)) by (apply abs_le_of; exact EqD).
    assert (Eg : Qabs (q * g - D * t) <= A * ((K + 3) * U)).
    { assert (E : q * g - D * t == (q - D) * g + D * (g - t)) by ring. rewrite E.
      pose proof (Qabs_triangle ((q - D) * g) (D * (g - t))) as T. rewrite !Qabs_Qmult in T. rewrite (Qabs_pos g) in T by exact G0.
      pose proof (Qabs_nonneg (q - D)) as N. change (Qabs D) with A in T.
      assert (T1 : Qabs (q - D) * g <= Qabs (q - D) * 1) by (rewrite !(Qmult_comm (Qabs (q - D))); apply Qmult_le_compat_r; assumption).
      assert (T2 : A * Qabs (g - t) <= A * (K * U)) by (rewrite !(Qmult_comm A); apply Qmult_le_compat_r; assumption). lra. }
    set (m := r (q * g)). assert (Em : Qabs (m - q * g) <= Qabs (q * g) * U) by apply r_err.
    assert (Bg : Qabs (q * g) <= A * (1 + 3 * U)).
    { rewrite Qabs_Qmult, (Qabs_pos g) by exact G0. pose proof (Qabs_nonneg q) as N.
      assert (T1 : Qabs q * g <= Qabs q * 1) by (rewrite !(Qmult_comm (Qabs q)); apply Qmult_le_compat_r; assumption). lra. }
    assert (Em2 : Qabs (m - q * g) <= A * (2 * U)).
    { pose proof (MU _ _ Bg). lra. }
    assert (EmD : Qabs (m - D * t) <= A * ((K + 5) * U)).
    { pose proof (tri m (q * g) (D * t)). lra. }
    assert (A64 : A * U <= A * (1 # 64)) by (rewrite !(Qmult_comm A); apply Qmult_le_compat_r; assumption).
    assert (Bm : Qabs m <= A * 2).
    { pose proof (abs_le_of _ _ _ Em2). lra. }
    pose proof (r_err (m + a)) as Ev. pose proof (Qabs_triangle m a) as Tm. change (Qabs a) with V in Tm.
    assert (Ev2 : Qabs (r (m + a) - (m + a)) <= A * (2 * U) + V * U).
    { assert (B : Qabs (m + a) <= A * 2 + V) by lra. pose proof (MU _ _ B). lra. }
    assert (E3 : (m + a) - (a + D * t) == m - D * t) by ring.
    pose proof (tri (r (m + a)) (m + a) (a + D * t)) as T. rewrite E3 in T. lra.
  Qed.

  Lemma r_int k : (Z.abs k <= 2 ^ p)%Z -> r (inject_Z k) == inject_Z k.
  Proof. apply (pr_int _ _ P). Qed.

  (** the position between samples k and k + 1 *)
  Lemma position k th t : (0 <= k)%Z -> (k + 1 <= 2 ^ p)%Z -> 0 <= th -> th <= 1 -> Qabs (th - t) <= 5 * U -> (inject_Z k + 1) * U < th ->
    let x := r (r (inject_Z k) + th) in
    inject_Z k < x /\ x <= inject_Z k + 1 /\ Qabs (x - inject_Z k - t) <= (inject_Z k + 6) * U.
  Proof.
    intros Hk Hp T0 T1 Ht Hs x. assert (K0 : 0 <= inject_Z k) by (change 0 with (inject_Z 0); rewrite <- inject_Z_le; exact Hk).
    assert (E : r (inject_Z k) + th == inject_Z k + th) by (rewrite r_int by lia; reflexivity).
    assert (X : x == r (inject_Z k + th)) by (apply (pr_comp _ _ P); exact E).
    assert (Er : Qabs (x - (inject_Z k + th)) <= (inject_Z k + 1) * U).
    { rewrite X. eapply Qle_trans; [apply r_err|]. rewrite Qabs_pos by lra. nra. }
    split; [|split].
    - apply abs_split in Er. lra.
    - rewrite X. assert (L : inject_Z k + th <= inject_Z (k + 1)) by (rewrite inject_Z_plus; change (inject_Z 1) with 1; lra).
      apply (pr_mono _ _ P) in L. rewrite (r_int (k + 1)) in L by lia. rewrite inject_Z_plus in L. exact L.
    - apply abs_split in Er. apply abs_split in Ht. apply abs_split. lra.
  Qed.
End Chain.

Lemma arange_rounded r p n : precision p r -> (n <= 2 ^ p)%Z ->
  Forall2 Qeq (map (fun k => r (inject_Z k)) (arange n)) (map (fun k => exact (inject_Z k)) (arange n)).
Proof.
  intros P Hn. assert (F : forall k, In k (arange n) -> (Z.abs k <= 2 ^ p)%Z).
  { intros k Hk. unfold arange in Hk. apply in_map_iff in Hk. destruct Hk as (i & <- & Hi). apply in_seq in Hi. lia. }
  induction (arange n) as [|k t IH]; cbn [map]; constructor.
  - apply (pr_int _ _ P). apply F. left; reflexivity.
  - apply IH. intros; apply F; right; assumption.
Qed.

Lemma interp_rounded r p n (row : list cell) k x t a b : precision p r -> pow2 (- p) <= 1 # 64 -> (0 <= k)%Z -> (k + 1 < n)%Z -> (n <= 2 ^ p)%Z ->
  inject_Z k < x -> x <= inject_Z k + 1 -> Qabs (x - inject_Z k - t) <= (inject_Z k + 6) * pow2 (- p) ->
  nth_error row (Z.to_nat k) = Some (Some a) -> nth_error row (Z.to_nat (k + 1)) = Some (Some b) ->
  exists v, interp1d r (map (fun k => r (inject_Z k)) (arange n)) row x = Some v /\
    Qabs (v - (a + (b - a) * t)) <= Qabs (b - a) * ((inject_Z k + 14) * pow2 (- p)) + Qabs a * pow2 (- p).
Proof.
  intros P U1 Hk Hn Hb X0 X1 Xt Ha Hc. pose proof (pow2_pos (- p)) as U0. unfold interp1d.
  rewrite (count_below_ext _ _ x (arange_rounded r p n P Hb)).
  assert (CB : count_below (map (fun k => exact (inject_Z k)) (arange n)) x = Z.to_nat (k + 1)).
  { rewrite (count_below_comp _ x (inject_Z k + (x - inject_Z k))) by ring.
    pose proof (count_below_arange n k (x - inject_Z k) Hk ltac:(lia) ltac:(lra) ltac:(lra) 0%Z ltac:(lia)) as C.
    rewrite Z.sub_0_r in C. unfold arange. rewrite Z.sub_0_r in C. exact C. }
  rewrite CB, map_length, arange_length.
  replace (Nat.max 1 (Nat.min (Z.to_nat (k + 1)) (Z.to_nat n - 1))) with (Z.to_nat (k + 1)) by lia.
  replace (Z.to_nat (k + 1) - 1)%nat with (Z.to_nat k) by lia.
  rewrite !nth_error_map, !arange_nth by lia. cbn [option_map]. rewrite Ha, Hc, !Z2Nat.id by lia.
  eexists. split; [reflexivity|].
  assert (Ek : r (inject_Z k) == inject_Z k) by (apply (pr_int _ _ P); lia).
  assert (Ek1 : r (inject_Z (k + 1)) == inject_Z k + 1) by (rewrite (pr_int _ _ P) by lia; rewrite inject_Z_plus; reflexivity).
  assert (One : r (r (inject_Z (k + 1)) - r (inject_Z k)) == 1).
  { assert (E : r (inject_Z (k + 1)) - r (inject_Z k) == inject_Z 1) by (rewrite Ek, Ek1; change (inject_Z 1) with 1; ring).
    rewrite (pr_comp _ _ P _ _ E). apply (pr_int _ _ P). cbn. pose proof (Z.pow_pos_nonneg 2 p ltac:(lia)).
    destruct (Z_le_gt_dec 0 p); [specialize (H ltac:(lia)); lia|]. rewrite Z.pow_neg_r in Hb by lia. lia. }
  set (K0 := inject_Z k) in *. assert (K0p : 0 <= K0) by (unfold K0; change 0 with (inject_Z 0); rewrite <- inject_Z_le; exact Hk).
  set (g := r (x - r K0)).
  assert (Eg : g == r (x - K0)) by (apply (pr_comp _ _ P); rewrite Ek; reflexivity).
  assert (Er : Qabs (g - (x - K0)) <= 1 * pow2 (- p)).
  { rewrite Eg. eapply Qle_trans; [apply (pr_err _ _ P)|]. rewrite Qabs_pos by lra. apply Qmult_le_compat_r; lra. }
  assert (R1 : r 1 == 1).
  { change 1 with (inject_Z 1). apply (pr_int _ _ P). cbn. destruct (Z_le_gt_dec 0 p); [pose proof (Z.pow_pos_nonneg 2 p ltac:(lia) ltac:(lia)); lia|]. rewrite Z.pow_neg_r in Hb by lia. lia. }
  assert (R0 : r 0 == 0).
  { change 0 with (inject_Z 0). apply (pr_int _ _ P). cbn. apply Z.pow_nonneg. lia. }
  assert (G0 : 0 <= g). { rewrite Eg. rewrite <- R0. apply (pr_mono _ _ P). lra. }
  assert (G1 : g <= 1). { rewrite Eg. rewrite <- R1. apply (pr_mono _ _ P). lra. }
  assert (Gt : Qabs (g - t) <= (K0 + 7) * pow2 (- p)).
  { apply abs_split in Er. apply abs_split in Xt. apply abs_split. lra. }
  pose proof (chain r p P U0 U1 (b - a) (r (r (inject_Z (k + 1)) - r K0)) t g a _ (K0 + 7) One G0 G1 Gt ltac:(lra) eq_refl) as C.
  eapply Qle_trans; [exact C|]. apply Qplus_le_l. 
  assert (E : (K0 + 7 + 7) * pow2 (- p) == (K0 + 14) * pow2 (- p)) by ring. rewrite E. apply Qle_refl.
Qed.

Lemma norm_shift_spec rnd r p s fs : good_rnd rnd -> precision p r -> (6 <= p <= 53)%Z -> 0 < fs -> 0 < s -> s < rnd (1 / fs) ->
  let th := r (rnd (s / rnd (1 / fs))) in
  0 <= th /\ th <= 1 /\ Qabs (th - s * fs) <= 5 * pow2 (- p) /\ s * fs * (7 # 8) <= th.
Proof.
  intros G P Hp Hf Hs Hd th. set (U := pow2 (- p)). set (c := 1 / fs) in *. set (d := rnd c) in *.
  assert (C0 : 0 < c) by (unfold c; apply Qlt_shift_div_l; lra).
  assert (U0 : 0 < U) by apply pow2_pos.
  assert (U1 : U <= 1 # 64) by (unfold U; change (1 # 64) with (pow2 (-6)); apply pow2_le; lia).
  assert (Uu : (1 # 9007199254740992) <= U) by (unfold U; change (1 # 9007199254740992) with (pow2 (-53)); apply pow2_le; lia).
  assert (Ed : Qabs (d - c) <= c * U).
  { eapply Qle_trans; [apply (gr_err _ G)|]. rewrite Qabs_pos by lra. rewrite !(Qmult_comm c). apply Qmult_le_compat_r; lra. }
  assert (D0 : 0 < d) by (unfold d in *; lra).
  set (y := s / d). assert (Y0 : 0 < y) by (apply Qlt_shift_div_l; lra).
  assert (Y1 : y < 1) by (apply Qlt_shift_div_r; lra).
  assert (Et : s * fs == y * (d / c)).
  { unfold y, c. field. split; lra. }
  assert (Eq1 : Qabs (d / c - 1) <= U).
  { assert (E : d / c - 1 == (d - c) / c) by (field; lra). rewrite E.
    unfold Qdiv. rewrite Qabs_Qmult. rewrite (Qabs_pos (/ c)) by (apply Qinv_le_0_compat; lra).
    apply Qle_trans with (c * U * / c); [apply Qmult_le_compat_r; [exact Ed|apply Qinv_le_0_compat; lra]|].
    assert (X : c * U * / c == U) by (field; lra). lra. }
  set (t := s * fs) in *. set (w := d / c) in *. apply abs_split in Eq1.
  assert (YU : y * U <= 1 * U) by (apply Qmult_le_compat_r; lra).
  assert (YU0 : 0 <= y * U) by (apply Qmult_le_0_compat; lra).
  assert (W1 : y * (w - 1) <= y * U) by (rewrite !(Qmult_comm y); apply Qmult_le_compat_r; lra).
  assert (W2 : y * (- U) <= y * (w - 1)) by (rewrite !(Qmult_comm y); apply Qmult_le_compat_r; lra).
  assert (T1 : t - y <= y * U /\ - (y * U) <= t - y) by (rewrite Et; split; lra).
  set (n := rnd y).
  assert (N0 : 0 <= n) by (apply (gr_nonneg G); lra).
  assert (N1 : n <= 1). { rewrite <- (gr_int G 1 ltac:(cbn; lia)). apply (gr_mono _ G). change (inject_Z 1) with 1. lra. }
  assert (En : Qabs (n - y) <= y * U).
  { eapply Qle_trans; [apply (gr_err _ G)|]. rewrite Qabs_pos by lra. rewrite !(Qmult_comm y). apply Qmult_le_compat_r; lra. }
  assert (Eh : Qabs (th - n) <= n * U).
  { unfold th. change (rnd (s / d)) with n. eapply Qle_trans; [apply (pr_err _ _ P)|]. rewrite Qabs_pos by lra. apply Qle_refl. }
  apply abs_split in En. apply abs_split in Eh.
  assert (NU : n * U <= (y + y * U) * U) by (apply Qmult_le_compat_r; lra).
  assert (YUU : y * U * U <= y * U * (1 # 64)) by (rewrite !(Qmult_comm (y * U)); apply Qmult_le_compat_r; lra).
  assert (P2 : (1 <= 2 ^ p)%Z) by (pose proof (Z.pow_pos_nonneg 2 p ltac:(lia) ltac:(lia)); lia).
  split; [|split; [|split]].
  - unfold th. change (rnd (s / d)) with n. assert (R0 : r 0 == 0) by (change 0 with (inject_Z 0); apply (pr_int _ _ P); cbn; lia).
    rewrite <- R0. apply (pr_mono _ _ P). exact N0.
  - unfold th. change (rnd (s / d)) with n. assert (R1 : r 1 == 1) by (change 1 with (inject_Z 1); apply (pr_int _ _ P); cbn; lia).
    rewrite <- R1. apply (pr_mono _ _ P). exact N1.
  - apply abs_split. split; lra.
  - assert (Y64 : y * U <= y * (1 # 64)) by (rewrite !(Qmult_comm y); apply Qmult_le_compat_r; lra). lra.
Qed.

Lemma shift_rounded rnd drnd p s td td' : good_rnd rnd -> precision p drnd -> (6 <= p <= 53)%Z -> 0 < fs (meta td) -> 0 < s -> consistent rnd td ->
  (n_samples (meta td) <= 2 ^ p)%Z -> inject_Z (n_samples (meta td)) * pow2 (1 - p) <= s * fs (meta td) ->
  shift_timestamps rnd drnd s td = Ok td' ->
  forall i r r' k a b M, nth_error (rows td) i = Some r -> nth_error (rows td') i = Some r' ->
    nth_error r k = Some (Some a) -> nth_error r (Datatypes.S k) = Some (Some b) -> Qabs a <= M -> Qabs b <= M ->
    exists v, nth_error r' k = Some (Some v) /\ Qabs (v - (a + (b - a) * (s * fs (meta td)))) <= M * (inject_Z (Z.of_nat k) + 15) * pow2 (1 - p).
Proof.
  intros G P Hp Hfs Hs C Hn Hlost H i r r' k a b M Hi Hi' Ha Hb Ma Mb. unfold shift_timestamps, dt in H.
  destruct (Qle_bool (rnd (1 / fs (meta td))) s) eqn:E; [discriminate|]. apply Qle_bool_false in E.
  destruct (Z.ltb_spec (n_samples (meta td)) 2) as [|Hn2]; [discriminate|]. injection H as <-.
  cbn [meta new_time_data with_history adjust_time_metadata n_samples fs first_time rows] in Hi'.
  rewrite nth_error_map, Hi in Hi'. cbn [option_map] in Hi'. injection Hi' as <-.
  destruct C as (_ & _ & _ & Cn & _). specialize (Cn r (nth_error_In _ _ Hi)).
  assert (K : (Datatypes.S k < length r)%nat) by (apply nth_error_Some; congruence).
  destruct (norm_shift_spec rnd drnd p s (fs (meta td)) G P Hp Hfs Hs E) as (T0 & T1 & Tt & Tl).
  set (th := drnd (rnd (s / rnd (1 / fs (meta td))))) in *. set (t := s * fs (meta td)) in *.
  assert (U1 : pow2 (- p) <= 1 # 64) by (change (1 # 64) with (pow2 (-6)); apply pow2_le; lia).
  assert (E2 : pow2 (1 - p) == 2 * pow2 (- p)).
  { unfold Z.sub. rewrite pow2_plus. change (pow2 1) with 2. reflexivity. }
  pose proof (pow2_pos (- p)) as U0. set (U := pow2 (- p)) in *.
  set (Kq := inject_Z (Z.of_nat k)). assert (K0 : 0 <= Kq) by (unfold Kq; change 0 with (inject_Z 0); rewrite <- inject_Z_le; lia).
  assert (Kn : Kq + 2 <= inject_Z (n_samples (meta td))).
  { unfold Kq. change 2 with (inject_Z 2). rewrite <- inject_Z_plus, <- inject_Z_le. lia. }
  assert (L : (Kq + 1) * U < th).
  { rewrite E2 in Hlost. assert ((Kq + 2) * (2 * U) <= inject_Z (n_samples (meta td)) * (2 * U)) by (apply Qmult_le_compat_r; lra).
    assert (0 <= Kq * U) by (apply Qmult_le_0_compat; lra). lra. }
  destruct (position drnd p P U0 (Z.of_nat k) th t ltac:(lia) ltac:(lia) T0 T1 Tt L) as (X0 & X1 & Xt).
  rewrite nth_error_map, nth_error_map, arange_nth by lia. cbn [option_map].
  destruct (interp_rounded drnd p (n_samples (meta td)) r (Z.of_nat k) _ t a b P U1 ltac:(lia) ltac:(lia) Hn X0 X1 Xt) as (v & E3 & E4).
  { rewrite Nat2Z.id. exact Ha. } { replace (Z.to_nat (Z.of_nat k + 1)) with (Datatypes.S k) by lia. exact Hb. }
  exists v. split; [f_equal; exact E3|]. eapply Qle_trans; [exact E4|]. fold Kq U. rewrite E2.
  assert (D : Qabs (b - a) <= 2 * M).
  { assert (Eb : b - a == b + - a) by ring. rewrite Eb. pose proof (Qabs_triangle b (- a)) as T. rewrite Qabs_opp in T. lra. }
  assert (W : 0 <= (Kq + 14) * U) by (apply Qmult_le_0_compat; lra).
  assert (Qabs (b - a) * ((Kq + 14) * U) <= 2 * M * ((Kq + 14) * U)) by (apply Qmult_le_compat_r; assumption).
  assert (Qabs a * U <= M * U) by (apply Qmult_le_compat_r; lra).
  assert (0 <= M * U) by (pose proof (Qabs_nonneg a); apply Qmult_le_0_compat; lra). lra.
Qed.
