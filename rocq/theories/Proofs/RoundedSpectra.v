(** The frequencies of the Fourier transform in rounded arithmetic (C40). *)
From Verif Require Import Base.Prelude Base.Rounding Base.ListUtil Base.NdArray Model.Sampling Model.Spectra Spec.Spectra
  Proofs.Sampling Proofs.SamplingFloat Proofs.ShiftFloat.
Open Scope list_scope.
Open Scope Q_scope.

Lemma rel_rnd {rnd} (G : good_rnd rnd) x : 0 <= x -> x * (1 - uu) <= rnd x /\ rnd x <= x * (1 + uu).
Proof. intros H. pose proof (gr_err _ G x) as E. rewrite (Qabs_pos x) in E by exact H. change (1 # 9007199254740992) with uu in E. apply abs_split in E. split; lra. Qed.
Lemma bracket (g : nat -> Q) f m : g 0%nat <= f -> f <= g (S m) -> exists i, (i <= m)%nat /\ g i <= f /\ f <= g (S i).
Proof.
  intros H0. induction m as [|m IH]; intros H1.
  - exists 0%nat. split; [lia|]. split; assumption.
  - destruct (Qlt_le_dec f (g (S m))) as [L|L].
    + destruct (IH (Qlt_le_weak _ _ L)) as (i & A & B & C). exists i. split; [lia|]. split; assumption.
    + exists (S m). split; [lia|]. split; assumption.
Qed.

Section Grid.
  Variables (rnd : Q -> Q) (n : Z) (fs : Q).
  Hypotheses (G : good_rnd rnd) (F : 0 < fs) (N1 : (1 <= n)%Z) (N2 : (n <= 2 ^ 50)%Z).
  Let den := rnd (inject_Z n * rnd (1 / fs)).
  Let a := rnd (1 / den).
  Let s := fs / inject_Z n.
  Lemma n_ge1 : 1 <= inject_Z n.
  Proof. change 1 with (inject_Z 1). rewrite <- Zle_Qle. exact N1. Qed.
  Lemma s_pos : 0 < s.
  Proof. pose proof n_ge1. unfold s. apply Qlt_shift_div_l; lra. Qed.
  Lemma den_pos : 0 < den.
  Proof.
    pose proof n_ge1 as N. assert (P : 0 < 1 / fs) by (apply Qlt_shift_div_l; lra).
    destruct (rel_rnd G (1 / fs) ltac:(lra)) as [A _]. assert (P1 : 0 < rnd (1 / fs)) by (unfold uu in A; lra).
    assert (P2 : 0 < inject_Z n * rnd (1 / fs)) by nra. destruct (rel_rnd G _ (Qlt_le_weak _ _ P2)) as [B _]. unfold den. unfold uu in B. lra.
  Qed.
  Lemma step_near : s * (1 - (35 # 10) * uu - uu * uu) <= a /\ a <= s * (1 + (35 # 10) * uu + 5 * uu * uu).
  Proof.
    pose proof n_ge1 as N. pose proof den_pos as D. pose proof s_pos as S.
    assert (P : 0 < 1 / fs) by (apply Qlt_shift_div_l; lra). destruct (rel_rnd G (1 / fs) ltac:(lra)) as [A1 A2]. set (d := rnd (1 / fs)) in *.
    assert (P1 : 0 < d) by (unfold uu in A1; lra).
    assert (P2 : 0 < inject_Z n * d) by nra. destruct (rel_rnd G _ (Qlt_le_weak _ _ P2)) as [B1 B2]. fold den in B1, B2.
    assert (W0 : 0 < 1 / den) by (apply Qlt_shift_div_l; lra). destruct (rel_rnd G (1 / den) ltac:(lra)) as [C1 C2]. fold a in C1, C2.
    set (w := 1 / den) in *. assert (Wd : w * den == 1) by (unfold w; field; lra).
    set (T := inject_Z n / fs). assert (Ts : T * s == 1) by (unfold T, s; field; split; lra).
    assert (T0 : 0 < T) by (unfold T; apply Qlt_shift_div_l; lra).
    assert (X1 : T * (1 - uu) * (1 - uu) <= den).
    { assert (Y : inject_Z n * (1 / fs * (1 - uu)) <= inject_Z n * d) by (rewrite !(Qmult_comm (inject_Z n)); apply Qmult_le_compat_r; [exact A1|lra]).
      assert (Y2 : inject_Z n * (1 / fs * (1 - uu)) == T * (1 - uu)) by (unfold T; field; lra). rewrite Y2 in Y.
      assert (M := Qmult_le_compat_r _ _ (1 - uu) Y ltac:(unfold uu; lra)). lra. }
    assert (X2 : den <= T * (1 + uu) * (1 + uu)).
    { assert (Y : inject_Z n * d <= inject_Z n * (1 / fs * (1 + uu))) by (rewrite !(Qmult_comm (inject_Z n)); apply Qmult_le_compat_r; [exact A2|lra]).
      assert (Y2 : inject_Z n * (1 / fs * (1 + uu)) == T * (1 + uu)) by (unfold T; field; lra). rewrite Y2 in Y.
      assert (M := Qmult_le_compat_r _ _ (1 + uu) Y ltac:(unfold uu; lra)). lra. }
    assert (sw : 0 <= s * w) by (apply Qmult_le_0_compat; lra).
    assert (Z1 := Qmult_le_compat_r _ _ (s * w) X1 sw). assert (Z2 := Qmult_le_compat_r _ _ (s * w) X2 sw).
    assert (E1 : den * (s * w) == s) by (rewrite (Qmult_comm s w), Qmult_assoc, (Qmult_comm den w), Wd; ring).
    assert (E2 : T * (1 - uu) * (1 - uu) * (s * w) == w * ((1 - uu) * (1 - uu))).
    { assert (Y : T * (1 - uu) * (1 - uu) * (s * w) == T * s * (w * ((1 - uu) * (1 - uu)))) by ring. rewrite Y, Ts. ring. }
    assert (E3 : T * (1 + uu) * (1 + uu) * (s * w) == w * ((1 + uu) * (1 + uu))).
    { assert (Y : T * (1 + uu) * (1 + uu) * (s * w) == T * s * (w * ((1 + uu) * (1 + uu)))) by ring. rewrite Y, Ts. ring. }
    rewrite E1, E2 in Z1. rewrite E1, E3 in Z2. clear E1 E2 E3 X1 X2 A1 A2 B1 B2.
    clearbody s w a. unfold uu in *. split; lra.
  Qed.
  Lemma a_pos : 0 < a.
  Proof. pose proof s_pos. destruct step_near as [A _]. unfold uu in A. lra. Qed.
  Lemma value_near k : (0 <= k)%Z -> Qabs (rnd (inject_Z k * a) - inject_Z k * s) <= inject_Z k * s * (5 * uu).
  Proof.
    intros K. assert (K' : 0 <= inject_Z k) by (change 0 with (inject_Z 0); rewrite <- Zle_Qle; exact K).
    pose proof a_pos as A0. pose proof s_pos as S0. destruct step_near as [A1 A2].
    assert (P : 0 <= inject_Z k * a) by (apply Qmult_le_0_compat; lra). destruct (rel_rnd G _ P) as [B1 B2].
    assert (M1 := Qmult_le_compat_r _ _ _ A1 K'). assert (M2 := Qmult_le_compat_r _ _ _ A2 K').
    set (ks := inject_Z k * s) in *. assert (KS : 0 <= ks) by (apply Qmult_le_0_compat; lra).
    set (v := rnd (inject_Z k * a)) in *. set (ka := inject_Z k * a) in *.
    assert (E1 : s * (1 - (35 # 10) * uu - uu * uu) * inject_Z k == ks * (1 - (35 # 10) * uu - uu * uu)) by (unfold ks; ring).
    assert (E2 : s * (1 + (35 # 10) * uu + 5 * uu * uu) * inject_Z k == ks * (1 + (35 # 10) * uu + 5 * uu * uu)) by (unfold ks; ring).
    rewrite E1 in M1. rewrite E2 in M2. rewrite (Qmult_comm a) in M1, M2. fold ka in M1, M2. clearbody ks v ka. apply abs_split. unfold uu in *. split; lra.
  Qed.
  Lemma value_mono i j : (0 <= i)%Z -> (i < j)%Z -> (j <= n)%Z -> rnd (inject_Z i * a) < rnd (inject_Z j * a).
  Proof.
    intros I J Jn. assert (I' : 0 <= inject_Z i) by (change 0 with (inject_Z 0); rewrite <- Zle_Qle; exact I).
    assert (J' : inject_Z i + 1 <= inject_Z j). { change 1 with (inject_Z 1). rewrite <- inject_Z_plus, <- Zle_Qle. lia. }
    assert (B : inject_Z j <= 1125899906842624 # 1) by (change (1125899906842624 # 1) with (inject_Z (2 ^ 50)); rewrite <- Zle_Qle; lia).
    pose proof a_pos as A0. assert (Pi : 0 <= inject_Z i * a) by (apply Qmult_le_0_compat; lra). assert (Pj : 0 <= inject_Z j * a) by (apply Qmult_le_0_compat; lra).
    destruct (rel_rnd G _ Pi) as [_ B1]. destruct (rel_rnd G _ Pj) as [B2 _].
    assert (M1 : (inject_Z i + 1) * a <= inject_Z j * a) by (apply Qmult_le_compat_r; lra).
    assert (M2 : inject_Z j * a <= (1125899906842624 # 1) * a) by (apply Qmult_le_compat_r; lra).
    set (x := inject_Z i * a) in *. set (y := inject_Z j * a) in *.
    assert (E : (inject_Z i + 1) * a == x + a) by (unfold x; ring). rewrite E in M1. clearbody x y. unfold uu in *. lra.
  Qed.
  Lemma grid_rounded : exists freqs, rfft_freqs rnd n fs = Ok freqs /\ ascending freqs /\ length freqs = Z.to_nat (n / 2 + 1) /\
    forall i f, nth_error freqs i = Some f -> Qabs (f - inject_Z (Z.of_nat i) * (fs / inject_Z n)) <= inject_Z (Z.of_nat i) * (fs / inject_Z n) * (5 * uu).
  Proof.
    unfold rfft_freqs. destruct (Qeq_bool fs 0) eqn:E; [apply Qeq_bool_iff in E; lra|]. fold den.
    destruct (Qeq_bool den 0) eqn:E2; [apply Qeq_bool_iff in E2; pose proof den_pos; lra|]. fold a. eexists. split; [reflexivity|].
    assert (Nth : forall i f, nth_error (map (fun k => rnd (inject_Z k * a)) (arange (n / 2 + 1))) i = Some f -> (Z.of_nat i < n / 2 + 1)%Z /\ f = rnd (inject_Z (Z.of_nat i) * a)).
    { intros i f Hi. assert (L : (i < length (map (fun k => rnd (inject_Z k * a)) (arange (n / 2 + 1))))%nat) by (apply nth_error_Some; congruence).
      rewrite map_length, arange_length in L. split; [lia|]. rewrite nth_error_map in Hi. rewrite <- (Nat2Z.id i) in Hi. rewrite arange_nth in Hi by lia.
      cbn [option_map] in Hi. rewrite Z2Nat.id in Hi by lia. congruence. }
    split; [|split; [rewrite map_length, arange_length; reflexivity|]].
    - intros i j x y L Hi Hj. destruct (Nth _ _ Hi) as [_ ->]. destruct (Nth _ _ Hj) as [Lj ->]. apply value_mono; [lia|lia|].
      assert (n / 2 + 1 <= n + 1)%Z by (pose proof (Z.div_le_upper_bound n 2 n ltac:(lia) ltac:(lia)); lia). lia.
    - intros i f Hi. destruct (Nth _ _ Hi) as [_ ->]. apply value_near. lia.
  Qed.
End Grid.

Lemma grid_covers_rounded rnd n fs freqs f : good_rnd rnd -> 0 < fs -> (2 <= n)%Z -> (n <= 2 ^ 50)%Z -> rfft_freqs rnd n fs = Ok freqs -> 0 <= f -> f <= fs / 4 ->
  exists i a b, nth_error freqs i = Some a /\ nth_error freqs (S i) = Some b /\ a <= f /\ f <= b /\ Qabs (b - a - fs / inject_Z n) <= fs * (5 * uu).
Proof.
  intros G F N N2 H F0 F1. destruct (grid_rounded rnd n fs G F ltac:(lia) N2) as (l & E & As & L & V). rewrite H in E. assert (l = freqs) by congruence. subst l.
  assert (D : (2 * (n / 2) <= n /\ n <= 2 * (n / 2) + 1)%Z) by (pose proof (Z.div_mod n 2 ltac:(lia)); pose proof (Z.mod_pos_bound n 2 ltac:(lia)); lia).
  assert (Pn : 2 <= inject_Z n) by (change 2 with (inject_Z 2); rewrite <- Zle_Qle; exact N).
  set (m := (Z.to_nat (n / 2) - 1)%nat). assert (Lm : length freqs = S (S m)) by (rewrite L; unfold m; lia).
  set (g := fun i => nth i freqs 0).
  assert (Hg : forall i, (i <= S m)%nat -> nth_error freqs i = Some (g i)) by (intros i Hi; apply nth_error_nth'; lia).
  set (s := fs / inject_Z n) in *. assert (S0 : 0 < s) by (unfold s; apply Qlt_shift_div_l; lra).
  assert (Es : s * inject_Z n == fs) by (unfold s; field; lra).
  assert (V' : forall i, (i <= S m)%nat -> Qabs (g i - inject_Z (Z.of_nat i) * s) <= inject_Z (Z.of_nat i) * s * (5 * uu)) by (intros i Hi; exact (V _ _ (Hg i Hi))).
  destruct (bracket g f m) as (i & Im & A & B).
  - pose proof (V' 0%nat ltac:(lia)) as T. apply abs_split in T. change (inject_Z (Z.of_nat 0)) with 0 in T. unfold uu in T. lra.
  - pose proof (V' (S m) ltac:(lia)) as T. apply abs_split in T. destruct T as [T _]. set (k := inject_Z (Z.of_nat (S m))) in *.
    assert (K : inject_Z n <= 3 * k). { unfold k. change 3 with (inject_Z 3). rewrite <- inject_Z_mult, <- Zle_Qle. unfold m. lia. }
    assert (M := Qmult_le_compat_r _ _ s K ltac:(lra)). rewrite (Qmult_comm (inject_Z n)), Es in M. assert (X : fs <= 3 * (k * s)) by (rewrite Qmult_assoc; exact M). assert (Q4 : fs / 4 == fs * (1 # 4)) by field. rewrite Q4 in F1. clearbody k s. unfold uu in T. lra.
  - exists i, (g i), (g (S i)). split; [apply Hg; lia|]. split; [apply Hg; lia|]. split; [exact A|]. split; [exact B|].
    pose proof (V' i ltac:(lia)) as T1. pose proof (V' (S i) ltac:(lia)) as T2. apply abs_split in T1, T2. apply abs_split.
    rewrite Nat2Z.inj_succ in T2. unfold Z.succ in T2. rewrite inject_Z_plus in T2. change (inject_Z 1) with 1 in T2. set (k := inject_Z (Z.of_nat i)) in *.
    assert (K : 2 * k + 1 <= inject_Z n). { unfold k. change 2 with (inject_Z 2). change 1 with (inject_Z 1). rewrite <- inject_Z_mult, <- inject_Z_plus, <- Zle_Qle. unfold m in Im. lia. }
    assert (M := Qmult_le_compat_r _ _ s K ltac:(lra)). rewrite (Qmult_comm (inject_Z n)), Es in M.
    assert (X1 : (k + 1) * s == k * s + s) by ring. rewrite X1 in T2. set (ks := k * s) in *. assert (X2 : (2 * k + 1) * s == 2 * ks + s) by (unfold ks; ring). rewrite X2 in M.
    clearbody ks s. unfold uu in *. split; lra.
Qed.
