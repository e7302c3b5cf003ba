(** Timestamps, level frequencies, mean removal and Fourier grids in rounded arithmetic (C15, C16, C28, C40, C86). *)
From Coq Require Import String.
From Verif Require Import Base.Prelude Base.Rounding Base.Precision Base.ListUtil Base.NdArray Model.Sampling Spec.Sampling Model.Time Model.Decimate Model.Window Model.Timestamps
  Spec.Time Spec.Decimate Spec.Window Proofs.Sampling Proofs.SamplingFloat Proofs.SamplingErr Proofs.DecParams Proofs.DecFinal Proofs.DecRun Proofs.TimeProc Proofs.TimeData2 Proofs.Timestamps Proofs.ShiftFloat
  Proofs.Quick.
Open Scope list_scope.
Open Scope Q_scope.

(** ** C86 *)
Lemma period_abs {rnd} (G : good_rnd rnd) f : 0 < f -> f <= 1000000 # 1 -> Qabs (period rnd f - 1 / f) <= (102 # 1000000000000000) + uu / f.
Proof.
  intros F0 F1. pose proof (period_err G f F0 F1) as E. apply abs_split in E. apply abs_split.
  assert (P : 0 < 1 / f) by (apply Qlt_shift_div_l; lra). set (i := 1 / f) in *. assert (I : i * f == 1) by (unfold i; field; lra).
  assert (U : uu / f == uu * i) by (unfold i; field; lra). rewrite U. set (p := period rnd f) in *.
  assert (Pi : p == p * f * i) by (rewrite <- Qmult_assoc, (Qmult_comm f i), I; ring).
  destruct E as [E1 E2]. assert (0 <= i) by lra.
  assert (A1 := Qmult_le_compat_r _ _ i E1 H). assert (A2 := Qmult_le_compat_r _ _ i E2 H).
  assert (X : f * (102 # 1000000000000000) * i == (102 # 1000000000000000)) by (rewrite <- Qmult_assoc, (Qmult_comm _ i), Qmult_assoc, (Qmult_comm f i), I; ring).
  split; lra.
Qed.
Lemma scaled_abs z a b c : 0 <= z -> Qabs (a - b) <= c -> Qabs (z * a - z * b) <= z * c.
Proof. intros Z H. assert (E : z * a - z * b == z * (a - b)) by ring. rewrite E, Qabs_Qmult, (Qabs_pos z) by exact Z. rewrite (Qmult_comm z), (Qmult_comm z). apply Qmult_le_compat_r; assumption. Qed.
Lemma high_rounded {rnd} (G : good_rnd rnd) first f k : 0 < f -> f <= 1000000 # 1 -> (0 <= k)%Z ->
  Qabs (first + inject_Z k * period rnd f - (first + inject_Z k / f)) <= inject_Z k * ((102 # 1000000000000000) + uu / f).
Proof.
  intros F0 F1 K. assert (Z : 0 <= inject_Z k) by (change 0 with (inject_Z 0); rewrite <- Zle_Qle; exact K).
  pose proof (scaled_abs _ _ _ _ Z (period_abs G f F0 F1)) as E.
  assert (X : first + inject_Z k * period rnd f - (first + inject_Z k / f) == inject_Z k * period rnd f - inject_Z k * (1 / f)) by (field; lra). rewrite X. exact E.
Qed.
Lemma est_rounded {rnd} (G : good_rnd rnd) nt ndl first f k : near_ns nt -> near_ns ndl -> 0 < f -> (0 <= k)%Z ->
  Qabs (inject_Z (nt first + k * ndl (rnd (1 / f))) - 1000000000 * (first + inject_Z k / f)) <= inject_Z k * (1 + 1000000000 * uu / f) + 1.
Proof.
  intros N1 N2 F K. pose proof (N1 first) as A. pose proof (N2 (rnd (1 / f))) as B. pose proof (gr_err _ G (1 / f)) as C.
  assert (P : 0 < 1 / f) by (apply Qlt_shift_div_l; lra). rewrite (Qabs_pos (1 / f)) in C by lra. change (1 # 9007199254740992) with uu in C.
  rewrite inject_Z_plus, inject_Z_mult. apply abs_split in A, B, C. apply abs_split.
  assert (E : inject_Z k / f == inject_Z k * (1 / f)) by (field; lra). rewrite E.
  assert (E2 : 1000000000 * uu / f == 1000000000 * ((1 / f) * uu)) by (field; lra). rewrite E2.
  assert (Z : 0 <= inject_Z k) by (change 0 with (inject_Z 0); rewrite <- Zle_Qle; exact K).
  set (q := 1 / f) in *. set (z := inject_Z k) in *. set (u := inject_Z (nt first)) in *. set (v := inject_Z (ndl (rnd q))) in *. set (w := rnd q) in *. clearbody q z u v w.
  assert (L1 : v <= 1000000000 * q + 1000000000 * (q * uu) + 1) by lra.
  assert (L2 : 1000000000 * q - 1000000000 * (q * uu) - 1 <= v) by lra.
  assert (M1 := Qmult_le_compat_r _ _ z L1 Z). assert (M2 := Qmult_le_compat_r _ _ z L2 Z). split; lra.
Qed.

Lemma c86_recording_rounded : forall rnd nt ndl td, good_rnd rnd -> 0 < fs (meta td) -> fs (meta td) <= 1000000 # 1 ->
  (exists ts, time_timestamps rnd nt ndl td None false = Ok (High ts) /\ length ts = Z.to_nat (n_samples (meta td)) /\
    forall k t, nth_error ts k = Some t -> Qabs (t - (first_time (meta td) + inject_Z (Z.of_nat k) / fs (meta td))) <= inject_Z (Z.of_nat k) * ((102 # 1000000000000000) + uu / fs (meta td))) /\
  (forall l, (forall k, In k l -> (0 <= k)%Z) -> exists ts, time_timestamps rnd nt ndl td (Some l) false = Ok (High ts) /\ length ts = length l /\
    forall i k t, nth_error l i = Some k -> nth_error ts i = Some t -> Qabs (t - (first_time (meta td) + inject_Z k / fs (meta td))) <= inject_Z k * ((102 # 1000000000000000) + uu / fs (meta td))).
Proof.
  intros rnd nt ndl td G F F1. unfold time_timestamps. split.
  - destruct (high_all rnd nt ndl (first_time (meta td)) _ (n_samples (meta td)) F) as (ts & A & B & C). exists ts. split; [exact A|]. split; [exact B|].
    intros k t Hk. assert (Hk' : (k < length ts)%nat) by (apply nth_error_Some; congruence).
    specialize (C (Z.of_nat k) ltac:(lia)). rewrite Nat2Z.id, Hk in C. injection C as ->. apply high_rounded; [exact G|exact F|exact F1|lia].
  - intros l Hl. destruct (high_some rnd nt ndl (first_time (meta td)) _ (n_samples (meta td)) l F) as (ts & A & B & C). exists ts. split; [exact A|]. split; [exact B|].
    intros i k t Hi Ht. rewrite (C i k Hi) in Ht. injection Ht as <-. apply high_rounded; [exact G|exact F|exact F1|]. apply Hl. eapply nth_error_In, Hi.
Qed.
Lemma c86_estimate_rounded : forall rnd nt ndl td, good_rnd rnd -> near_ns nt -> near_ns ndl -> 0 < fs (meta td) -> (0 <= n_samples (meta td))%Z ->
  (exists es, time_timestamps rnd nt ndl td None true = Ok (Estimated es) /\ length es = Z.to_nat (n_samples (meta td)) /\
    forall k e, nth_error es k = Some e -> Qabs (inject_Z e - 1000000000 * (first_time (meta td) + inject_Z (Z.of_nat k) / fs (meta td))) <= inject_Z (Z.of_nat k) * (1 + 1000000000 * uu / fs (meta td)) + 1) /\
  (forall l, (forall k, In k l -> (0 <= k)%Z) -> exists es, time_timestamps rnd nt ndl td (Some l) true = Ok (Estimated es) /\ length es = length l /\
    forall i k e, nth_error l i = Some k -> nth_error es i = Some e -> Qabs (inject_Z e - 1000000000 * (first_time (meta td) + inject_Z k / fs (meta td))) <= inject_Z k * (1 + 1000000000 * uu / fs (meta td)) + 1).
Proof.
  intros rnd nt ndl td G N1 N2 F N. unfold time_timestamps. split.
  - destruct (est_all rnd nt ndl (first_time (meta td)) _ (n_samples (meta td)) F N) as (ts & A & B & C). exists ts. split; [exact A|]. split; [exact B|].
    intros k t Hk. assert (Hk' : (k < length ts)%nat) by (apply nth_error_Some; congruence).
    specialize (C (Z.of_nat k) ltac:(lia)). rewrite Nat2Z.id, Hk in C. injection C as ->. apply est_rounded; try assumption. lia.
  - intros l Hl. destruct (est_some rnd nt ndl (first_time (meta td)) _ (n_samples (meta td)) l F) as (ts & A & B & C). exists ts. split; [exact A|]. split; [exact B|].
    intros i k t Hi Ht. rewrite (C i k Hi) in Ht. injection Ht as <-. apply est_rounded; try assumption. apply Hl. eapply nth_error_In, Hi.
Qed.

(** ** C28: level frequencies *)
Lemma lo_ge n : 1 - inject_Z (Z.of_nat n) * uu <= lo n.
Proof.
  induction n as [|n IH]; [change (lo 0) with 1; change (inject_Z (Z.of_nat 0)) with 0; lra|]. rewrite lo_S, Nat2Z.inj_succ. unfold Z.succ. rewrite inject_Z_plus. change (inject_Z 1) with 1.
  set (z := inject_Z (Z.of_nat n)) in *. assert (0 <= z) by (unfold z; change 0 with (inject_Z 0); rewrite <- Zle_Qle; lia). set (l := lo n) in *.
  assert (U : 0 <= 1 - uu) by (unfold uu; lra). assert (M := Qmult_le_compat_r _ _ _ IH U).
  assert (0 <= z * (uu * uu)) by (apply Qmult_le_0_compat; [assumption|unfold uu; lra]). lra.
Qed.
Lemma hi_le n : (Z.of_nat n <= 2 ^ 51)%Z -> hi n <= 1 + 2 * (inject_Z (Z.of_nat n) * uu).
Proof.
  induction n as [|n IH]; intros B; [change (hi 0) with 1; change (inject_Z (Z.of_nat 0)) with 0; lra|]. rewrite hi_S. rewrite Nat2Z.inj_succ in *. specialize (IH ltac:(lia)).
  assert (Bq : inject_Z (Z.of_nat n) <= inject_Z (2 ^ 51)) by (rewrite <- Zle_Qle; lia).
  unfold Z.succ. rewrite inject_Z_plus. change (inject_Z 1) with 1. change (inject_Z (2 ^ 51)) with (2251799813685248 # 1) in Bq.
  set (z := inject_Z (Z.of_nat n)) in *. assert (0 <= z) by (unfold z; change 0 with (inject_Z 0); rewrite <- Zle_Qle; lia). set (l := hi n) in *.
  assert (U : 0 <= 1 + uu) by (unfold uu; lra). assert (M := Qmult_le_compat_r _ _ _ IH U).
  assert (X : z * (uu * uu) <= (2251799813685248 # 1) * (uu * uu)) by (apply Qmult_le_compat_r; [exact Bq|unfold uu; lra]).
  assert (Y : (2251799813685248 # 1) * (uu * uu) <= (1 # 4) * uu) by (unfold uu; lra). unfold uu in *. lra.
Qed.
Lemma chain_approx {rnd} (G : good_rnd rnd) l : Forall (fun f => (1 <= f)%Z) l -> forall j x y, approx j x y -> approx (j + length l) (x / inject_Z (prodZ l)) (div_chain rnd y l).
Proof.
  induction 1 as [|f l Hf Hl IH]; intros j x y A.
  - cbn [length div_chain prodZ]. rewrite Nat.add_0_r. apply (approx_comp j x); [|exact A]. change (prodZ []) with 1%Z. change (inject_Z 1) with 1. field.
  - cbn [length div_chain]. rewrite Nat.add_succ_r, <- Nat.add_succ_l. change (prodZ (f :: l)) with (f * prodZ l)%Z.
    pose proof (prodZ_pos l Hl) as P. assert (P' : 0 < inject_Z (prodZ l)) by (change 0 with (inject_Z 0); rewrite <- Zlt_Qlt; lia).
    assert (F' : 0 < inject_Z f) by (change 0 with (inject_Z 0); rewrite <- Zlt_Qlt; lia).
    apply (approx_comp _ (x / inject_Z f / inject_Z (prodZ l))). { rewrite inject_Z_mult. field. split; lra. }
    apply IH. destruct (Z.eqb_spec f 1) as [->|].
    + apply approx_S. apply (approx_comp _ x); [change (inject_Z 1) with 1; field|exact A].
    + apply approx_rnd; [exact G|]. assert (I : 0 <= / inject_Z f) by (apply Qlt_le_weak, Qinv_lt_0_compat; exact F'). exact (approx_mul j x y _ I A).
Qed.
Lemma chain_rounded rnd fs l : good_rnd rnd -> 0 <= fs -> Forall (fun f => (1 <= f)%Z) l -> (Z.of_nat (length l) <= 2 ^ 51)%Z ->
  Qabs (div_chain rnd fs l - fs / inject_Z (prodZ l)) <= fs / inject_Z (prodZ l) * (inject_Z (Z.of_nat (length l)) * (2 * uu)).
Proof.
  intros G F H B. destruct (chain_approx G l H 0 fs fs (approx_refl fs F)) as (A1 & A2 & A3). rewrite Nat.add_0_l in A2, A3.
  pose proof (lo_ge (length l)) as L. pose proof (hi_le (length l) B) as U. set (t := fs / inject_Z (prodZ l)) in *. set (z := inject_Z (Z.of_nat (length l))) in *.
  assert (0 <= z) by (unfold z; change 0 with (inject_Z 0); rewrite <- Zle_Qle; lia).
  assert (M1 : t * (1 - z * uu) <= t * lo (length l)) by (rewrite !(Qmult_comm t); apply Qmult_le_compat_r; assumption).
  assert (M2 : t * hi (length l) <= t * (1 + 2 * (z * uu))) by (rewrite !(Qmult_comm t); apply Qmult_le_compat_r; assumption).
  assert (0 <= t * (z * uu)) by (apply Qmult_le_0_compat; [assumption|apply Qmult_le_0_compat; [assumption|unfold uu; lra]]).
  apply abs_split. split; lra.
Qed.
(** the period of a level *)
Lemma inverse_rounded g F d : 0 < F -> 0 <= d -> d <= 1 # 2 -> Qabs (g - F) <= F * d -> 0 < g /\ 1 / g <= 2 / F /\ Qabs (1 / g - 1 / F) <= 2 * d / F.
Proof.
  intros F0 D0 D1 E. apply abs_split in E. assert (Fd : F * d <= F * (1 # 2)) by (rewrite !(Qmult_comm F); apply Qmult_le_compat_r; lra).
  assert (G0 : 0 < g) by lra. split; [exact G0|].
  assert (I : 1 / g <= 2 / F). { apply Qle_shift_div_l; [exact F0|]. assert (X : 1 / g * F == F / g) by (field; lra). rewrite X. apply Qle_shift_div_r; [exact G0|]. lra. }
  split; [exact I|]. assert (X : 1 / g - 1 / F == (F - g) * (1 / g * (1 / F))) by (field; split; lra). rewrite X, Qabs_Qmult.
  assert (PF : 0 < 1 / F) by (apply Qlt_shift_div_l; lra). assert (PG : 0 < 1 / g) by (apply Qlt_shift_div_l; lra).
  assert (PP : 0 <= 1 / g * (1 / F)) by (apply Qmult_le_0_compat; lra). rewrite (Qabs_pos (1 / g * _)) by exact PP.
  assert (Y : Qabs (F - g) <= F * d) by (apply abs_split; split; lra).
  assert (M1 := Qmult_le_compat_r _ _ _ Y PP).
  assert (M2 : 1 / g * (1 / F) <= 2 / F * (1 / F)) by (apply Qmult_le_compat_r; lra).
  assert (FD0 : 0 <= F * d) by (apply Qmult_le_0_compat; lra).
  assert (M3 : F * d * (1 / g * (1 / F)) <= F * d * (2 / F * (1 / F))) by (rewrite !(Qmult_comm (F * d)); apply Qmult_le_compat_r; assumption).
  assert (Z : F * d * (2 / F * (1 / F)) == 2 * d / F) by (field; lra). lra.
Qed.

(** ** C86: decimation levels *)
Section LevelsR.
  Variables (rnd : Q -> Q) (nt ndl : Q -> Z) (orc : oracles) (D : Z) (b : bool) (maxf : Z) (p : dec_params) (td : tdata) (dd : dec_data).
  Hypotheses (G : good_rnd rnd) (GO : good_oracles orc) (HD : (D <= 2 ^ 49)%Z) (BA : forall x, best_approx D x (o_limit_denominator orc x)) (HM : (3 <= maxf)%Z)
    (U : usable rnd td) (F6 : fs (meta td) <= 1000000 # 1) (LI : length (dp_increments p) = Z.to_nat (dp_n_levels p))
    (FI : Forall (fun f => (1 <= f)%Z /\ (b = true -> f <= D)%Z) (dp_increments p)) (R : decimator_run rnd orc b maxf p td = Ok dd).
  Let total j := prodZ (firstn (S j) (dp_increments p)).
  Let slack j := inject_Z (Z.of_nat (S j)) * (6 * uu) * (inject_Z (total j) / fs (meta td)).
  Lemma c86_level_rounded j : (j < Z.to_nat (dd_n_levels dd))%nat -> (Z.of_nat (S j) <= 2 ^ 51)%Z -> exists md x ts es, nth_error (dd_levels_md dd) j = Some md /\ get_level dd (Z.of_nat j) = Ok x /\
    dec_timestamps rnd nt ndl dd (Z.of_nat j) None false = Ok (High ts) /\ dec_timestamps rnd nt ndl dd (Z.of_nat j) None true = Ok (Estimated es) /\
    (forall r, In r x -> length r = length ts /\ length r = length es) /\
    (forall k t, nth_error ts k = Some t ->
       Qabs (t - stamp (first_time (meta td)) (1 / fs (meta td)) (Z.of_nat k * total j)) <= inject_Z (Z.of_nat k) * ((102 # 1000000000000000) + slack j)) /\
    (near_ns nt -> near_ns ndl -> forall k e, nth_error es k = Some e ->
       Qabs (inject_Z e - 1000000000 * stamp (first_time (meta td)) (1 / fs (meta td)) (Z.of_nat k * total j)) <= inject_Z (Z.of_nat k) * (1 + 1000000000 * slack j) + 1).
  Proof.
    intros Hj J51. destruct (decimator_spec rnd orc D b maxf p td dd G GO HD BA HM U LI FI R) as (N & _ & _ & _ & _ & _ & _ & L & _).
    destruct (L j Hj) as (md & x & M & X & LX & RX & NS & _ & F & _ & FS).
    assert (FI' : Forall (fun f => (1 <= f)%Z) (firstn (S j) (dp_increments p))) by (apply Forall_firstn'; eapply Forall_impl; [|exact FI]; intros f [K _]; exact K).
    pose proof (prodZ_pos _ FI') as P. change (prodZ (firstn (S j) (dp_increments p))) with (total j) in P.
    assert (LE : length (firstn (S j) (dp_increments p)) = S j) by (apply firstn_length_le; rewrite LI; lia).
    assert (F0 : 0 < fs (meta td)) by apply U.
    destruct (div_chain_range rnd _ _ G F0 F6 FI') as [Fl Fl6]. rewrite <- FS in Fl, Fl6.
    pose proof (chain_rounded rnd (fs (meta td)) (firstn (S j) (dp_increments p)) G ltac:(lra) FI') as E. rewrite LE in E. specialize (E J51).
    rewrite <- FS in E. fold (total j) in E.
    assert (P' : 0 < inject_Z (total j)) by (change 0 with (inject_Z 0); rewrite <- Zlt_Qlt; lia).
    assert (N' : (0 <= lm_n_samples md)%Z). { rewrite NS. fold (total j). rewrite TimeData2.ceil_div_eq by lia. assert (1 <= n_samples (meta td))%Z by apply U. apply Z.div_pos; lia. }
    assert (Gj : (Z.of_nat j >=? dd_n_levels dd)%Z = false) by (rewrite Z.geb_leb; apply Z.leb_gt; lia).
    set (T := inject_Z (total j)) in *. set (z := inject_Z (Z.of_nat (S j))) in *. set (g := lm_fs md) in *. set (f := fs (meta td)) in *.
    assert (Z1 : 1 <= z) by (unfold z; change 1 with (inject_Z 1); rewrite <- Zle_Qle; lia).
    assert (Z51 : z <= 2251799813685248 # 1) by (unfold z; change (2251799813685248 # 1) with (inject_Z (2 ^ 51)); rewrite <- Zle_Qle; exact J51).
    assert (Fp : 0 < f / T) by (apply Qlt_shift_div_l; [exact P'|lra]).
    destruct (inverse_rounded g (f / T) (z * (2 * uu)) Fp) as (_ & I1 & I2); [unfold uu; lra|unfold uu; lra|exact E|].
    assert (D2 : 2 / (f / T) == 2 * (T / f)) by (field; split; lra). rewrite D2 in I1.
    assert (D1 : 1 / (f / T) == T / f) by (field; split; lra). rewrite D1 in I2.
    assert (D3 : 2 * (z * (2 * uu)) / (f / T) == z * (4 * uu) * (T / f)) by (field; split; lra). rewrite D3 in I2.
    assert (Tf : 0 < T / f) by (apply Qlt_shift_div_l; lra).
    assert (D4 : uu / g == (1 / g) * uu) by (field; lra).
    assert (Gu : uu / g <= z * (2 * uu) * (T / f)).
    { rewrite D4. assert (A1 : 1 / g * uu <= 2 * (T / f) * uu) by (apply Qmult_le_compat_r; [exact I1|unfold uu; lra]).
      assert (A2 : 1 * (2 * uu * (T / f)) <= z * (2 * uu * (T / f))) by (apply Qmult_le_compat_r; [exact Z1|apply Qmult_le_0_compat; [unfold uu; lra|lra]]). lra. }
    assert (O : forall k, Qabs (lm_first md + inject_Z (Z.of_nat k) / g - stamp (first_time (meta td)) (1 / f) (Z.of_nat k * total j)) <= inject_Z (Z.of_nat k) * (z * (4 * uu) * (T / f))).
    { intros k. assert (Zk : 0 <= inject_Z (Z.of_nat k)) by (change 0 with (inject_Z 0); rewrite <- Zle_Qle; lia).
      pose proof (scaled_abs _ _ _ _ Zk I2) as S. unfold stamp. rewrite F, inject_Z_mult. fold T.
      assert (X1 : first_time (meta td) + inject_Z (Z.of_nat k) / g - (first_time (meta td) + inject_Z (Z.of_nat k) * T * (1 / f)) == inject_Z (Z.of_nat k) * (1 / g) - inject_Z (Z.of_nat k) * (T / f)) by (field; split; lra).
      rewrite X1. exact S. }
    destruct (high_all rnd nt ndl (lm_first md) g (lm_n_samples md) Fl) as (ts & T1 & T2 & T3).
    destruct (est_all rnd nt ndl (lm_first md) g (lm_n_samples md) Fl N') as (es & S1 & S2 & S3).
    exists md, x, ts, es. split; [exact M|]. split; [exact X|]. unfold dec_timestamps. rewrite Gj, Proofs.Timestamps.py_nth_nat, M. split; [exact T1|]. split; [exact S1|].
    split. { intros r Hr. specialize (RX r Hr). rewrite T2, S2. split; lia. }
    assert (SL : slack j == z * (6 * uu) * (T / f)) by (unfold slack; reflexivity).
    split.
    - intros k t Hk. assert (Hk' : (k < length ts)%nat) by (apply nth_error_Some; congruence).
      specialize (T3 (Z.of_nat k) ltac:(lia)). rewrite Nat2Z.id, Hk in T3. injection T3 as ->.
      pose proof (high_rounded G (lm_first md) g (Z.of_nat k) Fl Fl6 ltac:(lia)) as H1. pose proof (O k) as H2. rewrite SL.
      eapply Qle_trans; [eapply tri|]. eapply Qle_trans; [apply Qplus_le_compat; [exact H1|exact H2]|].
      assert (Zk : 0 <= inject_Z (Z.of_nat k)) by (change 0 with (inject_Z 0); rewrite <- Zle_Qle; lia).
      assert (A := Qmult_le_compat_r _ _ _ Gu Zk). lra.
    - intros N1 N2 k e Hk. assert (Hk' : (k < length es)%nat) by (apply nth_error_Some; congruence).
      specialize (S3 (Z.of_nat k) ltac:(lia)). rewrite Nat2Z.id, Hk in S3. injection S3 as ->.
      pose proof (est_rounded G nt ndl (lm_first md) g (Z.of_nat k) N1 N2 Fl ltac:(lia)) as H1.
      assert (Zk : 0 <= inject_Z (Z.of_nat k)) by (change 0 with (inject_Z 0); rewrite <- Zle_Qle; lia).
      pose proof (scaled_abs 1000000000 _ _ _ ltac:(lra) (O k)) as H2. rewrite SL.
      eapply Qle_trans; [eapply tri|]. eapply Qle_trans; [apply Qplus_le_compat; [exact H1|exact H2]|].
      assert (A := Qmult_le_compat_r _ _ _ Gu Zk).
      assert (D5 : 1000000000 * uu / g == 1000000000 * (uu / g)) by (field; lra). rewrite D5. lra.
  Qed.
End LevelsR.

(** ** C15 *)
Lemma decimate_last_rounded rnd orc f maxf td td' : good_rnd rnd -> good_oracles orc -> (1 <= f)%Z -> (2 <= maxf)%Z ->
  consistent rnd td -> 0 < fs (meta td) -> fs (meta td) <= 1000000 # 1 -> (1 <= n_samples (meta td))%Z -> decimate rnd orc f maxf td = Ok td' ->
  last_time (meta td') <= last_time (meta td) + inject_Z (n_samples (meta td) - 1) * ((204 # 1000000000000000) + 5 * uu / fs (meta td)).
Proof.
  intros G GO Hf Hm C F0 F6 Hn H. destruct (decimate_spec rnd orc f maxf td td' GO Hf Hm C H) as (_ & _ & _ & F & _ & _ & L).
  rewrite L. destruct C as (_ & _ & _ & _ & CL). rewrite CL. rewrite F. unfold stamp.
  set (n := n_samples (meta td)) in *. set (a := fs (meta td)) in *. rewrite TimeData2.ceil_div_eq by exact Hf.
  set (k := ((n + f - 1) / f - 1)%Z).
  assert (K0 : (0 <= k)%Z) by (unfold k; pose proof (TimeProc.ceil_ge_1 n f Hn Hf); lia).
  assert (K1 : (k * f <= n - 1)%Z).
  { unfold k. pose proof (Z.div_mod (n + f - 1) f ltac:(lia)). pose proof (Z.mod_pos_bound (n + f - 1) f ltac:(lia)). lia. }
  assert (FZ : 1 <= inject_Z f) by (change 1 with (inject_Z 1); rewrite <- Zle_Qle; lia).
  assert (KZ : 0 <= inject_Z k) by (change 0 with (inject_Z 0); rewrite <- Zle_Qle; lia).
  assert (MZ : inject_Z k * inject_Z f <= inject_Z (n - 1)) by (rewrite <- inject_Z_mult, <- Zle_Qle; exact K1).
  assert (M0 : 0 <= inject_Z (n - 1)) by (change 0 with (inject_Z 0); rewrite <- Zle_Qle; lia).
  assert (Q0 : 0 < a / inject_Z f) by (apply Qlt_shift_div_l; lra).
  assert (Q6 : a / inject_Z f <= 1000000 # 1) by (apply Qle_shift_div_r; nra).
  pose proof (gr_err _ G (a / inject_Z f)) as E. rewrite (Qabs_pos (a / inject_Z f)) in E by lra. change (1 # 9007199254740992) with uu in E.
  assert (G6 : rnd (a / inject_Z f) <= 1000000 # 1) by (rewrite <- (gr_int G 1000000) by lia; apply (gr_mono _ G); exact Q6).
  set (g := rnd (a / inject_Z f)) in *. apply abs_split in E. destruct E as [E1 E2].
  assert (G0 : 0 < g) by (unfold uu in *; lra).
  pose proof (period_abs G g G0 G6) as P1. pose proof (period_abs G a F0 F6) as P2. apply abs_split in P1, P2.
  set (pg := period rnd g) in *. set (pa := period rnd a) in *.
  (* 1/g <= (f/a) (1 + 2 uu) *)
  set (i := 1 / a). assert (Ii : 0 < i) by (apply Qlt_shift_div_l; lra).
  assert (I : 1 / g <= inject_Z f * i * (1 + 2 * uu)).
  { apply Qle_shift_div_r; [exact G0|]. assert (L1 : a / inject_Z f * (1 - uu) <= g) by lra.
    assert (W : 0 <= inject_Z f * i * (1 + 2 * uu)) by (apply Qmult_le_0_compat; [apply Qmult_le_0_compat; lra|unfold uu; lra]).
    assert (L2 := Qmult_le_compat_r _ _ _ L1 W).
    assert (V : a / inject_Z f * (1 - uu) * (inject_Z f * i * (1 + 2 * uu)) == (1 - uu) * (1 + 2 * uu)) by (unfold i; field; lra).
    assert (1 <= (1 - uu) * (1 + 2 * uu)) by (unfold uu; lra). lra. }
  assert (Ug : uu / g == uu * (1 / g)) by (field; lra). assert (Ua : uu / a == uu * i) by (unfold i; field; lra).
  assert (U5 : 5 * uu / a == 5 * (uu * i)) by (unfold i; field; lra). rewrite Ug in P1. rewrite Ua in P2. rewrite U5. fold i in P2. clearbody i.
  set (fi := inject_Z f * i) in *. assert (Fi : 0 <= fi) by (apply Qmult_le_0_compat; lra).
  assert (B1 : pg <= fi + (102 # 1000000000000000) + 4 * (uu * fi)).
  { assert (uu * (1 / g) <= uu * (fi * (1 + 2 * uu))) by (rewrite !(Qmult_comm uu); apply Qmult_le_compat_r; [exact I|unfold uu; lra]). unfold uu in *. lra. }
  assert (B2 := Qmult_le_compat_r _ _ _ B1 KZ).
  assert (B3 : inject_Z k * fi <= inject_Z (n - 1) * i) by (unfold fi; rewrite Qmult_assoc; apply Qmult_le_compat_r; lra).
  assert (KM : inject_Z k <= inject_Z (n - 1)). { rewrite <- Zle_Qle. nia. }
  assert (B4 : inject_Z (n - 1) * (i - ((102 # 1000000000000000) + uu * i)) <= inject_Z (n - 1) * pa) by (rewrite !(Qmult_comm (inject_Z (n - 1))); apply Qmult_le_compat_r; lra).
  set (m := inject_Z (n - 1)) in *. set (kk := inject_Z k) in *. set (mi := m * i) in *. set (kf := kk * fi) in *.
  assert (X1 : m * (i - ((102 # 1000000000000000) + uu * i)) == mi - (102 # 1000000000000000) * m - uu * mi) by (unfold mi; ring). rewrite X1 in B4.
  assert (X2 : (fi + (102 # 1000000000000000) + 4 * (uu * fi)) * kk == kf + (102 # 1000000000000000) * kk + 4 * uu * kf) by (unfold kf; ring). rewrite X2 in B2.
  assert (X3 : m * ((204 # 1000000000000000) + 5 * (uu * i)) == (204 # 1000000000000000) * m + 5 * uu * mi) by (unfold mi; ring). rewrite X3.
  unfold uu in *. lra.
Qed.

(** ** C16 *)
Section Mean.
  Variables (p : Z) (r : Q -> Q).
  Hypotheses (P1 : (1 <= p)%Z) (PR : precision p r).
  Let U := pow2 (- p).
  Lemma U0 : 0 < U. Proof. apply pow2_pos. Qed.
  Lemma U2 : U <= 1 # 2.
  Proof. unfold U. change (1 # 2) with (pow2 (-1)). apply pow2_le. lia. Qed.
  Lemma row_sum_some M xs : 0 <= M -> (forall x, In x xs -> Qabs x <= M) -> inject_Z (Z.of_nat (length xs)) * U <= 1 ->
    forall k s a, 0 <= inject_Z k -> inject_Z (k + Z.of_nat (length xs)) * U <= 1 -> Qabs a <= inject_Z k * M -> Qabs (s - a) <= M * U * (inject_Z k * inject_Z k) ->
    exists s', fold_left (cadd r) (map Some xs) (Some s) = Some s' /\
      Qabs (s' - (a + sumQ xs)) <= M * U * (inject_Z (k + Z.of_nat (length xs)) * inject_Z (k + Z.of_nat (length xs))) /\
      Qabs (a + sumQ xs) <= inject_Z (k + Z.of_nat (length xs)) * M.
  Proof.
    intros M0 Hx _. induction xs as [|x xs IH]; intros k s a K0 KU A E.
    - exists s. cbn [map fold_left sumQ length]. split; [reflexivity|]. rewrite Z.add_0_r.
      assert (X : a + sumQ [] == a) by (unfold sumQ; cbn; ring). rewrite X. split; assumption.
    - cbn [map fold_left length] in *. rewrite Nat2Z.inj_succ in *.
      change (cadd r (Some s) (Some x)) with (Some (r (s + x))).
      replace (k + Z.succ (Z.of_nat (length xs)))%Z with ((k + 1) + Z.of_nat (length xs))%Z in * by lia.
      assert (Hx0 : Qabs x <= M) by (apply Hx; left; reflexivity).
      pose proof (pr_err p r PR (s + x)) as R. fold U in R.
      assert (KE : inject_Z (k + 1) == inject_Z k + 1) by (rewrite inject_Z_plus; reflexivity).
      set (kq := inject_Z k) in *. pose proof U0 as U0.
      assert (KU1 : kq * U <= 1).
      { assert (kq <= inject_Z (k + 1 + Z.of_nat (length xs))) by (unfold kq; rewrite <- Zle_Qle; lia). assert (T := Qmult_le_compat_r _ _ U H ltac:(lra)). lra. }
      assert (Sx : Qabs (s + x) <= kq * M + M * U * (kq * kq) + M).
      { pose proof (abs_le_of _ _ _ E). pose proof (Qabs_triangle s x). lra. }
      assert (MK : 0 <= M * kq) by (apply Qmult_le_0_compat; assumption).
      assert (MU : 0 <= M * U) by (apply Qmult_le_0_compat; lra).
      (* M U k k <= M k *)
      assert (W : M * U * (kq * kq) <= M * kq). { assert (T := Qmult_le_compat_r _ _ (M * kq) KU1 MK). lra. }
      assert (Sx' : Qabs (s + x) <= M * (2 * kq + 1)) by lra.
      assert (R' : Qabs (r (s + x) - (s + x)) <= M * U * (2 * kq + 1)). { assert (T := Qmult_le_compat_r _ _ U Sx' ltac:(lra)). lra. }
      destruct (IH (fun y Hy => Hx y (or_intror Hy)) (k + 1)%Z (r (s + x)) (a + x)) as (s' & B1 & B2 & B3).
      + rewrite KE. lra.
      + exact KU.
      + rewrite KE. pose proof (Qabs_triangle a x). lra.
      + rewrite KE. pose proof (tri (r (s + x)) (s + x) (a + x)) as T.
        assert (X : s + x - (a + x) == s - a) by ring. rewrite X in T.
        assert (Y : M * U * ((kq + 1) * (kq + 1)) == M * U * (kq * kq) + M * U * (2 * kq + 1)) by ring. rewrite Y. lra.
      + exists s'. split; [exact B1|]. assert (X : a + sumQ (x :: xs) == a + x + sumQ xs) by (change (sumQ (x :: xs)) with (x + sumQ xs); ring). rewrite X. split; assumption.
  Qed.
  Lemma row_mean_near M xs : 0 <= M -> xs <> [] -> (forall x, In x xs -> Qabs x <= M) -> let n := inject_Z (Z.of_nat (length xs)) in n * U <= 1 ->
    exists m, row_mean r (map Some xs) = Some m /\ Qabs (m - sumQ xs / n) <= M * U * (n + 2) /\ Qabs (sumQ xs / n) <= M.
  Proof.
    intros M0 NE Hx n NU. pose proof U0 as U0.
    assert (N1 : 1 <= n) by (unfold n; change 1 with (inject_Z 1); rewrite <- Zle_Qle; destruct xs; [congruence|cbn [length]; lia]).
    destruct (row_sum_some M xs M0 Hx NU 0 0 0) as (s & A & B & C).
    - change (inject_Z 0) with 0. lra.
    - exact NU.
    - vm_compute. discriminate.
    - change (inject_Z 0) with 0. rewrite Qabs_pos; lra.
    - rewrite Z.add_0_l in B, C. fold n in B, C. unfold row_mean, row_sum. rewrite A, map_length. unfold cdivn.
      destruct (Z.eqb_spec (Z.of_nat (length xs)) 0) as [Z0|_]; [destruct xs; [congruence|cbn [length] in Z0; lia]|]. fold n.
      assert (X : 0 + sumQ xs == sumQ xs) by ring. rewrite X in B, C. set (S := sumQ xs) in *.
      exists (r (s / n)). split; [reflexivity|]. assert (In0 : 0 < / n) by (apply Qinv_lt_0_compat; lra).
      assert (Hm : Qabs (S / n) <= M).
      { unfold Qdiv. rewrite Qabs_Qmult, (Qabs_pos (/ n)) by lra. assert (T := Qmult_le_compat_r _ _ (/ n) C ltac:(lra)).
        assert (Y : n * M * / n == M) by (field; lra). lra. }
      assert (Hd : Qabs (s / n - S / n) <= M * U * n).
      { assert (Y : s / n - S / n == (s - S) * / n) by (field; lra). rewrite Y, Qabs_Qmult, (Qabs_pos (/ n)) by lra.
        assert (T := Qmult_le_compat_r _ _ (/ n) B ltac:(lra)). assert (Y2 : M * U * (n * n) * / n == M * U * n) by (field; lra). lra. }
      split; [|exact Hm]. pose proof (pr_err p r PR (s / n)) as R. fold U in R.
      pose proof (abs_le_of _ _ _ Hd) as T1.
      assert (T2 : M * U * n <= M). { assert (T := Qmult_le_compat_r _ _ M NU M0). lra. }
      assert (T3 : Qabs (s / n) * U <= 2 * M * U) by (apply Qmult_le_compat_r; lra).
      pose proof (tri (r (s / n)) (s / n) (S / n)). lra.
  Qed.
  Lemma remove_mean_rounded td td' : remove_mean r td = Ok td' -> length (rows td') = length (rows td) /\
    forall i row xs M, nth_error (rows td) i = Some row -> holds xs row -> (forall x, In x xs -> Qabs x <= M) -> (Z.of_nat (length xs) <= 2 ^ p)%Z ->
    exists row' ys, nth_error (rows td') i = Some row' /\ holds ys row' /\ length ys = length xs /\
      forall k x y, nth_error xs k = Some x -> nth_error ys k = Some y ->
        Qabs (y - (x - sumQ xs / inject_Z (Z.of_nat (length xs)))) <= M * (inject_Z (Z.of_nat (length xs)) + 6) * pow2 (- p).
  Proof.
    intros H. unfold remove_mean in H. injection H as <-. cbn [new_time_data rows]. split; [apply map_length|].
    intros i row xs M Hi -> Hx HN. rewrite nth_error_map, Hi. cbn [option_map].
    destruct xs as [|x0 xs0]; [exists [], []; split; [reflexivity|]; split; [reflexivity|]; split; [reflexivity|]; intros [|k] x y A; discriminate A|].
    set (xs := x0 :: xs0) in *. assert (NE : xs <> []) by discriminate.
    assert (M0 : 0 <= M) by (pose proof (Hx x0 (or_introl eq_refl)); pose proof (Qabs_nonneg x0); lra).
    assert (NU : inject_Z (Z.of_nat (length xs)) * U <= 1).
    { assert (inject_Z (Z.of_nat (length xs)) <= pow2 p). { rewrite pow2_Z by lia. rewrite <- Zle_Qle. exact HN. }
      assert (T := Qmult_le_compat_r _ _ U H ltac:(pose proof U0; lra)). unfold U in *. rewrite pow2_opp in T. exact T. }
    destruct (row_mean_near M xs M0 NE Hx NU) as (m & A & B & C). rewrite A. set (n := inject_Z (Z.of_nat (length xs))) in *. set (mu := sumQ xs / n) in *.
    exists (map (fun v => csub r v (Some m)) (map Some xs)), (map (fun x => r (x - m)) xs). split; [reflexivity|]. split; [unfold holds; rewrite !map_map; reflexivity|].
    split; [apply map_length|]. intros k x y Hk Hy. rewrite nth_error_map, Hk in Hy. injection Hy as <-.
    assert (Xm : Qabs x <= M) by (apply Hx; eapply nth_error_In, Hk).
    pose proof U0 as U0. pose proof U2 as U2. fold U.
    pose proof (abs_le_of _ _ _ B) as T1. assert (T2 : M * U * n <= M). { assert (T := Qmult_le_compat_r _ _ M NU M0). lra. }
    assert (T3 : M * U <= M * (1 # 2)) by (rewrite !(Qmult_comm M); apply Qmult_le_compat_r; assumption).
    assert (T4 : Qabs (x - m) <= 4 * M). { pose proof (Qabs_triangle x (- m)) as T. rewrite Qabs_opp in T. unfold Qminus. lra. }
    pose proof (pr_err p r PR (x - m)) as R. fold U in R.
    assert (T5 : Qabs (x - m) * U <= 4 * M * U) by (apply Qmult_le_compat_r; lra).
    pose proof (tri (r (x - m)) (x - m) (x - mu)) as T. assert (X : x - m - (x - mu) == - (m - mu)) by ring. rewrite X, Qabs_opp in T. lra.
  Qed.
End Mean.
