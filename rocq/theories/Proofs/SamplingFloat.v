(** Floating point results about Model/Sampling.v: error bounds for every good
    rounding, and exactness of binary64 for power of two frequencies. *)
From Verif Require Import Base.Prelude Base.Rounding Model.Sampling Spec.Sampling Proofs.Sampling.
Open Scope Q_scope.

(** ** Relative error propagation for sums of non-negative terms *)
Definition uu : Q := 1 # 9007199254740992.
Definition lo (j : nat) : Q := Qpower (1 - uu) (Z.of_nat j).
Definition hi (j : nat) : Q := Qpower (1 + uu) (Z.of_nat j).

Definition approx (j : nat) (x y : Q) : Prop := 0 <= x /\ x * lo j <= y /\ y <= x * hi j.

Lemma lo_S j : lo (S j) == lo j * (1 - uu).
Proof.
  unfold lo. rewrite Nat2Z.inj_succ. unfold Z.succ. rewrite Qpower_plus by (intro H; discriminate H).
  reflexivity.
Qed.
Lemma hi_S j : hi (S j) == hi j * (1 + uu).
Proof.
  unfold hi. rewrite Nat2Z.inj_succ. unfold Z.succ. rewrite Qpower_plus by (intro H; discriminate H).
  reflexivity.
Qed.
Lemma lo_pos j : 0 < lo j.
Proof. unfold lo. apply Qpower_0_lt. reflexivity. Qed.
Lemma hi_pos j : 0 < hi j.
Proof. unfold hi. apply Qpower_0_lt. reflexivity. Qed.

Lemma approx_refl x : 0 <= x -> approx 0 x x.
Proof. intros H. unfold approx, lo, hi. cbn. lra. Qed.
Lemma approx_S j x y : approx j x y -> approx (S j) x y.
Proof.
  intros (A & B & C). split; [exact A|]. rewrite lo_S, hi_S. unfold uu.
  pose proof (lo_pos j). pose proof (hi_pos j).
  assert (0 <= x * lo j) by nra. assert (0 <= x * hi j) by nra. lra.
Qed.
Lemma approx_nonneg j x y : approx j x y -> 0 <= y.
Proof. intros (A & B & C). pose proof (lo_pos j). nra. Qed.
Lemma approx_add j x y x' y' : approx j x y -> approx j x' y' -> approx j (x + x') (y + y').
Proof. intros (A & B & C) (A' & B' & C'). unfold approx. lra. Qed.
Lemma approx_mul j x y c : 0 <= c -> approx j x y -> approx j (x * c) (y * c).
Proof.
  intros Hc (A & B & C). split; [nra|]. split.
  - assert (x * lo j * c <= y * c) by (apply Qmult_le_compat_r; assumption). lra.
  - assert (y * c <= x * hi j * c) by (apply Qmult_le_compat_r; assumption). lra.
Qed.
Lemma approx_rnd {rnd} (G : good_rnd rnd) j x y : approx j x y -> approx (S j) x (rnd y).
Proof.
  intros H. pose proof (approx_nonneg _ _ _ H) as Hy. destruct H as (A & B & C).
  pose proof (gr_err _ G y) as E. rewrite (Qabs_pos y) in E by exact Hy.
  apply Qabs_Qle_condition in E. split; [exact A|]. rewrite lo_S, hi_S. unfold uu.
  pose proof (lo_pos j). pose proof (hi_pos j).
  split; lra.
Qed.
Lemma approx_comp j x x' y : x == x' -> approx j x y -> approx j x' y.
Proof. intros E (A & B & C). unfold approx. rewrite <- E. auto. Qed.

(** The float computed by to_n_samples has relative error at most (1+u)^6 - 1. *)
Lemma n_float_approx {rnd} (G : good_rnd rnd) d fs :
  0 <= d -> 0 <= fs -> approx 6 (d * fs + 1) (n_float rnd d fs).
Proof.
  intros Hd Hf. unfold n_float, to_seconds. cbn [fst snd].
  pose proof (td_seconds_range d) as Rs. pose proof (td_micros_range d) as Rm.
  destruct (td_nanos_range d) as [Rn _].
  assert (Rd : (0 <= td_days d)%Z).
  { unfold td_days. destruct (qfloor_spec (d / inject_Z 86400)) as [A B].
    assert (0 <= d / inject_Z 86400).
    { change (d / inject_Z 86400) with (d * (1 # 86400)). lra. }
    assert (inject_Z (-1) < inject_Z (qfloor (d / inject_Z 86400))) as L by (change (inject_Z (-1)) with (-(1)); lra).
    rewrite <- inject_Z_lt in L. lia. }
  assert (P0 : forall k, (0 <= k)%Z -> 0 <= inject_Z k) by (intros k Hk; change 0 with (inject_Z 0); rewrite <- inject_Z_le; exact Hk).
  set (us := td_micros d) in *. set (s := td_seconds d) in *. set (dd := td_days d) in *. set (ns := td_nanos d) in *.
  assert (Pu : 0 <= inject_Z us / inject_Z 1000000).
  { change (inject_Z us / inject_Z 1000000) with (inject_Z us * (1#1000000)). pose proof (P0 us). 
    assert (0 <= inject_Z us) by (apply P0; lia). lra. }
  apply approx_rnd; [exact G|]. apply approx_add; [|do 5 apply approx_S; apply approx_refl; lra].
  apply approx_rnd; [exact G|]. apply approx_mul; [exact Hf|].
  apply approx_comp with (x := inject_Z (dd * 86400) + (inject_Z s + inject_Z us / inject_Z 1000000 + ns / inject_Z 1000000000)).
  { apply td_sum. }
  apply approx_rnd; [exact G|]. apply approx_add.
  { do 3 apply approx_S. apply approx_refl. apply P0. lia. }
  apply approx_rnd; [exact G|]. apply approx_add.
  - apply approx_rnd; [exact G|]. apply approx_add.
    + apply approx_S. apply approx_refl. apply P0. lia.
    + apply approx_rnd; [exact G|]. apply approx_refl. exact Pu.
  - apply approx_rnd; [exact G|].
    change (rnd ns / inject_Z 1000000000) with (rnd ns * (1#1000000000)).
    change (ns / inject_Z 1000000000) with (ns * (1#1000000000)).
    apply approx_mul; [discriminate|].
    apply approx_rnd; [exact G|]. apply approx_refl. exact Rn.
Qed.

Lemma n_float_abs_err {rnd} (G : good_rnd rnd) d fs :
  0 <= d -> 0 <= fs -> d * fs + 1 <= inject_Z (2 ^ 49) ->
  Qabs (n_float rnd d fs - (d * fs + 1)) < 1 # 2.
Proof.
  intros Hd Hf Hb. destruct (n_float_approx G d fs Hd Hf) as (A & B & C).
  set (x := d * fs + 1) in *. set (y := n_float rnd d fs) in *.
  assert (L : 1 - 7 * uu <= lo 6) by (vm_compute; discriminate).
  assert (U : hi 6 <= 1 + 7 * uu) by (vm_compute; discriminate).
  assert (B' : x * (1 - 7 * uu) <= y) by (eapply Qle_trans; [|exact B]; rewrite (Qmult_comm x), (Qmult_comm x); apply Qmult_le_compat_r; assumption).
  assert (C' : y <= x * (1 + 7 * uu)) by (eapply Qle_trans; [exact C|]; rewrite (Qmult_comm x), (Qmult_comm x); apply Qmult_le_compat_r; assumption).
  unfold uu in *. change (inject_Z (2^49)) with (562949953421312 # 1) in Hb.
  apply Qabs_case; intros; lra.
Qed.

(** Rounding to the nearest sample is exact for whole numbers of samples up to 2^49,
    floor and ceil are off by at most one sample. *)
Lemma to_n_samples_round_robust {rnd} (G : good_rnd rnd) d fs k :
  0 <= d -> 0 <= fs -> d * fs == inject_Z k -> (k + 1 <= 2 ^ 49)%Z ->
  to_n_samples rnd d fs Mround = (k + 1)%Z.
Proof.
  intros Hd Hf Hk Hb. rewrite to_n_samples_eq. cbv zeta.
  assert (E : Qabs (n_float rnd d fs - (d * fs + 1)) < 1 # 2).
  { apply n_float_abs_err; try assumption. rewrite Hk. change 1 with (inject_Z 1). rewrite <- inject_Z_plus, <- inject_Z_le. exact Hb. }
  set (n := n_float rnd d fs) in *. rewrite Hk in E. 
  assert (E' : - (1#2) < n - inject_Z (k + 1) /\ n - inject_Z (k + 1) < 1#2).
  { rewrite inject_Z_plus. change (inject_Z 1) with 1. revert E. apply Qabs_case; intros; lra. }
  assert (R : qround n = (k + 1)%Z).
  { assert (F : qfloor n = (k + 1)%Z \/ qfloor n = k).
    { destruct (qfloor_spec n) as [F1 F2].
      rewrite inject_Z_plus in E'. change (inject_Z 1) with 1 in E'.
      assert (inject_Z (k - 1) < inject_Z (qfloor n)) as L1
        by (unfold Z.sub; rewrite inject_Z_plus; change (inject_Z (-(1))) with (-(1)); lra).
      assert (inject_Z (qfloor n) < inject_Z (k + 2)) as L2
        by (rewrite inject_Z_plus; change (inject_Z 2) with 2; lra).
      rewrite <- inject_Z_lt in *. lia. }
    rewrite inject_Z_plus in E'. change (inject_Z 1) with 1 in E'.
    unfold qround. cbv zeta. change Qfloor with qfloor. destruct F as [F|F]; rewrite F.
    - rewrite inject_Z_plus. change (inject_Z 1) with 1.
      destruct (Qltb (n - _) _) eqn:T; [reflexivity|]. apply Qltb_false in T. lra.
    - destruct (Qltb (n - _) _) eqn:T; [apply Qltb_true in T; lra|].
      destruct (Qltb (1#2) (n - _)) eqn:T2; [reflexivity|]. apply Qltb_false in T2. lra. }
  destruct (q_is_integer n) eqn:I; [|exact R].
  apply q_is_integer_true in I. rewrite <- R. symmetry. eapply qround_int. exact I.
Qed.

Lemma to_n_samples_within_one {rnd} (G : good_rnd rnd) d fs k m :
  0 <= d -> 0 <= fs -> d * fs == inject_Z k -> (k + 1 <= 2 ^ 49)%Z ->
  (k <= to_n_samples rnd d fs m <= k + 2)%Z.
Proof.
  intros Hd Hf Hk Hb.
  pose proof (to_n_samples_round_robust G d fs k Hd Hf Hk Hb) as R.
  pose proof (to_n_samples_order rnd d fs) as O. rewrite R in O. destruct m; lia.
Qed.

(** ** binary64, power of two frequencies *)

(** rounding of the fractional part when a number in [2^i, 2^(i+1)) is rounded *)
Definition gfrac (i : Z) (u : Q) : Q := inject_Z (qround (u * pow2 (52 - i))) * pow2 (i - 52).

Lemma qround_plus_even x k : Z.even k = true -> qround (x + inject_Z k) = (qround x + k)%Z.
Proof.
  intros Hk. unfold qround. cbv zeta. change Qfloor with qfloor. rewrite qfloor_plus_Z.
  assert (E : x + inject_Z k - inject_Z (qfloor x + k) == x - inject_Z (qfloor x)) by (rewrite inject_Z_plus; ring).
  rewrite (Qltb_comp _ _ E _ _ (Qeq_refl _)), (Qltb_comp _ _ (Qeq_refl _) _ _ E).
  rewrite Z.even_add, Hk.
  destruct (Qltb (x - _) _); [reflexivity|]. destruct (Qltb (1#2) (x - _)); [lia|].
  destruct (Z.even (qfloor x)); cbn; lia.
Qed.

Lemma b64_binade i s u : (0 <= i <= 50)%Z -> (2 ^ i <= s < 2 ^ (i + 1))%Z -> 0 <= u -> u < 1 ->
  b64 (inject_Z s + u) == inject_Z s + gfrac i u.
Proof.
  intros Hi Hs Hu1 Hu2.
  assert (S1 : pow2 i <= inject_Z s) by (rewrite pow2_Z by lia; rewrite <- inject_Z_le; lia).
  assert (S2 : inject_Z s + 1 <= pow2 (i + 1)).
  { rewrite pow2_Z by lia. change 1 with (inject_Z 1). rewrite <- inject_Z_plus, <- inject_Z_le. lia. }
  pose proof (pow2_pos i) as Pi.
  destruct (b64_cases (inject_Z s + u)) as [[H0 Hr]|(e & Hn & H1 & H2 & Hr)].
  { exfalso. lra. }
  rewrite (Qabs_pos (inject_Z s + u)) in H1, H2 by lra.
  assert (Ee : e = (i - 52)%Z).
  { assert (pow2 (e + 52) < pow2 (i + 1)) as L1 by lra.
    assert (pow2 i < pow2 (e + 53)) as L2 by lra.
    apply pow2_lt_inv in L1. apply pow2_lt_inv in L2. lia. }
  subst e. rewrite Hr. unfold gfrac.
  replace (- (i - 52))%Z with (52 - i)%Z by lia.
  assert (E : (inject_Z s + u) * pow2 (52 - i) == u * pow2 (52 - i) + inject_Z (s * 2 ^ (52 - i))).
  { rewrite inject_Z_mult, <- pow2_Z by lia. ring. }
  rewrite (qround_comp _ _ E), qround_plus_even.
  - rewrite inject_Z_plus, inject_Z_mult, <- pow2_Z by lia.
    assert (O : pow2 (52 - i) * pow2 (i - 52) == 1).
    { rewrite <- pow2_plus. replace (52 - i + (i - 52))%Z with 0%Z by lia. reflexivity. }
    transitivity (inject_Z (qround (u * pow2 (52 - i))) * pow2 (i - 52) + inject_Z s * (pow2 (52 - i) * pow2 (i - 52))); [ring|].
    rewrite O. ring.
  - replace (52 - i)%Z with (1 + (51 - i))%Z by lia. rewrite Z.pow_add_r by lia.
    rewrite !Z.even_mul. cbn. apply orb_true_r.
Qed.

(** microseconds and nanoseconds of a/128 seconds *)
Definition us128 (a : Z) : Q := b64 (inject_Z (td_micros (a # 128)) / inject_Z 1000000).
Definition ns128 (a : Z) : Q := b64 (b64 (td_nanos (a # 128)) / inject_Z 1000000000).

Definition check128_abs (u v r : Q) (i : Z) : bool :=
  let g := gfrac i u in
  Qle_bool 0 u && Qltb u 1 &&
  Qle_bool 0 (g + v) && Qltb (g + v) 1 &&
  Qeq_bool (gfrac i (g + v)) r.

Lemma check128_all :
  forallb (fun a => Qeq_bool (b64 (b64 (us128 a) + ns128 a)) (a # 128) &&
      forallb (check128_abs (us128 a) (ns128 a) (a # 128)) (map Z.of_nat (seq 0 17)))
          (map Z.of_nat (seq 0 128)) = true.
Proof. vm_compute. reflexivity. Qed.

Lemma in_of_nat_seq k n : (0 <= k < Z.of_nat n)%Z -> In k (map Z.of_nat (seq 0 n)).
Proof.
  intros H. apply in_map_iff. exists (Z.to_nat k). split; [lia|]. apply in_seq. lia.
Qed.

Lemma frac_of d k : d == inject_Z k * (1#128) ->
  exists a, (0 <= a < 128)%Z /\ td_micros d = td_micros (a # 128) /\ td_nanos d == td_nanos (a # 128)
            /\ d == inject_Z (qfloor d) + (a # 128).
Proof.
  intros Hd. exists (k mod 128)%Z.
  pose proof (Z.mod_pos_bound k 128 ltac:(lia)) as Hm.
  pose proof (Z.div_mod k 128 ltac:(lia)) as Hk.
  set (a := (k mod 128)%Z) in *. set (q := (k / 128)%Z) in *.
  assert (Ea : (a # 128) == inject_Z a * (1#128)) by (unfold Qeq; cbn; lia).
  assert (A0 : 0 <= (a # 128) /\ (a # 128) < 1).
  { rewrite Ea. assert (inject_Z 0 <= inject_Z a) by (rewrite <- inject_Z_le; lia).
    assert (inject_Z a < inject_Z 128) by (rewrite <- inject_Z_lt; lia).
    change (inject_Z 0) with 0 in *. change (inject_Z 128) with 128 in *. lra. }
  assert (Ed : d == inject_Z q + (a # 128)).
  { rewrite Hd, Hk, inject_Z_plus, inject_Z_mult, Ea. change (inject_Z 128) with 128. lra. }
  assert (Fd : qfloor d = q) by (apply qfloor_unique; lra).
  assert (Fa : qfloor (a # 128) = 0%Z) by (apply qfloor_unique; change (inject_Z 0) with 0; lra).
  assert (Ef : d - inject_Z (qfloor d) == (a # 128) - inject_Z (qfloor (a # 128))).
  { rewrite Fd, Fa. change (inject_Z 0) with 0. lra. }
  assert (Em : td_micros d = td_micros (a # 128)).
  { unfold td_micros. apply qfloor_comp. rewrite Ef. reflexivity. }
  repeat split; try lia; try exact Em.
  - unfold td_nanos. rewrite Em, Ef. reflexivity.
  - rewrite Fd. exact Ed.
Qed.

Lemma Qlt_bool_and a b : a && b = true -> a = true /\ b = true.
Proof. apply andb_true_iff. Qed.

Lemma add_seconds_exact s u v v' r : (0 <= s < 86400)%Z -> v' == v ->
  Qeq_bool (b64 (b64 u + v)) r = true ->
  forallb (check128_abs u v r) (map Z.of_nat (seq 0 17)) = true ->
  b64 (b64 (inject_Z s + u) + v') == inject_Z s + r.
Proof.
  intros Rs Ev C0 C. destruct (Z.eq_dec s 0) as [Z0|NZ].
  - rewrite Z0. apply Qeq_bool_iff in C0.
    change (inject_Z 0) with 0. transitivity r; [|ring]. rewrite <- C0.
    rewrite (b64_comp (b64 (0 + u) + v') (b64 u + v)); [reflexivity|].
    rewrite (b64_comp (0 + u) u) by ring. rewrite Ev. reflexivity.
  - set (i := Z.log2 s).
    pose proof (Z.log2_spec s ltac:(lia)) as [L1 L2]. fold i in L1, L2.
    pose proof (Z.log2_nonneg s) as L0. fold i in L0.
    assert (L3 : (i < 17)%Z). { apply Z.log2_lt_pow2; lia. }
    rewrite forallb_forall in C. specialize (C i (in_of_nat_seq i 17 ltac:(lia))).
    unfold check128_abs in C. cbv zeta in C.
    apply Qlt_bool_and in C. destruct C as [C C5]. apply Qlt_bool_and in C. destruct C as [C C4].
    apply Qlt_bool_and in C. destruct C as [C C3]. apply Qlt_bool_and in C. destruct C as [C1 C2].
    apply Qle_bool_iff in C1, C3. apply Qltb_true in C2, C4. apply Qeq_bool_iff in C5.
    assert (E1 : b64 (inject_Z s + u) == inject_Z s + gfrac i u)
      by (apply b64_binade; try assumption; lia).
    assert (E2 : b64 (inject_Z s + u) + v' == inject_Z s + (gfrac i u + v)) by (rewrite E1, Ev; ring).
    rewrite (b64_comp _ _ E2), (b64_binade i); try assumption; try lia.
    rewrite C5. reflexivity.
Qed.

Lemma snd_to_seconds rnd d : snd (to_seconds rnd d) =
  rnd (rnd (inject_Z (td_seconds d) + rnd (inject_Z (td_micros d) / inject_Z 1000000))
       + rnd (rnd (td_nanos d) / inject_Z 1000000000)).
Proof. reflexivity. Qed.
Lemma fst_to_seconds rnd d : fst (to_seconds rnd d) = (td_days d * (3600 * 24))%Z.
Proof. reflexivity. Qed.

Lemma Ens128 d a : td_nanos d == td_nanos (a # 128) ->
   b64 (b64 (td_nanos d) / inject_Z 1000000000) == ns128 a.
Proof. intros Hn. unfold ns128. rewrite (b64_comp _ _ Hn). reflexivity. Qed.
Lemma Ed128 d a : d == inject_Z (qfloor d) + (a # 128) ->
  d - inject_Z (td_days d * (3600 * 24)) == inject_Z (td_seconds d) + (a # 128).
Proof.
  intros Ed. rewrite Ed at 1. unfold td_seconds. change (3600 * 24)%Z with 86400%Z. unfold Z.sub.
  rewrite inject_Z_plus, inject_Z_opp, !inject_Z_mult. ring.
Qed.
Lemma check128_inst a : (0 <= a < 128)%Z ->
  Qeq_bool (b64 (b64 (us128 a) + ns128 a)) (a # 128) = true /\
  forallb (check128_abs (us128 a) (ns128 a) (a # 128)) (map Z.of_nat (seq 0 17)) = true.
Proof.
  intros Ha. pose proof check128_all as C. rewrite forallb_forall in C.
  specialize (C a (in_of_nat_seq a 128 Ha)). cbv beta in C. apply andb_true_iff in C.
  exact C.
Qed.
Lemma us128_eq a : us128 a = b64 (inject_Z (td_micros (a # 128)) / inject_Z 1000000).
Proof. reflexivity. Qed.

Lemma to_seconds_128 d k : d == inject_Z k * (1#128) ->
  snd (to_seconds b64 d) == d - inject_Z (fst (to_seconds b64 d)).
Proof.
  intros Hd. destruct (frac_of d k Hd) as (a & Ha & Hm & Hn & Ed).
  rewrite snd_to_seconds, fst_to_seconds. rewrite (Ed128 d a Ed), Hm, <- us128_eq.
  destruct (check128_inst a Ha) as [C0 C].
  exact (add_seconds_exact (td_seconds d) (us128 a) (ns128 a) _ (a # 128) (td_seconds_range d) (Ens128 d a Hn) C0 C).
Qed.

Lemma n_float_128 d k fs j : d == inject_Z k * (1#128) -> (Z.abs k <= 2 ^ 53)%Z ->
  d * fs == inject_Z j -> (Z.abs j <= 2^53 - 1)%Z ->
  n_float b64 d fs == inject_Z (j + 1).
Proof.
  intros Hd Hk Hj Hb. unfold n_float.
  assert (Ed : inject_Z (fst (to_seconds b64 d)) + snd (to_seconds b64 d) == d).
  { rewrite (to_seconds_128 d k Hd). ring. }
  assert (Rd : b64 d == d).
  { apply (gr_is b64_good d k (-7)); [exact Hk|]. rewrite Hd. reflexivity. }
  rewrite (b64_comp _ _ Ed).
  assert (E2 : b64 d * fs == inject_Z j) by (rewrite Rd; exact Hj).
  rewrite (b64_comp _ _ E2).
  assert (Rj : b64 (inject_Z j) == inject_Z j) by (apply (gr_int b64_good); lia).
  assert (E3 : b64 (inject_Z j) + 1 == inject_Z (j + 1)) by (rewrite Rj, inject_Z_plus; reflexivity).
  rewrite (b64_comp _ _ E3). apply (gr_int b64_good). lia.
Qed.

Lemma period_pow2 p : (p <= 7)%Z -> period b64 (pow2 p) == pow2 (- p).
Proof.
  intros Hp. unfold period.
  assert (E : b64 (1 / pow2 p) = b64 (pow2 (-p))).
  { apply b64_comp. pose proof (pow2_pos p). pose proof (pow2_opp p) as O.
    assert (O2 : 1 / pow2 p == pow2 p * pow2 (-p) / pow2 p) by (rewrite O; reflexivity).
    rewrite O2. field. lra. }
  rewrite E. clear E.
  assert (R : b64 (pow2 (-p)) == pow2 (-p)).
  { apply (gr_is b64_good _ 1 (-p)); [lia|]. change (inject_Z 1) with 1. ring. }
  destruct (Z_le_gt_dec p 0) as [N|P].
  - (* whole seconds *)
    assert (I : b64 (pow2 (-p)) == inject_Z (2 ^ (-p))) by (rewrite R; apply pow2_Z; lia).
    unfold to_timedelta. cbv zeta. rewrite (qfloor_comp _ _ I), qfloor_Z.
    assert (Z1 : b64 (pow2 (-p)) - inject_Z (2 ^ (-p)) == 0) by (rewrite I; ring).
    rewrite (b64_comp _ _ Z1). change (b64 0) with 0.
    change (b64 (0 * inject_Z 1000000)) with 0. change (qfloor 0) with 0%Z.
    change (b64 (0 - inject_Z 0)) with 0. change (b64 (0 * inject_Z 1000)) with 0.
    change (Qeq_bool 0 0) with true. cbn [negb andb].
    rewrite <- pow2_Z by lia. assert (Z2 : inject_Z 0 / inject_Z 1000000 == 0) by reflexivity. rewrite Z2.
    assert (Z0 : 0 / inject_Z 1000000000 == 0) by reflexivity. rewrite Z0. ring.
  - assert (p = 1 \/ p = 2 \/ p = 3 \/ p = 4 \/ p = 5 \/ p = 6 \/ p = 7)%Z as K by lia.
    repeat (destruct K as [->|K]); [..|subst p]; vm_compute; reflexivity.
Qed.

(** In binary64, for fs = 2^p with p <= 7, sample -> time -> sample is the identity *)
Lemma roundtrip_pow2 p first last k t :
  (p <= 7)%Z -> (0 <= k)%Z -> (k * 2 ^ (7 - p) <= 2 ^ 53)%Z -> (k < 2 ^ 53)%Z ->
  sample_to_datetime b64 (pow2 p) first k None = Ok t ->
  t <= last ->
  from_time_to_sample b64 (pow2 p) first last t = Ok k /\
  to_time_to_sample b64 (pow2 p) first last t = Ok k.
Proof.
  intros Hp Hk Hb1 Hb2 Ht Hl. unfold sample_to_datetime in Ht. injection Ht as <-.
  pose proof (period_pow2 p Hp) as EP. pose proof (pow2_pos (-p)) as Pp.
  assert (K0 : 0 <= inject_Z k) by (change 0 with (inject_Z 0); rewrite <- inject_Z_le; exact Hk).
  set (t := first + inject_Z k * period b64 (pow2 p)) in *.
  assert (Et : t - first == inject_Z k * pow2 (-p)) by (unfold t; rewrite EP; ring).
  assert (P0 : 0 <= inject_Z k * pow2 (-p)) by nra.
  assert (NF : n_float b64 (t - first) (pow2 p) == inject_Z (k + 1)).
  { apply (n_float_128 (t - first) (k * 2 ^ (7 - p)) (pow2 p) k).
    - rewrite Et, inject_Z_mult, <- pow2_Z by lia. 
      assert (E7 : pow2 (7 - p) == pow2 (-p) * 128).
      { replace (7 - p)%Z with (-p + 7)%Z by lia. rewrite pow2_plus. reflexivity. }
      rewrite E7. lra.
    - rewrite Z.abs_eq; [exact Hb1|]. apply Z.mul_nonneg_nonneg; [lia|]. apply Z.pow_nonneg; lia.
    - rewrite Et. rewrite <- Qmult_assoc, (Qmult_comm (pow2 (-p))), pow2_opp. ring.
    - lia. }
  assert (TN : forall m, to_n_samples b64 (t - first) (pow2 p) m = (k + 1)%Z).
  { intros m. rewrite to_n_samples_eq. cbv zeta. rewrite (q_is_integer_Z _ _ NF), (qfloor_comp _ _ NF).
    apply qfloor_Z. }
  unfold from_time_to_sample, to_time_to_sample, check_from_time, check_to_time, bind.
  destruct (Qltb last t) eqn:A1; [apply Qltb_true in A1; exfalso; lra|].
  destruct (Qltb (t - first) 0) eqn:A2; [apply Qltb_true in A2; exfalso; lra|].
  destruct (Qltb t first) eqn:A3; [apply Qltb_true in A3; exfalso; lra|].
  destruct (Qltb (last - t) 0) eqn:A4; [apply Qltb_true in A4; exfalso; lra|].
  rewrite !TN. split; f_equal; lia.
Qed.

(** ** floor/ceil sample lookups are within one sample for every good rounding *)
Lemma near_ceil x y : Qabs (y - x) < 1 # 2 -> (qceil x - 1 <= qceil y <= qceil x + 1)%Z.
Proof.
  intros H. destruct (qceil_spec x) as [A B], (qceil_spec y) as [C D].
  assert (H' : - (1#2) < y - x /\ y - x < 1#2) by (revert H; apply Qabs_case; intros; lra).
  assert (inject_Z (qceil x) < inject_Z (qceil y + 2)) by (rewrite inject_Z_plus; change (inject_Z 2) with 2; lra).
  assert (inject_Z (qceil y) < inject_Z (qceil x + 2)) by (rewrite inject_Z_plus; change (inject_Z 2) with 2; lra).
  rewrite <- inject_Z_lt in *. lia.
Qed.
Lemma near_floor x y : Qabs (y - x) < 1 # 2 -> (qfloor x - 1 <= qfloor y <= qfloor x + 1)%Z.
Proof.
  intros H. destruct (qfloor_spec x) as [A B], (qfloor_spec y) as [C D].
  assert (H' : - (1#2) < y - x /\ y - x < 1#2) by (revert H; apply Qabs_case; intros; lra).
  assert (inject_Z (qfloor x) < inject_Z (qfloor y + 2)) by (rewrite inject_Z_plus; change (inject_Z 2) with 2; lra).
  assert (inject_Z (qfloor y) < inject_Z (qfloor x + 2)) by (rewrite inject_Z_plus; change (inject_Z 2) with 2; lra).
  rewrite <- inject_Z_lt in *. lia.
Qed.

Lemma from_time_within_one {rnd} (G : good_rnd rnd) fs first last t :
  0 <= fs -> first <= t -> t <= last -> (t - first) * fs + 1 <= inject_Z (2 ^ 49) ->
  exists k, from_time_to_sample rnd fs first last t = Ok k /\
            (qceil ((t - first) * fs) - 1 <= k <= qceil ((t - first) * fs) + 1)%Z.
Proof.
  intros Hf H1 H2 Hb. unfold from_time_to_sample, check_from_time, bind.
  destruct (Qltb last t) eqn:A1; [apply Qltb_true in A1; exfalso; lra|].
  destruct (Qltb (t - first) 0) eqn:A2; [apply Qltb_true in A2; exfalso; lra|].
  eexists. split; [reflexivity|].
  pose proof (n_float_abs_err G (t - first) fs ltac:(lra) Hf Hb) as E.
  rewrite to_n_samples_eq. cbv zeta. set (n := n_float rnd (t - first) fs) in *.
  apply near_ceil in E. change 1 with (inject_Z 1) in E. rewrite qceil_plus_Z in E.
  assert (C : (if q_is_integer n then qfloor n else qceil n) = qceil n).
  { destruct (q_is_integer n) eqn:I; [|reflexivity]. apply q_is_integer_true in I.
    symmetry. eapply qceil_floor_int. exact I. }
  rewrite C. lia.
Qed.

Lemma to_time_within_one {rnd} (G : good_rnd rnd) fs first last t :
  0 <= fs -> first <= t -> t <= last -> (t - first) * fs + 1 <= inject_Z (2 ^ 49) ->
  exists k, to_time_to_sample rnd fs first last t = Ok k /\
            (qfloor ((t - first) * fs) - 1 <= k <= qfloor ((t - first) * fs) + 1)%Z.
Proof.
  intros Hf H1 H2 Hb. unfold to_time_to_sample, check_to_time, bind.
  destruct (Qltb t first) eqn:A1; [apply Qltb_true in A1; exfalso; lra|].
  destruct (Qltb (last - t) 0) eqn:A2; [apply Qltb_true in A2; exfalso; lra|].
  eexists. split; [reflexivity|].
  pose proof (n_float_abs_err G (t - first) fs ltac:(lra) Hf Hb) as E.
  rewrite to_n_samples_eq. cbv zeta. set (n := n_float rnd (t - first) fs) in *.
  apply near_floor in E. change 1 with (inject_Z 1) in E. rewrite qfloor_plus_Z in E.
  destruct (q_is_integer n); lia.
Qed.
