(** C86: timestamps of recordings and decimation levels. *)
From Coq Require Import String.
From Verif Require Import Base.Prelude Base.Rounding Base.ListUtil Base.NdArray Model.Sampling Spec.Sampling Model.Time Model.Decimate Model.Window Model.Timestamps
  Spec.Time Spec.Decimate Spec.Window Proofs.Sampling Proofs.DecParams Proofs.DecFinal Proofs.DecRun Proofs.TimeData2.
Open Scope list_scope.
Open Scope Q_scope.

Lemma qeq0 x : 0 < x -> Qeq_bool x 0 = false.
Proof. intros H. destruct (Qeq_bool x 0) eqn:E; [|reflexivity]. apply Qeq_bool_iff in E. lra. Qed.

(** ** high resolution *)
Lemma high_all rnd nt ndl first f n : 0 < f -> exists ts, stamps_of rnd nt ndl first f n None false = Ok (High ts) /\ length ts = Z.to_nat n /\
  forall k, (0 <= k < n)%Z -> nth_error ts (Z.to_nat k) = Some (first + inject_Z k * period rnd f).
Proof.
  intros F. unfold stamps_of. rewrite (qeq0 f F). cbn [datetime_array bind]. eexists. split; [reflexivity|]. split; [rewrite map_length, arange_length; reflexivity|].
  intros k Hk. rewrite nth_error_map, arange_nth, Z2Nat.id by lia. reflexivity.
Qed.
Lemma high_some rnd nt ndl first f n l : 0 < f -> exists ts, stamps_of rnd nt ndl first f n (Some l) false = Ok (High ts) /\ length ts = length l /\
  forall i k, nth_error l i = Some k -> nth_error ts i = Some (first + inject_Z k * period rnd f).
Proof.
  intros F. unfold stamps_of. rewrite (qeq0 f F). cbn [datetime_array bind]. eexists. split; [reflexivity|]. split; [apply map_length|].
  intros i k Hk. rewrite nth_error_map, Hk. reflexivity.
Qed.
(** ** estimated *)
Lemma est_all rnd nt ndl first f n : 0 < f -> (0 <= n)%Z -> exists ts, stamps_of rnd nt ndl first f n None true = Ok (Estimated ts) /\ length ts = Z.to_nat n /\
  forall k, (0 <= k < n)%Z -> nth_error ts (Z.to_nat k) = Some (nt first + k * ndl (rnd (1 / f)%Q))%Z.
Proof.
  intros F Hn. unfold stamps_of, estimate, datetime_array_estimate. rewrite (qeq0 f F). destruct (Z.ltb_spec n 0); [lia|]. cbn [bind].
  eexists. split; [reflexivity|]. split; [rewrite map_length, arange_length; reflexivity|].
  intros k Hk. rewrite nth_error_map, arange_nth, Z2Nat.id by lia. reflexivity.
Qed.
Lemma est_some rnd nt ndl first f n l : 0 < f -> exists ts, stamps_of rnd nt ndl first f n (Some l) true = Ok (Estimated ts) /\ length ts = length l /\
  forall i k, nth_error l i = Some k -> nth_error ts i = Some (nt first + k * ndl (rnd (1 / f)%Q))%Z.
Proof.
  intros F. unfold stamps_of, estimate. rewrite (qeq0 f F). cbn [bind]. eexists. split; [reflexivity|]. split; [apply map_length|].
  intros i k Hk. rewrite nth_error_map, Hk. reflexivity.
Qed.

Lemma inj_mult a b : inject_Z (a * b) == inject_Z a * inject_Z b.
Proof. rewrite inject_Z_mult. reflexivity. Qed.
(** the time of sample k *)
Lemma high_bound first f k : 0 < f -> (0 <= k)%Z ->
  0 <= (first + inject_Z k / f) - (first + inject_Z k * period exact f) /\ (first + inject_Z k / f) - (first + inject_Z k * period exact f) <= inject_Z k * tiny.
Proof.
  intros F K. unfold period. destruct (to_timedelta_exact_err (exact (1 / f))) as [A B]. change (exact (1 / f)) with (1 / f) in *. set (x := to_timedelta exact (1 / f)) in *.
  assert (E : inject_Z k / f == inject_Z k * (1 / f)) by (field; lra). rewrite E.
  assert (0 <= inject_Z k) by (change 0 with (inject_Z 0); rewrite <- Zle_Qle; exact K).
  set (q := 1 / f) in *. set (z := inject_Z k) in *. clearbody q z x. split; nra.
Qed.
Lemma est_bound nt ndl first f k : near_ns nt -> near_ns ndl -> 0 < f -> (0 <= k)%Z ->
  Qabs (inject_Z (nt first + k * ndl (exact (1 / f))) - 1000000000 * (first + inject_Z k / f)) <= inject_Z k + 1.
Proof.
  intros N1 N2 F K. pose proof (N1 first) as A. pose proof (N2 (1 / f)) as B. unfold exact.
  rewrite inject_Z_plus, inject_Z_mult. apply Qabs_Qle_condition in A, B. apply Qabs_Qle_condition.
  assert (E : inject_Z k / f == inject_Z k * (1 / f)) by (field; lra). rewrite E.
  assert (0 <= inject_Z k) by (change 0 with (inject_Z 0); rewrite <- Zle_Qle; exact K).
  set (q := 1 / f) in *. set (z := inject_Z k) in *. set (u := inject_Z (nt first)) in *. set (v := inject_Z (ndl q)) in *. clearbody q z u v. split; nra.
Qed.

(** drift *)
Lemma abs_ge x B : B < x \/ B < - x -> B < Qabs x.
Proof. intros H. apply Qabs_case; intros; lra. Qed.
Lemma drift (c d B : Q) : ~ d == 0 -> exists K, forall k, (K <= k)%Z -> B < Qabs (c + inject_Z k * d).
Proof.
  intros D. set (m := (Qabs B + Qabs c + 1) / Qabs d). exists (Z.max 0 (qfloor m + 1)). intros k Hk.
  assert (Dp : 0 < Qabs d). { destruct (Qlt_le_dec 0 (Qabs d)) as [|L]; [assumption|]. exfalso. apply D. pose proof (Qabs_nonneg d). assert (Z : Qabs d == 0) by lra.
    revert Z. apply Qabs_case; intros; lra. }
  destruct (qfloor_spec m) as [_ M].
  assert (L : m <= inject_Z k). { apply Qlt_le_weak. eapply Qlt_le_trans; [exact M|]. change 1 with (inject_Z 1). rewrite <- inject_Z_plus, <- Zle_Qle. lia. }
  assert (E : m * Qabs d == Qabs B + Qabs c + 1) by (unfold m; field; lra).
  assert (P : Qabs B + Qabs c + 1 <= inject_Z k * Qabs d). { rewrite <- E. apply Qmult_le_compat_r; [exact L|lra]. }
  assert (P' : Qabs (inject_Z k * d) == inject_Z k * Qabs d). { rewrite Qabs_Qmult. rewrite (Qabs_pos (inject_Z k)); [reflexivity|]. change 0 with (inject_Z 0). rewrite <- Zle_Qle. lia. }
  pose proof (Qabs_triangle (c + inject_Z k * d) (- c)) as T. rewrite Qabs_opp in T.
  assert (E2 : c + inject_Z k * d + - c == inject_Z k * d) by ring. rewrite E2 in T. rewrite P' in T.
  pose proof (Qle_Qabs B). lra.
Qed.
Lemma est_drift (nt ndl : Q -> Z) first f : 0 < f -> (forall z, ~ 1000000000 / f == inject_Z z) -> forall B, exists K, forall k, (K <= k)%Z ->
  B < Qabs (inject_Z (nt first + k * ndl (exact (1 / f))) - 1000000000 * (first + inject_Z k / f)).
Proof.
  intros F N B. set (v := ndl (exact (1 / f))).
  destruct (drift (inject_Z (nt first) - 1000000000 * first) (inject_Z v - 1000000000 / f) B) as [K HK].
  { intros E. apply (N v). lra. }
  exists K. intros k Hk. specialize (HK k Hk). eapply Qlt_le_trans; [exact HK|]. apply Qle_lteq. right. apply Qabs_wd.
  rewrite inject_Z_plus, inject_Z_mult. field. lra.
Qed.

Lemma py_nth_nat {A} (l : list A) j : py_nth l (Z.of_nat j) = nth_error l j.
Proof. unfold py_nth. destruct (Z.ltb_spec (Z.of_nat j) 0); [lia|]. destruct (Z.ltb_spec (Z.of_nat j) 0); [lia|]. rewrite Nat2Z.id. reflexivity. Qed.

(** ** decimation levels *)
Lemma prodZ_pos l : Forall (fun f => (1 <= f)%Z) l -> (1 <= prodZ l)%Z.
Proof. induction 1; cbn; [lia|nia]. Qed.
Lemma Forall_firstn' {A} (P : A -> Prop) n l : Forall P l -> Forall P (firstn n l).
Proof. intros H. revert n. induction H; intros [|n]; cbn; constructor; auto. Qed.

Section Levels.
  Variables (nt ndl : Q -> Z) (orc : oracles) (D : Z) (b : bool) (maxf : Z) (p : dec_params) (td : tdata) (dd : dec_data).
  Hypotheses (GO : good_oracles orc) (HD : (D <= 2 ^ 49)%Z) (BA : forall x, best_approx D x (o_limit_denominator orc x)) (HM : (3 <= maxf)%Z)
    (U : usable exact td) (LI : length (dp_increments p) = Z.to_nat (dp_n_levels p))
    (FI : Forall (fun f => (1 <= f)%Z /\ (b = true -> f <= D)%Z) (dp_increments p)) (R : decimator_run exact orc b maxf p td = Ok dd).
  Let total j := prodZ (firstn (S j) (dp_increments p)).
  Lemma level_facts j : (j < Z.to_nat (dd_n_levels dd))%nat -> exists md x, nth_error (dd_levels_md dd) j = Some md /\ get_level dd (Z.of_nat j) = Ok x /\
    (forall r, In r x -> Z.of_nat (length r) = lm_n_samples md) /\ lm_first md = first_time (meta td) /\ 0 < lm_fs md /\ 1 / lm_fs md == inject_Z (total j) / fs (meta td) /\
    (0 <= lm_n_samples md)%Z /\ (Z.of_nat j >=? dd_n_levels dd)%Z = false.
  Proof.
    intros Hj. destruct (decimator_spec exact orc D b maxf p td dd exact_good GO HD BA HM U LI FI R) as (N & _ & _ & _ & _ & _ & _ & L & _).
    destruct (L j Hj) as (md & x & M & X & LX & RX & NS & _ & F & _ & FS). exists md, x. split; [exact M|]. split; [exact X|]. split; [exact RX|]. split; [exact F|].
    assert (FI' : Forall (fun f => (1 <= f)%Z) (firstn (S j) (dp_increments p))) by (apply Forall_firstn'; eapply Forall_impl; [|exact FI]; intros f [K _]; exact K).
    pose proof (prodZ_pos _ FI') as P. pose proof (div_chain_exact (fs (meta td)) _ FI') as E. rewrite <- FS in E. change (prodZ (firstn (S j) (dp_increments p))) with (total j) in E, P.
    assert (F0 : 0 < fs (meta td)) by apply U.
    assert (P' : 0 < inject_Z (total j)) by (change 0 with (inject_Z 0); rewrite <- Zlt_Qlt; lia).
    assert (Fl : 0 < lm_fs md). { rewrite E. apply Qlt_shift_div_l; [exact P'|]. lra. }
    split; [exact Fl|]. split. { rewrite E. field. split; lra. }
    split. { rewrite NS. fold (total j). rewrite TimeData2.ceil_div_eq by lia. assert (1 <= n_samples (meta td))%Z by apply U. apply Z.div_pos; lia. }
    rewrite Z.geb_leb. apply Z.leb_gt. lia.
  Qed.
  Lemma c86_level j : (j < Z.to_nat (dd_n_levels dd))%nat -> exists md x ts es, nth_error (dd_levels_md dd) j = Some md /\ get_level dd (Z.of_nat j) = Ok x /\
    dec_timestamps exact nt ndl dd (Z.of_nat j) None false = Ok (High ts) /\ dec_timestamps exact nt ndl dd (Z.of_nat j) None true = Ok (Estimated es) /\
    (forall r, In r x -> length r = length ts /\ length r = length es) /\
    (forall k t, nth_error ts k = Some t -> let original := stamp (first_time (meta td)) (1 / fs (meta td)) (Z.of_nat k * total j) in
       0 <= original - t /\ original - t <= inject_Z (Z.of_nat k) * tiny /\ (period exact (lm_fs md) == 1 / lm_fs md -> t == original)) /\
    (near_ns nt -> near_ns ndl -> forall k e, nth_error es k = Some e ->
       Qabs (inject_Z e - 1000000000 * stamp (first_time (meta td)) (1 / fs (meta td)) (Z.of_nat k * total j)) <= inject_Z (Z.of_nat k) + 1).
  Proof.
    intros Hj. destruct (level_facts j Hj) as (md & x & M & X & RX & F & Fl & E & N & G).
    destruct (high_all exact nt ndl (lm_first md) (lm_fs md) (lm_n_samples md) Fl) as (ts & T1 & T2 & T3).
    destruct (est_all exact nt ndl (lm_first md) (lm_fs md) (lm_n_samples md) Fl N) as (es & S1 & S2 & S3).
    exists md, x, ts, es. split; [exact M|]. split; [exact X|]. unfold dec_timestamps. rewrite G, py_nth_nat, M. split; [exact T1|]. split; [exact S1|].
    split. { intros r Hr. specialize (RX r Hr). rewrite T2, S2. split; lia. }
    assert (O : forall k, stamp (first_time (meta td)) (1 / fs (meta td)) (Z.of_nat k * total j) == lm_first md + inject_Z (Z.of_nat k) / lm_fs md).
    { intros k. unfold stamp. rewrite F, inject_Z_mult. assert (F0 : 0 < fs (meta td)) by apply U.
      assert (K : inject_Z (Z.of_nat k) / lm_fs md == inject_Z (Z.of_nat k) * (1 / lm_fs md)) by (field; lra). rewrite K, E. field. lra. }
    split.
    - intros k t Hk. cbv zeta. assert (Hk' : (k < length ts)%nat) by (apply nth_error_Some; congruence).
      specialize (T3 (Z.of_nat k) ltac:(lia)). rewrite Nat2Z.id, Hk in T3. injection T3 as ->. rewrite (O k).
      destruct (high_bound (lm_first md) (lm_fs md) (Z.of_nat k) Fl ltac:(lia)) as [B1 B2]. split; [exact B1|]. split; [exact B2|].
      intros PT. rewrite PT. field. lra.
    - intros N1 N2 k e Hk. assert (Hk' : (k < length es)%nat) by (apply nth_error_Some; congruence).
      specialize (S3 (Z.of_nat k) ltac:(lia)). rewrite Nat2Z.id, Hk in S3. injection S3 as ->. rewrite (O k).
      apply est_bound; try assumption. lia.
  Qed.
End Levels.

(** ** a recording *)
Lemma high_stmt first f k : 0 < f -> (0 <= k)%Z -> let true_time := first + inject_Z k / f in let t := first + inject_Z k * period exact f in
  0 <= true_time - t /\ true_time - t <= inject_Z k * tiny /\ (period exact f == 1 / f -> t == true_time).
Proof.
  intros F K true_time t. destruct (high_bound first f k F K) as [A B]. split; [exact A|]. split; [exact B|]. intros P. unfold t, true_time. rewrite P. field. lra.
Qed.
Lemma c86_recording : forall nt ndl td, 0 < fs (meta td) ->
  (exists ts, time_timestamps exact nt ndl td None false = Ok (High ts) /\ length ts = Z.to_nat (n_samples (meta td)) /\
    forall k t, nth_error ts k = Some t -> let true_time := first_time (meta td) + inject_Z (Z.of_nat k) / fs (meta td) in
      0 <= true_time - t /\ true_time - t <= inject_Z (Z.of_nat k) * tiny /\ (period exact (fs (meta td)) == 1 / fs (meta td) -> t == true_time)) /\
  (forall l, (forall k, In k l -> (0 <= k)%Z) -> exists ts, time_timestamps exact nt ndl td (Some l) false = Ok (High ts) /\ length ts = length l /\
    forall i k t, nth_error l i = Some k -> nth_error ts i = Some t -> let true_time := first_time (meta td) + inject_Z k / fs (meta td) in
      0 <= true_time - t /\ true_time - t <= inject_Z k * tiny /\ (period exact (fs (meta td)) == 1 / fs (meta td) -> t == true_time)).
Proof.
  intros nt ndl td F. unfold time_timestamps. split.
  - destruct (high_all exact nt ndl (first_time (meta td)) _ (n_samples (meta td)) F) as (ts & T1 & T2 & T3). exists ts. split; [exact T1|]. split; [exact T2|].
    intros k t Hk. assert (Hk' : (k < length ts)%nat) by (apply nth_error_Some; congruence).
    specialize (T3 (Z.of_nat k) ltac:(lia)). rewrite Nat2Z.id, Hk in T3. injection T3 as ->. apply high_stmt; [exact F|lia].
  - intros l Hl. destruct (high_some exact nt ndl (first_time (meta td)) _ (n_samples (meta td)) l F) as (ts & T1 & T2 & T3). exists ts. split; [exact T1|]. split; [exact T2|].
    intros i k t Hk Ht. rewrite (T3 i k Hk) in Ht. injection Ht as <-. apply high_stmt; [exact F|]. apply Hl. eapply nth_error_In. exact Hk.
Qed.
Lemma c86_estimate : forall nt ndl td, near_ns nt -> near_ns ndl -> 0 < fs (meta td) -> (0 <= n_samples (meta td))%Z ->
  (exists es, time_timestamps exact nt ndl td None true = Ok (Estimated es) /\ length es = Z.to_nat (n_samples (meta td)) /\
    forall k e, nth_error es k = Some e -> Qabs (inject_Z e - 1000000000 * (first_time (meta td) + inject_Z (Z.of_nat k) / fs (meta td))) <= inject_Z (Z.of_nat k) + 1) /\
  (forall l, (forall k, In k l -> (0 <= k)%Z) -> exists es, time_timestamps exact nt ndl td (Some l) true = Ok (Estimated es) /\ length es = length l /\
    forall i k e, nth_error l i = Some k -> nth_error es i = Some e -> Qabs (inject_Z e - 1000000000 * (first_time (meta td) + inject_Z k / fs (meta td))) <= inject_Z k + 1).
Proof.
  intros nt ndl td N1 N2 F N. unfold time_timestamps. split.
  - destruct (est_all exact nt ndl (first_time (meta td)) _ (n_samples (meta td)) F N) as (ts & T1 & T2 & T3). exists ts. split; [exact T1|]. split; [exact T2|].
    intros k t Hk. assert (Hk' : (k < length ts)%nat) by (apply nth_error_Some; congruence).
    specialize (T3 (Z.of_nat k) ltac:(lia)). rewrite Nat2Z.id, Hk in T3. injection T3 as ->. apply est_bound; try assumption. lia.
  - intros l Hl. destruct (est_some exact nt ndl (first_time (meta td)) _ (n_samples (meta td)) l F) as (ts & T1 & T2 & T3). exists ts. split; [exact T1|]. split; [exact T2|].
    intros i k t Hk Ht. rewrite (T3 i k Hk) in Ht. injection Ht as <-. apply est_bound; try assumption. apply Hl. eapply nth_error_In. exact Hk.
Qed.
Lemma one_stamp nt ndl m dt data k : 0 < fs m -> time_timestamps exact nt ndl (mkData m dt data) (Some [k]) true = Ok (Estimated [(nt (first_time m) + k * ndl (exact (1 / fs m)%Q))%Z]).
Proof. intros F. unfold time_timestamps, stamps_of, estimate. cbn [meta]. rewrite (qeq0 _ F). reflexivity. Qed.
Lemma c86_drift : forall nt ndl m dt, 0 < fs m -> (forall z, ~ 1000000000 / fs m == inject_Z z) ->
  forall bound, exists K, forall k data, (K <= k)%Z -> exists e, time_timestamps exact nt ndl (mkData m dt data) (Some [k]) true = Ok (Estimated [e]) /\
    bound < Qabs (inject_Z e - 1000000000 * (first_time m + inject_Z k / fs m)).
Proof.
  intros nt ndl m dt F N B. destruct (est_drift nt ndl (first_time m) (fs m) F N B) as [K HK]. exists K. intros k data Hk.
  eexists. split; [apply one_stamp; exact F|]. apply HK. exact Hk.
Qed.
Lemma c86_drift_4096 : forall nt ndl m dt data k, fs m = 4096 -> ndl (1 / 4096) = 244141%Z -> inject_Z (nt (first_time m)) == 1000000000 * first_time m -> (325521 <= k)%Z ->
  exists e, time_timestamps exact nt ndl (mkData m dt data) (Some [k]) true = Ok (Estimated [e]) /\
    1000000000 * (first_time m + (inject_Z k + (1 # 2)) / 4096) < inject_Z e /\
    inject_Z e == 1000000000 * (first_time m + inject_Z k / 4096) + (3 # 8) * inject_Z k.
Proof.
  intros nt ndl m dt data k F Nd N K. eexists. split; [apply one_stamp; rewrite F; reflexivity|]. rewrite F. change (exact (1 / 4096)) with (1 / 4096). rewrite Nd.
  rewrite inject_Z_plus, inject_Z_mult, N. assert (K' : inject_Z 325521 <= inject_Z k) by (rewrite <- Zle_Qle; exact K).
  change (inject_Z 325521) with (325521 # 1) in K'. change (inject_Z 244141) with (244141 # 1).
  assert (E : forall x, x / 4096 == x * (1 # 4096)) by (intros; field). rewrite !E. split; lra.
Qed.
Lemma c86_negative : forall nt ndl dd m md, dd_levels_md dd = m ++ [md] -> 0 < lm_fs md -> dd_n_levels dd = Z.of_nat (length (dd_levels_md dd)) ->
  (forall k x, In (k, x) (dd_data dd) -> (0 <= k)%Z) ->
  get_level dd (-1) = Err KeyError /\ exists ts, dec_timestamps exact nt ndl dd (-1) None false = Ok (High ts) /\ length ts = Z.to_nat (lm_n_samples md).
Proof.
  intros nt ndl dd m md L F N D. split.
  - unfold get_level. rewrite N, Z.geb_leb. destruct (Z.leb_spec (Z.of_nat (length (dd_levels_md dd))) (-1)); [lia|].
    destruct (find (fun kv => Z.eqb (fst kv) (-1)) (dd_data dd)) as [[k x]|] eqn:E; [|reflexivity].
    apply find_some in E. destruct E as [I Q]. cbn in Q. apply Z.eqb_eq in Q. specialize (D k x I). lia.
  - destruct (high_all exact nt ndl (lm_first md) (lm_fs md) (lm_n_samples md) F) as (ts & T1 & T2 & _). exists ts. split; [|exact T2].
    unfold dec_timestamps. rewrite N, Z.geb_leb. destruct (Z.leb_spec (Z.of_nat (length (dd_levels_md dd))) (-1)); [lia|].
    assert (E : py_nth (dd_levels_md dd) (-1) = Some md).
    { unfold py_nth. change (-1 <? 0)%Z with true. cbn iota. rewrite L, app_length. cbn [length].
      destruct (Z.ltb_spec (-1 + Z.of_nat (length m + 1)) 0); [lia|]. rewrite nth_error_app2 by lia.
      replace (Z.to_nat (-1 + Z.of_nat (length m + 1)) - length m)%nat with 0%nat by lia. reflexivity. }
    rewrite E. exact T1.
Qed.
