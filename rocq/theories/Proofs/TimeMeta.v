(** Reading ranges, subsections, history and consistency of metadata *)
From Coq Require Import String.
From Verif Require Import Base.Prelude Base.Rounding Base.ListUtil Base.Interp Model.Sampling Model.Time
  Spec.Sampling Spec.Time Proofs.Sampling Proofs.SamplingFloat.
Open Scope Q_scope.

Lemma bind_ok {A B} (r : res A) (f : A -> res B) b :
  bind r f = Ok b -> exists a, r = Ok a /\ f a = Ok b.
Proof. destruct r; cbn; [eauto|discriminate]. Qed.

Ltac inv_bind H :=
  let a := fresh "a" in let H1 := fresh "B" in
  apply bind_ok in H; destruct H as (a & H1 & H).

(** ** C08 *)
Lemma n_float_ge_1 {rnd} (G : good_rnd rnd) d fs : 0 <= d -> 0 <= fs -> 1 <= n_float rnd d fs.
Proof.
  intros Hd Hf. unfold n_float.
  set (x := rnd (inject_Z (fst (to_seconds rnd d)) + snd (to_seconds rnd d))).
  assert (Hx : 0 <= x).
  { unfold x. apply (gr_nonneg G).
    assert (Rd : (0 <= td_days d)%Z).
    { unfold td_days. destruct (qfloor_spec (d / inject_Z 86400)) as [A B].
      assert (0 <= d / inject_Z 86400) by (change (d / inject_Z 86400) with (d * (1 # 86400)); lra).
      assert (inject_Z (-1) < inject_Z (qfloor (d / inject_Z 86400))) as L by (change (inject_Z (-1)) with (-(1)); lra).
      rewrite <- inject_Z_lt in L. lia. }
    unfold to_seconds. cbn [fst snd].
    pose proof (td_seconds_range d) as Rs. pose proof (td_micros_range d) as Rm. destruct (td_nanos_range d) as [Rn _].
    assert (P0 : forall k, (0 <= k)%Z -> 0 <= inject_Z k) by (intros k Hk; change 0 with (inject_Z 0); rewrite <- inject_Z_le; exact Hk).
    assert (0 <= inject_Z (td_days d * (3600 * 24))) by (apply P0; lia).
    assert (0 <= rnd (inject_Z (td_micros d) / inject_Z 1000000)).
    { apply (gr_nonneg G). change (inject_Z (td_micros d) / inject_Z 1000000) with (inject_Z (td_micros d) * (1#1000000)).
      assert (0 <= inject_Z (td_micros d)) by (apply P0; lia). lra. }
    assert (0 <= rnd (rnd (td_nanos d) / inject_Z 1000000000)).
    { apply (gr_nonneg G). change (rnd (td_nanos d) / inject_Z 1000000000) with (rnd (td_nanos d) * (1#1000000000)).
      pose proof (gr_nonneg G _ Rn). lra. }
    assert (0 <= inject_Z (td_seconds d)) by (apply P0; lia).
    assert (0 <= rnd (inject_Z (td_seconds d) + rnd (inject_Z (td_micros d) / inject_Z 1000000))) by (apply (gr_nonneg G); lra).
    assert (0 <= rnd (rnd (inject_Z (td_seconds d) + rnd (inject_Z (td_micros d) / inject_Z 1000000)) + rnd (rnd (td_nanos d) / inject_Z 1000000000)))
      by (apply (gr_nonneg G); lra).
    lra. }
  assert (Hy : 0 <= rnd (x * fs)) by (apply (gr_nonneg G); nra).
  assert (R1 : rnd 1 == 1) by (exact (gr_int G 1 ltac:(lia))).
  apply Qle_trans with (rnd 1); [rewrite R1; apply Qle_refl|]. apply (gr_mono _ G). lra.
Qed.

Lemma to_n_samples_ge_1 {rnd} (G : good_rnd rnd) d fs m : 0 <= d -> 0 <= fs -> (1 <= to_n_samples rnd d fs m)%Z.
Proof.
  intros Hd Hf. pose proof (n_float_ge_1 G d fs Hd Hf) as H.
  pose proof (to_n_samples_order rnd d fs) as O.
  assert ((1 <= to_n_samples rnd d fs Mfloor)%Z).
  { rewrite to_n_samples_eq. cbv zeta.
    assert (1 <= qfloor (n_float rnd d fs))%Z.
    { change 1%Z with (qfloor 1). apply Qfloor_resp_le. exact H. }
    destruct (q_is_integer _); assumption. }
  destruct m; lia.
Qed.

Lemma from_time_nonneg {rnd} (G : good_rnd rnd) fs first last t k : 0 <= fs ->
  from_time_to_sample rnd fs first last t = Ok k -> (0 <= k)%Z.
Proof.
  intros Hf H. unfold from_time_to_sample, check_from_time in H.
  destruct (Qltb last t); [discriminate|]. 
  destruct (Qltb (t - first) 0) eqn:E; cbv beta iota delta [bind] in H; injection H as <-.
  - assert (P : 0 <= first - first) by lra. pose proof (to_n_samples_ge_1 G (first - first) fs Mceil P Hf). lia.
  - apply Qltb_false in E. assert (P : 0 <= t - first) by lra. pose proof (to_n_samples_ge_1 G (t - first) fs Mceil P Hf). lia.
Qed.

Lemma to_time_range {rnd} (G : good_rnd rnd) fs first last n t k : 0 <= fs -> first <= last ->
  (last - first) * fs < inject_Z n - (1#2) -> (n <= 2 ^ 49 - 1)%Z ->
  to_time_to_sample rnd fs first last t = Ok k -> (0 <= k <= n - 1)%Z.
Proof.
  intros Hf Hfl Hd Hn H.
  assert (Key : forall u, first <= u -> u <= last ->
            (0 <= to_n_samples rnd (u - first) fs Mfloor - 1 <= n - 1)%Z).
  { intros u H1 H2. pose proof (to_n_samples_ge_1 G (u - first) fs Mfloor ltac:(lra) Hf) as L.
    assert (M : (u - first) * fs <= (last - first) * fs) by (apply Qmult_le_compat_r; lra).
    assert (Bd : (u - first) * fs + 1 <= inject_Z (2 ^ 49)).
    { assert (inject_Z n <= inject_Z (2^49 - 1)) as Hn' by (rewrite <- inject_Z_le; exact Hn).
      change (inject_Z (2^49 - 1)) with (562949953421311#1) in Hn'. change (inject_Z (2^49)) with (562949953421312#1). lra. }
    pose proof (n_float_abs_err G (u - first) fs ltac:(lra) Hf Bd) as E.
    assert (F : (qfloor (n_float rnd (u - first) fs) <= n)%Z).
    { set (x := n_float rnd (u - first) fs) in *.
      assert (x < inject_Z n + 1) by (revert E; apply Qabs_case; intros; lra).
      destruct (qfloor_spec x) as [F1 _].
      assert (inject_Z (qfloor x) < inject_Z (n + 1)) as L2 by (rewrite inject_Z_plus; change (inject_Z 1) with 1; lra).
      rewrite <- inject_Z_lt in L2. lia. }
    rewrite to_n_samples_eq in *. cbv zeta in *. destruct (q_is_integer _); lia. }
  unfold to_time_to_sample, check_to_time in H.
  destruct (Qltb t first) eqn:E1; [discriminate|]. apply Qltb_false in E1.
  destruct (Qltb (last - t) 0) eqn:E2; cbv beta iota delta [bind] in H; injection H as <-.
  - apply Key; lra.
  - apply Qltb_false in E2. apply Key; lra.
Qed.

Lemma read_samples_valid {rnd} (G : good_rnd rnd) m ft tt fsm tsm a b :
  0 <= fs m -> first_time m <= last_time m -> (1 <= n_samples m <= 2 ^ 49 - 1)%Z ->
  (last_time m - first_time m) * fs m < inject_Z (n_samples m) - (1#2) ->
  get_read_samples rnd m ft tt fsm tsm = Ok (a, b) ->
  (0 <= a)%Z /\ (a < b)%Z /\ (b <= n_samples m - 1)%Z.
Proof.
  intros Hf Hfl Hn Hd H. unfold get_read_samples in H.
  inv_bind H. rename a0 into ra, B into Ba. inv_bind H. rename a0 into rb, B into Bb.
  destruct (ra >=? rb)%Z eqn:E; [discriminate|]. injection H as -> ->.
  assert (A : (0 <= a)%Z).
  { destruct ft as [t|].
    - eapply from_time_nonneg; eassumption.
    - destruct fsm as [s|].
      + unfold check_sample in Ba. destruct (s <? 0)%Z eqn:Es; [discriminate|].
        destruct (s >=? n_samples m)%Z; [discriminate|]. injection Ba as <-. lia.
      + injection Ba as <-. lia. }
  assert (B : (b <= n_samples m - 1)%Z).
  { destruct tt as [t|].
    - eapply to_time_range in Bb; try eassumption; lia.
    - destruct tsm as [s|].
      + unfold check_sample in Bb. destruct (s <? 0)%Z; [discriminate|].
        destruct (s >=? n_samples m)%Z eqn:Es; [discriminate|]. injection Bb as <-. lia.
      + injection Bb as <-. lia. }
  lia.
Qed.

Lemma read_samples_reject rnd m ft tt fsm tsm s :
  (s < 0 \/ n_samples m <= s)%Z ->
  (ft = None -> fsm = Some s -> get_read_samples rnd m ft tt fsm tsm = Err ValueError) /\
  (tt = None -> tsm = Some s -> exists e, get_read_samples rnd m ft tt fsm tsm = Err e).
Proof.
  intros Hs.
  assert (C : check_sample (n_samples m) s = Err ValueError).
  { unfold check_sample. destruct (Z.ltb_spec s 0); [reflexivity|].
    destruct (Z.geb_spec s (n_samples m)); [reflexivity|]. lia. }
  split.
  - intros -> ->. unfold get_read_samples. rewrite C. reflexivity.
  - intros -> ->. unfold get_read_samples. rewrite C.
    set (r := match ft with Some _ => _ | None => _ end). destruct r as [x|e]; cbn; eexists; reflexivity.
Qed.

Lemma read_samples_explicit rnd m a b :
  (0 <= a)%Z -> (a < b)%Z -> (b <= n_samples m - 1)%Z ->
  get_read_samples rnd m None None (Some a) (Some b) = Ok (a, b).
Proof.
  intros. unfold get_read_samples, check_sample, bind.
  destruct (Z.ltb_spec a 0); [lia|]. destruct (Z.geb_spec a (n_samples m)); [lia|].
  destruct (Z.ltb_spec b 0); [lia|]. destruct (Z.geb_spec b (n_samples m)); [lia|].
  destruct (Z.geb_spec a b); [lia|]. reflexivity.
Qed.

(** ** C09: reading is slicing with matching metadata, for every rounding *)
Lemma read_data_spec rnd m dt stored a b :
  exists td, read_data_numpy rnd m dt stored a b = Ok td /\
    rows td = map (slice a (b + 1)) stored /\ dtype td = dt /\
    n_samples (meta td) = (b - a + 1)%Z /\
    sample_to_datetime rnd (fs m) (first_time m) a None = Ok (first_time (meta td)) /\
    (exists t, sample_to_datetime rnd (fs m) (first_time m) b None = Ok t /\ last_time (meta td) == t) /\
    fs (meta td) = fs m /\ chans (meta td) = chans m /\ n_chans (meta td) = n_chans m /\
    info (meta td) = info m /\ chans_md (meta td) = chans_md m /\
    history (meta td) = history m ++ [CReader].
Proof.
  eexists. split; [reflexivity|]. cbn. repeat split.
  eexists. split; [reflexivity|]. unfold period.
  replace (b - a + 1 - 1)%Z with (b - a)%Z by lia. unfold Z.sub. rewrite inject_Z_plus, inject_Z_opp. ring.
Qed.

(** ** C10 *)
Lemma samples_between_slice_from k first dt from to a b row :
  0 < dt ->
  (forall j, (k <= j < k + Z.of_nat (length row))%Z -> (in_interval first dt from to j <-> (a <= j <= b)%Z)) ->
  samples_between_from k first dt from to row = slice (Z.max 0 (a - k)) (b + 1 - k) row.
Proof.
  intros Hdt. revert k. induction row as [|v t IH]; intros k H.
  - cbn. unfold slice. rewrite skipn_nil, firstn_nil. reflexivity.
  - cbn [samples_between_from]. cbv zeta.
    assert (Hk : in_interval first dt from to k <-> (a <= k <= b)%Z) by (apply H; cbn; lia).
    assert (Eb : Qle_bool from (stamp first dt k) && Qle_bool (stamp first dt k) to = (Z.leb a k && Z.leb k b)%bool).
    { apply eq_true_iff_eq. rewrite !andb_true_iff, !Qle_bool_iff, !Z.leb_le. exact Hk. }
    rewrite Eb, IH by (intros j Hj; apply H; cbn; lia). clear Eb IH H.
    apply nth_error_ext'. intros i.
    destruct (Z.leb_spec a k), (Z.leb_spec k b); cbn [andb].
    + destruct i as [|i].
      * rewrite nth_error_slice by lia. 
        destruct (Z.ltb_spec (Z.of_nat 0) (b + 1 - k - Z.max 0 (a - k))); [|lia].
        replace (Z.to_nat (Z.max 0 (a - k) + Z.of_nat 0)) with 0%nat by lia. reflexivity.
      * match goal with |- nth_error (v :: ?X) (S i) = _ => change (nth_error (v :: X) (S i)) with (nth_error X i) end.
        rewrite !nth_error_slice by lia.
        replace (Z.max 0 (a - (k + 1))) with 0%Z by lia. replace (Z.max 0 (a - k)) with 0%Z by lia.
        destruct (Z.ltb_spec (Z.of_nat i) (b + 1 - (k + 1) - 0)), (Z.ltb_spec (Z.of_nat (S i)) (b + 1 - k - 0)); try lia; [|reflexivity].
        replace (Z.to_nat (0 + Z.of_nat (S i))) with (S i) by lia. cbn. f_equal. lia.
    + rewrite !nth_error_slice by lia.
      destruct (Z.ltb_spec (Z.of_nat i) (b + 1 - (k + 1) - Z.max 0 (a - (k + 1)))); [lia|].
      destruct (Z.ltb_spec (Z.of_nat i) (b + 1 - k - Z.max 0 (a - k))); [lia|reflexivity].
    + rewrite !nth_error_slice by lia.
      replace (Z.max 0 (a - (k + 1))) with (a - k - 1)%Z by lia. replace (Z.max 0 (a - k)) with (a - k)%Z by lia.
      destruct (Z.ltb_spec (Z.of_nat i) (b + 1 - (k + 1) - (a - k - 1))), (Z.ltb_spec (Z.of_nat i) (b + 1 - k - (a - k))); try lia; [|reflexivity].
      replace (Z.to_nat (a - k + Z.of_nat i)) with (S (Z.to_nat (a - k - 1 + Z.of_nat i))) by lia. reflexivity.
    + rewrite !nth_error_slice by lia.
      destruct (Z.ltb_spec (Z.of_nat i) (b + 1 - (k + 1) - Z.max 0 (a - (k + 1)))); [lia|].
      destruct (Z.ltb_spec (Z.of_nat i) (b + 1 - k - Z.max 0 (a - k))); [lia|reflexivity].
Qed.

Lemma stamp_mono first dt i j : 0 < dt -> (i <= j)%Z -> stamp first dt i <= stamp first dt j.
Proof. intros H1 H2. unfold stamp. rewrite inject_Z_le in H2. nra. Qed.
Lemma stamp_lt first dt i j : 0 < dt -> (i < j)%Z -> stamp first dt i < stamp first dt j.
Proof. intros H1 H2. unfold stamp. rewrite inject_Z_lt in H2. nra. Qed.

Lemma period_pos_exact fs : 0 < fs -> period exact fs == 1 / fs -> 0 < period exact fs.
Proof. intros H E. rewrite E. apply Qlt_shift_div_l; lra. Qed.

(** What Subsection computes in exact arithmetic *)
Lemma subsection_inv rnd f t td td' : subsection rnd f t td = Ok td' ->
  let m := meta td in
  exists a b, from_time_to_sample rnd (fs m) (first_time m) (last_time m) f = Ok a /\
    to_time_to_sample rnd (fs m) (first_time m) (last_time m) t = Ok b /\ (a < b)%Z /\
    td' = mkData (with_history (adjust_time_metadata rnd m (fs m) (stamp (first_time m) (period rnd (fs m)) a) (b - a + 1))
                    (history m ++ [CProc (PSubsection f t)])) (dtype td)
                 (map (slice a (b + 1)) (rows td)).
Proof.
  intros H m. unfold subsection in H. fold m in H. inv_bind H. destruct a as [a b].
  inv_bind H. destruct a0 as [x y]. injection H as <-.
  unfold datetimes_to_samples in B. inv_bind B. inv_bind B. injection B as -> ->.
  exists a, b. unfold samples_to_datetimes in B0.
  destruct (Z.geb_spec a b) as [G|G]; [discriminate|]. cbn in B0. injection B0 as <- <-.
  repeat split; assumption.
Qed.

Lemma subsection_ok rnd f t td a b : let m := meta td in
  from_time_to_sample rnd (fs m) (first_time m) (last_time m) f = Ok a ->
  to_time_to_sample rnd (fs m) (first_time m) (last_time m) t = Ok b -> (a < b)%Z ->
  subsection rnd f t td = Ok
    (mkData (with_history (adjust_time_metadata rnd m (fs m) (stamp (first_time m) (period rnd (fs m)) a) (b - a + 1))
                    (history m ++ [CProc (PSubsection f t)])) (dtype td)
                 (map (slice a (b + 1)) (rows td))).
Proof.
  intros m Ha Hb L. unfold subsection. fold m. unfold datetimes_to_samples. rewrite Ha. cbn. rewrite Hb. cbn.
  unfold samples_to_datetimes. destruct (Z.geb_spec a b) as [G|G]; [lia|]. reflexivity.
Qed.

Section Sub.
  Variable td : tdata.
  Let m := meta td.
  Hypothesis Hfs : 0 < fs m.
  Hypothesis Hp : sub_micro_ns (1 / fs m) == 0 \/ 1 # 10000 <= sub_micro_ns (1 / fs m).
  Hypothesis Hn : (1 <= n_samples m)%Z.
  Hypothesis Hc : consistent exact td.
  Let first := first_time m.
  Let last := last_time m.
  Let n := n_samples m.
  Let dtt := period exact (fs m).

  Lemma sub_dt : dtt == 1 / fs m.
  Proof. exact (period_exact _ Hp). Qed.
  Lemma sub_dt_pos : 0 < dtt.
  Proof. apply period_pos_exact; [exact Hfs|exact sub_dt]. Qed.
  Lemma sub_last : last == stamp first (1 / fs m) (n - 1).
  Proof.
    destruct Hc as (_ & _ & _ & _ & E). fold m in E. unfold last, first, n. rewrite E.
    apply stamp_comp. exact sub_dt.
  Qed.

  (** in_interval is characterised by the first and last sample *)
  Lemma interval_range f t a b :
    first_sample_at_or_after first dtt n f a -> last_sample_at_or_before first dtt n t b ->
    forall j, (0 <= j < n)%Z -> (in_interval first dtt f t j <-> (a <= j <= b)%Z).
  Proof.
    intros (A1 & A2 & A3) (B1 & B2 & B3) j Hj. unfold in_interval. pose proof sub_dt_pos as P. split.
    - intros [I1 I2]. split; [apply A3; assumption|apply B3; assumption].
    - intros [I1 I2]. split.
      + eapply Qle_trans; [exact A2|]. apply stamp_mono; assumption.
      + eapply Qle_trans; [|exact B2]. apply stamp_mono; assumption.
  Qed.

  (** two different samples in the interval: Subsection succeeds *)
  Lemma sub_two_ok f t i j : (0 <= i)%Z -> (i < j)%Z -> (j < n)%Z ->
    in_interval first dtt f t i -> in_interval first dtt f t j ->
    exists a b, from_time_to_sample exact (fs m) first last f = Ok a /\
      to_time_to_sample exact (fs m) first last t = Ok b /\ (0 <= a)%Z /\ (a < b)%Z /\ (b < n)%Z /\
      (forall j, (0 <= j < n)%Z -> (in_interval first dtt f t j <-> (a <= j <= b)%Z)).
  Proof.
    intros H0 Hij Hj Ii Ij. pose proof sub_dt_pos as P. pose proof sub_dt as ED. pose proof sub_last as EL.
    assert (Hf : f <= last).
    { destruct Ij as [A _]. rewrite EL. eapply Qle_trans; [exact A|]. rewrite <- (stamp_comp _ _ _ _ ED). apply stamp_mono; [exact P|lia]. }
    assert (Ht : first <= t).
    { destruct Ii as [_ A]. eapply Qle_trans; [|exact A].
      assert (E0 : first == stamp first dtt 0) by (unfold stamp; change (inject_Z 0) with 0; ring).
      rewrite E0 at 1. apply stamp_mono; [exact P|lia]. }
    destruct (from_time_exact_ok (fs m) first last n Hfs Hn EL f Hf) as (a & Ea & Sa).
    destruct (to_time_exact_ok (fs m) first last n Hfs Hn EL t Ht) as (b & Eb & Sb).
    apply (first_sample_comp _ _ dtt) in Sa; [|symmetry; exact ED].
    apply (last_sample_comp _ _ dtt) in Sb; [|symmetry; exact ED].
    pose proof (interval_range f t a b Sa Sb) as R.
    exists a, b. pose proof (proj1 (R i ltac:(lia)) Ii). pose proof (proj1 (R j ltac:(lia)) Ij).
    destruct Sa as ((? & ?) & _), Sb as ((? & ?) & _).
    repeat split; try assumption; try lia; apply R; assumption.
  Qed.

  Lemma sub_ok_inv f t td' : subsection exact f t td = Ok td' ->
    exists a b, from_time_to_sample exact (fs m) first last f = Ok a /\
      to_time_to_sample exact (fs m) first last t = Ok b /\ (0 <= a)%Z /\ (a < b)%Z /\ (b < n)%Z /\
      (forall j, (0 <= j < n)%Z -> (in_interval first dtt f t j <-> (a <= j <= b)%Z)).
  Proof.
    intros H. destruct (subsection_inv _ _ _ _ _ H) as (a & b & Ea & Eb & L & _). fold m first last in Ea, Eb.
    pose proof sub_dt as ED. pose proof sub_last as EL.
    assert (Hf : f <= last).
    { destruct (Qlt_le_dec last f) as [C|C]; [|exact C]. rewrite (from_time_err _ _ _ _ _ C) in Ea. discriminate. }
    assert (Ht : first <= t).
    { destruct (Qlt_le_dec t first) as [C|C]; [|exact C]. rewrite (to_time_err _ _ _ _ _ C) in Eb. discriminate. }
    destruct (from_time_exact_ok (fs m) first last n Hfs Hn EL f Hf) as (a' & Ea' & Sa).
    destruct (to_time_exact_ok (fs m) first last n Hfs Hn EL t Ht) as (b' & Eb' & Sb).
    rewrite Ea in Ea'. rewrite Eb in Eb'. injection Ea' as <-. injection Eb' as <-.
    apply (first_sample_comp _ _ dtt) in Sa; [|symmetry; exact ED].
    apply (last_sample_comp _ _ dtt) in Sb; [|symmetry; exact ED].
    exists a, b. split; [exact Ea|]. split; [exact Eb|].
    pose proof (interval_range f t a b Sa Sb) as R.
    destruct Sa as ((? & ?) & _), Sb as ((? & ?) & _).
    repeat split; try assumption; try lia; apply R; assumption.
  Qed.

  Lemma sub_rows f t a b : (0 <= a)%Z -> (b < n)%Z ->
    (forall j, (0 <= j < n)%Z -> (in_interval first dtt f t j <-> (a <= j <= b)%Z)) ->
    map (slice a (b + 1)) (rows td) = map (samples_between first dtt f t) (rows td).
  Proof.
    intros Ha Hb R. apply map_ext_in. intros r Hr. symmetry.
    destruct Hc as (_ & _ & _ & HL & _). specialize (HL r Hr). fold m n in HL.
    unfold samples_between. rewrite (samples_between_slice_from 0 first dtt f t a b r sub_dt_pos).
    - f_equal; lia.
    - intros j Hj. apply R. lia.
  Qed.

  (** C10, main statement *)
  Lemma subsection_spec f t :
    (* fails unless two samples are in the interval *)
    ((forall td', subsection exact f t td <> Ok td') <->
       (forall i j, (0 <= i < n)%Z -> (0 <= j < n)%Z ->
          in_interval first dtt f t i -> in_interval first dtt f t j -> i = j)) /\
    (forall td', subsection exact f t td = Ok td' ->
       rows td' = map (samples_between first dtt f t) (rows td) /\
       exists a b, (0 <= a)%Z /\ (a < b)%Z /\ (b < n)%Z /\
         (forall j, (0 <= j < n)%Z -> (in_interval first dtt f t j <-> (a <= j <= b)%Z)) /\
         n_samples (meta td') = (b - a + 1)%Z /\
         first_time (meta td') == stamp first dtt a /\ last_time (meta td') == stamp first dtt b).
  Proof.
    split; [split|].
    - intros HE i j Hi Hj Ii Ij. destruct (Z.lt_trichotomy i j) as [L|[L|L]]; [|exact L|]; exfalso.
      + destruct (sub_two_ok f t i j ltac:(lia) L ltac:(lia) Ii Ij) as (a & b & Ea & Eb & _ & Lab & _).
        eapply HE. apply (subsection_ok exact f t td a b); assumption.
      + destruct (sub_two_ok f t j i ltac:(lia) L ltac:(lia) Ij Ii) as (a & b & Ea & Eb & _ & Lab & _).
        eapply HE. apply (subsection_ok exact f t td a b); assumption.
    - intros HU td' H. destruct (sub_ok_inv f t td' H) as (a & b & _ & _ & A & L & B & R).
      assert (a = b); [|lia]. apply HU; try lia; apply R; lia.
    - intros td' H. destruct (sub_ok_inv f t td' H) as (a & b & Ea & Eb & A & L & B & R).
      destruct (subsection_inv _ _ _ _ _ H) as (a' & b' & Ea' & Eb' & _ & ->).
      fold m first last in Ea', Eb'. rewrite Ea in Ea'. rewrite Eb in Eb'. injection Ea' as <-. injection Eb' as <-.
      cbn [rows]. split; [apply sub_rows; assumption|].
      exists a, b. repeat split; try assumption; try (apply R; assumption).
      cbn. fold m first. unfold stamp. fold (period exact (fs m)). fold dtt.
      replace (b - a + 1 - 1)%Z with (b - a)%Z by lia. unfold Z.sub. rewrite inject_Z_plus, inject_Z_opp. ring.
  Qed.
End Sub.
