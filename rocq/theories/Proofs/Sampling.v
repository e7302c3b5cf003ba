(** Proofs about Model/Sampling.v *)
From Verif Require Import Base.Prelude Base.Rounding Model.Sampling Spec.Sampling.
Open Scope Q_scope.

(** ** Fields of a timedelta add up *)
Lemma td_sum d :
  inject_Z (td_days d * 86400) + (inject_Z (td_seconds d) + inject_Z (td_micros d) / inject_Z 1000000
    + td_nanos d / inject_Z 1000000000) == d.
Proof.
  unfold td_seconds, td_nanos. rewrite inject_Z_mult.
  unfold Z.sub. rewrite inject_Z_plus, inject_Z_opp, inject_Z_mult.
  change (inject_Z 1000000) with (1000000#1). change (inject_Z 1000) with (1000#1).
  change (inject_Z 1000000000) with (1000000000#1).
  field.
Qed.

Lemma td_seconds_range d : (0 <= td_seconds d < 86400)%Z.
Proof.
  unfold td_seconds, td_days.
  destruct (qfloor_spec (d / inject_Z 86400)) as [A B].
  destruct (qfloor_spec d) as [C D].
  change (inject_Z 86400) with (86400#1) in *.
  assert (E : d / (86400#1) * (86400#1) == d) by field.
  set (k := qfloor (d / (86400#1))) in *.
  assert (inject_Z (86400 * k) < inject_Z (qfloor d + 1)).
  { rewrite inject_Z_mult, inject_Z_plus. change (inject_Z 1) with 1. change (inject_Z 86400) with (86400#1). nra. }
  assert (inject_Z (qfloor d) < inject_Z (86400 * (k + 1))).
  { rewrite inject_Z_mult, inject_Z_plus. change (inject_Z 1) with 1. change (inject_Z 86400) with (86400#1). nra. }
  rewrite <- inject_Z_lt in *. lia.
Qed.

Lemma td_micros_range d : (0 <= td_micros d < 1000000)%Z.
Proof.
  unfold td_micros. destruct (qfloor_spec d) as [A B].
  set (u := (d - inject_Z (qfloor d)) * inject_Z 1000000).
  destruct (qfloor_spec u) as [C D].
  change (inject_Z 1000000) with (1000000#1) in *.
  assert (inject_Z (qfloor u) < inject_Z 1000000) by (change (inject_Z 1000000) with (1000000#1); unfold u in *; lra).
  assert (inject_Z (-1) < inject_Z (qfloor u)) by (change (inject_Z (-1)) with (-1#1); unfold u in *; lra).
  rewrite <- inject_Z_lt in *. lia.
Qed.

Lemma td_nanos_range d : 0 <= td_nanos d /\ td_nanos d < 1000.
Proof.
  unfold td_nanos, td_micros.
  set (u := (d - inject_Z (qfloor d)) * inject_Z 1000000).
  destruct (qfloor_spec u) as [C D]. change (inject_Z 1000) with (1000#1). lra.
Qed.

(** ** to_n_samples in exact arithmetic *)
Lemma to_seconds_exact d :
  inject_Z (fst (to_seconds exact d)) + snd (to_seconds exact d) == d.
Proof.
  unfold to_seconds, exact. cbn [fst snd]. rewrite <- (td_sum d) at 5. 
  change (3600 * 24)%Z with 86400%Z. ring.
Qed.

Lemma td_days_comp d d' : d == d' -> td_days d = td_days d'.
Proof. intros H. unfold td_days. apply qfloor_comp. rewrite H. reflexivity. Qed.
Lemma td_seconds_comp d d' : d == d' -> td_seconds d = td_seconds d'.
Proof. intros H. unfold td_seconds. rewrite (td_days_comp _ _ H), (qfloor_comp _ _ H). reflexivity. Qed.
Lemma td_micros_comp d d' : d == d' -> td_micros d = td_micros d'.
Proof. intros H. unfold td_micros. rewrite (qfloor_comp _ _ H). apply qfloor_comp. rewrite H. reflexivity. Qed.
Lemma td_nanos_comp d d' : d == d' -> td_nanos d == td_nanos d'.
Proof.
  intros H. unfold td_nanos. rewrite (td_micros_comp _ _ H), (qfloor_comp _ _ H), H. reflexivity.
Qed.

(** The float computed by to_n_samples before the integer conversion *)
Definition n_float rnd (d fs : Q) : Q :=
  rnd (rnd (rnd (inject_Z (fst (to_seconds rnd d)) + snd (to_seconds rnd d)) * fs) + 1).

Lemma to_n_samples_eq rnd d fs m :
  to_n_samples rnd d fs m =
  let n := n_float rnd d fs in
  if q_is_integer n then qfloor n
  else match m with Mfloor => qfloor n | Mceil => qceil n | Mround => qround n end.
Proof. reflexivity. Qed.

Section Good.
  Context {rnd : Q -> Q} (G : good_rnd rnd).
  Lemma n_float_comp d d' fs fs' : d == d' -> fs == fs' -> n_float rnd d fs == n_float rnd d' fs'.
  Proof.
    intros H Hf. unfold n_float, to_seconds; cbn [fst snd].
    rewrite (td_days_comp _ _ H), (td_seconds_comp _ _ H), (td_micros_comp _ _ H).
    repeat first [exact (td_nanos_comp _ _ H) | reflexivity | assumption | apply (gr_comp _ G)
                 | apply Qdiv_comp | apply Qplus_comp | apply Qmult_comp].
  Qed.
  Lemma to_n_samples_comp d d' fs fs' m : d == d' -> fs == fs' ->
    to_n_samples rnd d fs m = to_n_samples rnd d' fs' m.
  Proof.
    intros H Hf. rewrite !to_n_samples_eq. cbv zeta.
    pose proof (n_float_comp _ _ _ _ H Hf) as E.
    rewrite (q_is_integer_comp _ _ E), (qfloor_comp _ _ E), (qceil_comp _ _ E), (qround_comp _ _ E).
    reflexivity.
  Qed.
End Good.

Lemma n_float_exact d fs : n_float exact d fs == d * fs + 1.
Proof. unfold n_float. unfold exact at 1 2 3. rewrite to_seconds_exact. reflexivity. Qed.

Lemma qfloor_plus_Z x k : qfloor (x + inject_Z k) = (qfloor x + k)%Z.
Proof.
  destruct (qfloor_spec x). apply qfloor_unique; rewrite inject_Z_plus; lra.
Qed.
Lemma qceil_plus_Z x k : qceil (x + inject_Z k) = (qceil x + k)%Z.
Proof.
  destruct (qceil_spec x). apply qceil_unique; rewrite inject_Z_plus; lra.
Qed.
Lemma qceil_floor_int x k : x == inject_Z k -> qceil x = qfloor x.
Proof. intros H. rewrite (qceil_comp _ _ H), (qfloor_comp _ _ H), qfloor_Z, qceil_Z. reflexivity. Qed.
Lemma qceil_floor_nonint x : q_is_integer x = false -> qceil x = (qfloor x + 1)%Z.
Proof.
  intros H. apply q_is_integer_false in H. destruct (qfloor_spec x).
  apply qceil_unique; rewrite inject_Z_plus; change (inject_Z 1) with 1; lra.
Qed.

Lemma to_n_samples_exact_floor d fs : to_n_samples exact d fs Mfloor = (qfloor (d * fs) + 1)%Z.
Proof.
  rewrite to_n_samples_eq. cbv zeta. rewrite <- qfloor_plus_Z. 
  rewrite (qfloor_comp _ _ (n_float_exact d fs)). destruct (q_is_integer _); reflexivity.
Qed.
Lemma to_n_samples_exact_ceil d fs : to_n_samples exact d fs Mceil = (qceil (d * fs) + 1)%Z.
Proof.
  rewrite to_n_samples_eq. cbv zeta. rewrite <- qceil_plus_Z. 
  rewrite (qfloor_comp _ _ (n_float_exact d fs)), (qceil_comp _ _ (n_float_exact d fs)),
     (q_is_integer_comp _ _ (n_float_exact d fs)).
  change (inject_Z 1) with 1.
  destruct (q_is_integer _) eqn:E; [|reflexivity].
  apply q_is_integer_true in E. symmetry. eapply qceil_floor_int. exact E.
Qed.
Lemma to_n_samples_exact_mult d fs k m : d * fs == inject_Z k -> to_n_samples exact d fs m = (k + 1)%Z.
Proof.
  intros H. rewrite to_n_samples_eq. cbv zeta.
  assert (E : n_float exact d fs == inject_Z (k + 1)) by (rewrite n_float_exact, H, inject_Z_plus; reflexivity).
  rewrite (q_is_integer_Z _ _ E), (qfloor_comp _ _ E). apply qfloor_Z.
Qed.

(** For any rounding: the three methods are ordered and at most one apart. *)
Lemma to_n_samples_order rnd d fs :
  (to_n_samples rnd d fs Mfloor <= to_n_samples rnd d fs Mround <= to_n_samples rnd d fs Mceil)%Z /\
  (to_n_samples rnd d fs Mceil <= to_n_samples rnd d fs Mfloor + 1)%Z.
Proof.
  rewrite !to_n_samples_eq. cbv zeta. set (n := n_float rnd d fs).
  destruct (q_is_integer n) eqn:E; [lia|].
  rewrite (qceil_floor_nonint _ E). destruct (qround_floor_or_ceil n) as [-> | ->]; lia.
Qed.

(** *** C01 / C02 in exact arithmetic *)
Section C01.
  Variables (fs first last : Q) (n : Z).
  Hypothesis Hfs : 0 < fs.
  Hypothesis Hn : (1 <= n)%Z.
  Let dt := 1 / fs.
  Hypothesis Hlast : last == stamp first dt (n - 1).

  Lemma stamp_0 : stamp first dt 0 == first.
  Proof. unfold stamp. change (inject_Z 0) with 0. ring. Qed.
  Lemma dtfs : dt * fs == 1.
  Proof. unfold dt. field. lra. Qed.
  Lemma stamp_le_iff t k : t <= stamp first dt k <-> (t - first) * fs <= inject_Z k.
  Proof.
    unfold stamp. pose proof dtfs as D.
    assert (E : inject_Z k * dt * fs == inject_Z k) by (rewrite <- Qmult_assoc, D; ring).
    split; intros H.
    - assert ((t - first) * fs <= inject_Z k * dt * fs) by (apply Qmult_le_compat_r; lra). lra.
    - assert ((t - first) * fs <= inject_Z k * dt * fs) as H' by lra.
      apply Qmult_lt_0_le_reg_r in H'; lra.
  Qed.
  Lemma stamp_ge_iff t k : stamp first dt k <= t <-> inject_Z k <= (t - first) * fs.
  Proof.
    unfold stamp. pose proof dtfs as D.
    assert (E : inject_Z k * dt * fs == inject_Z k) by (rewrite <- Qmult_assoc, D; ring).
    split; intros H.
    - assert (inject_Z k * dt * fs <= (t - first) * fs) by (apply Qmult_le_compat_r; lra). lra.
    - assert (inject_Z k * dt * fs <= (t - first) * fs) as H' by lra.
      apply Qmult_lt_0_le_reg_r in H'; lra.
  Qed.

  Lemma from_time_exact_ok t : t <= last ->
    exists k, from_time_to_sample exact fs first last t = Ok k
              /\ first_sample_at_or_after first dt n t k.
  Proof.
    intros Ht. unfold from_time_to_sample, check_from_time, bind.
    destruct (Qltb last t) eqn:E1; [apply Qltb_true in E1; exfalso; lra|].
    destruct (Qltb (t - first) 0) eqn:E2.
    - apply Qltb_true in E2. eexists. split; [reflexivity|].
      rewrite (to_n_samples_exact_mult _ _ 0) by (change (inject_Z 0) with 0; ring).
      change (0 + 1 - 1)%Z with 0%Z. repeat split; try lia.
      rewrite stamp_0. lra.
    - apply Qltb_false in E2. eexists. split; [reflexivity|].
      rewrite to_n_samples_exact_ceil.
      replace (qceil ((t - first) * fs) + 1 - 1)%Z with (qceil ((t - first) * fs)) by lia.
      destruct (qceil_spec ((t - first) * fs)) as [C1 C2].
      assert (Hl : (t - first) * fs <= inject_Z (n - 1)) by (apply stamp_le_iff; lra).
      assert (H0 : 0 <= (t - first) * fs) by nra.
      repeat split.
      + assert (inject_Z (-1) < inject_Z (qceil ((t - first) * fs))) as L
          by (change (inject_Z (-1)) with (-(1)); lra).
        rewrite <- inject_Z_lt in L. lia.
      + assert (inject_Z (qceil ((t - first) * fs)) < inject_Z n) as L.
        { unfold Z.sub in Hl. rewrite inject_Z_plus in Hl. change (inject_Z (-(1))) with (-(1)) in Hl. lra. }
        rewrite <- inject_Z_lt in L. lia.
      + apply stamp_le_iff. exact C2.
      + intros j Hj Hle. apply stamp_le_iff in Hle.
        assert (inject_Z (qceil ((t - first) * fs)) < inject_Z (j + 1)) as L
          by (rewrite inject_Z_plus; change (inject_Z 1) with 1; lra).
        rewrite <- inject_Z_lt in L. lia.
  Qed.

  Lemma from_time_err rnd t : last < t -> from_time_to_sample rnd fs first last t = Err ValueError.
  Proof.
    intros H. unfold from_time_to_sample, check_from_time. apply Qltb_true in H. rewrite H. reflexivity.
  Qed.

  Lemma to_time_exact_ok t : first <= t ->
    exists k, to_time_to_sample exact fs first last t = Ok k
              /\ last_sample_at_or_before first dt n t k.
  Proof.
    intros Ht. unfold to_time_to_sample, check_to_time, bind.
    destruct (Qltb t first) eqn:E1; [apply Qltb_true in E1; exfalso; lra|].
    destruct (Qltb (last - t) 0) eqn:E2.
    - apply Qltb_true in E2. eexists. split; [reflexivity|].
      assert (Em : (last - first) * fs == inject_Z (n - 1)).
      { rewrite Hlast. unfold stamp. pose proof dtfs as D.
        transitivity (inject_Z (n - 1) * (dt * fs)); [ring|]. rewrite D. ring. }
      rewrite (to_n_samples_exact_mult _ _ (n - 1) _ Em).
      repeat split; try lia. replace (n - 1 + 1 - 1)%Z with (n - 1)%Z by lia. lra.
    - apply Qltb_false in E2. eexists. split; [reflexivity|].
      rewrite to_n_samples_exact_floor.
      replace (qfloor ((t - first) * fs) + 1 - 1)%Z with (qfloor ((t - first) * fs)) by lia.
      destruct (qfloor_spec ((t - first) * fs)) as [C1 C2].
      assert (Hl : (t - first) * fs <= inject_Z (n - 1)) by (apply stamp_le_iff; lra).
      assert (H0 : 0 <= (t - first) * fs) by nra.
      repeat split.
      + assert (inject_Z (-1) < inject_Z (qfloor ((t - first) * fs))) as L
          by (change (inject_Z (-1)) with (-(1)); lra).
        rewrite <- inject_Z_lt in L. lia.
      + assert (inject_Z (qfloor ((t - first) * fs)) < inject_Z n) as L.
        { unfold Z.sub in Hl. rewrite inject_Z_plus in Hl. change (inject_Z (-(1))) with (-(1)) in Hl. lra. }
        rewrite <- inject_Z_lt in L. lia.
      + apply stamp_ge_iff. exact C1.
      + intros j Hj Hle. apply stamp_ge_iff in Hle.
        assert (inject_Z j < inject_Z (qfloor ((t - first) * fs) + 1)) as L
          by (rewrite inject_Z_plus; change (inject_Z 1) with 1; lra).
        rewrite <- inject_Z_lt in L. lia.
  Qed.

  Lemma to_time_err rnd t : t < first -> to_time_to_sample rnd fs first last t = Err ValueError.
  Proof.
    intros H. unfold to_time_to_sample, check_to_time. apply Qltb_true in H. rewrite H. reflexivity.
  Qed.
End C01.

(** ** to_timedelta in exact arithmetic (C04) *)
Lemma qfloor_sub_Z x k : qfloor (x - inject_Z k) = (qfloor x - k)%Z.
Proof.
  transitivity (qfloor (x + inject_Z (- k))).
  - apply qfloor_comp. rewrite inject_Z_opp. ring.
  - rewrite qfloor_plus_Z. lia.
Qed.

Lemma sub_micro_nonneg x : 0 <= sub_micro_ns x /\ sub_micro_ns x < 1000.
Proof.
  unfold sub_micro_ns. cbv zeta. set (u := x * inject_Z 1000000).
  destruct (qfloor_spec u) as [A B]. unfold qfloor in *. change (inject_Z 1000) with (1000#1). lra.
Qed.

Lemma to_timedelta_exact x :
  x - to_timedelta exact x ==
  (if negb (Qeq_bool (sub_micro_ns x) 0) && Qltb (sub_micro_ns x) (1 # 10000)
   then sub_micro_ns x else 0) / inject_Z 1000000000.
Proof.
  unfold to_timedelta. unfold exact, td_eps. cbv zeta.
  set (s := qfloor x). set (y := (x - inject_Z s) * inject_Z 1000000).
  assert (Es : (y - inject_Z (qfloor y)) * inject_Z 1000 == sub_micro_ns x).
  { unfold sub_micro_ns. cbv zeta.
    assert (Ey : y == x * inject_Z 1000000 - inject_Z (s * 1000000)) by (unfold y; rewrite inject_Z_mult; ring).
    rewrite (qfloor_comp _ _ Ey), qfloor_sub_Z.
    change Qfloor with qfloor. unfold Z.sub. rewrite inject_Z_plus, inject_Z_opp.
    rewrite Ey. ring. }
  replace (Qeq_bool ((y - inject_Z (qfloor y)) * inject_Z 1000) 0) with (Qeq_bool (sub_micro_ns x) 0)
    by (apply eq_true_iff_eq; rewrite !Qeq_bool_iff, Es; reflexivity).
  rewrite (Qltb_comp _ _ Es _ _ (Qeq_refl _)).
  assert (T : x == inject_Z s + inject_Z (qfloor y) / inject_Z 1000000
              + (y - inject_Z (qfloor y)) * inject_Z 1000 / inject_Z 1000000000).
  { unfold y at 2.  change (inject_Z 1000000) with (1000000#1). change (inject_Z 1000) with (1000#1).
    change (inject_Z 1000000000) with (1000000000#1). field. }
  change (inject_Z 1000000) with (1000000#1) in *. change (inject_Z 1000) with (1000#1) in *.
  change (inject_Z 1000000000) with (1000000000#1) in *.
  destruct (_ && _); rewrite T at 1; rewrite Es; field.
Qed.

Lemma to_timedelta_exact_err x :
  0 <= x - to_timedelta exact x /\ x - to_timedelta exact x < tiny.
Proof.
  rewrite to_timedelta_exact. unfold tiny. destruct (sub_micro_nonneg x) as [A B].
  change (inject_Z 1000000000) with (1000000000#1).
  destruct (_ && _) eqn:E.
  - apply andb_true_iff in E. destruct E as [_ E]. apply Qltb_true in E. 
    change (sub_micro_ns x / (1000000000#1)) with (sub_micro_ns x * (1#1000000000)). lra.
  - vm_compute. split; [discriminate|reflexivity].
Qed.

Lemma to_timedelta_exact_iff x :
  to_timedelta exact x == x <-> (sub_micro_ns x == 0 \/ 1 # 10000 <= sub_micro_ns x).
Proof.
  pose proof (to_timedelta_exact x) as H.
  destruct (Qeq_bool (sub_micro_ns x) 0) eqn:E1.
  - cbn [negb andb] in H. apply Qeq_bool_iff in E1. split; [auto|intros _].
    assert (Z0 : 0 / inject_Z 1000000000 == 0) by reflexivity. rewrite Z0 in H. lra.
  - assert (N : ~ sub_micro_ns x == 0) by (intro C; apply Qeq_bool_iff in C; congruence).
    destruct (sub_micro_nonneg x) as [A B].
    change (inject_Z 1000000000) with (1000000000#1) in H.
    destruct (Qltb (sub_micro_ns x) (1#10000)) eqn:E2; cbn [negb andb] in H.
    + apply Qltb_true in E2. split; [|intros [C|C]; [contradiction|lra]].
      intros C. exfalso. apply N.
      assert (sub_micro_ns x / (1000000000#1) == 0) as Z by lra.
      change (sub_micro_ns x / (1000000000#1)) with (sub_micro_ns x * (1#1000000000)) in Z. lra.
    + apply Qltb_false in E2. split; [auto|intros _].
      assert (Z0 : 0 / (1000000000#1) == 0) by reflexivity. rewrite Z0 in H. lra.
Qed.

Lemma period_exact fs : (sub_micro_ns (1 / fs) == 0 \/ 1 # 10000 <= sub_micro_ns (1 / fs)) ->
  period exact fs == 1 / fs.
Proof. intros H. unfold period. apply to_timedelta_exact_iff. exact H. Qed.

Lemma stamp_comp first dt dt' k : dt == dt' -> stamp first dt k == stamp first dt' k.
Proof. intros H. unfold stamp. rewrite H. reflexivity. Qed.
Lemma first_sample_comp first dt dt' n t k : dt == dt' ->
  first_sample_at_or_after first dt n t k -> first_sample_at_or_after first dt' n t k.
Proof.
  intros E (A & B & C). repeat split; try lia.
  - rewrite <- (stamp_comp _ _ _ _ E). exact B.
  - intros j Hj Hs. apply C; [exact Hj|]. rewrite (stamp_comp _ _ _ _ E). exact Hs.
Qed.
Lemma last_sample_comp first dt dt' n t k : dt == dt' ->
  last_sample_at_or_before first dt n t k -> last_sample_at_or_before first dt' n t k.
Proof.
  intros E (A & B & C). repeat split; try lia.
  - rewrite <- (stamp_comp _ _ _ _ E). exact B.
  - intros j Hj Hs. apply C; [exact Hj|]. rewrite (stamp_comp _ _ _ _ E). exact Hs.
Qed.

Lemma from_time_full fs first last n t :
  0 < fs -> (1 <= n)%Z ->
  (sub_micro_ns (1 / fs) == 0 \/ 1 # 10000 <= sub_micro_ns (1 / fs)) ->
  sample_to_datetime exact fs first (n - 1) (Some n) = Ok last ->
  (last < t -> from_time_to_sample exact fs first last t = Err ValueError) /\
  (t <= last -> exists k, from_time_to_sample exact fs first last t = Ok k
               /\ first_sample_at_or_after first (period exact fs) n t k).
Proof.
  intros Hfs Hn Hp Hl. pose proof (period_exact fs Hp) as EP.
  split; [apply from_time_err|]. intros Ht.
  assert (EL : last == stamp first (1 / fs) (n - 1)).
  { unfold sample_to_datetime in Hl. destruct (_ || _); [discriminate|].
    injection Hl as <-. unfold stamp. rewrite EP. reflexivity. }
  destruct (from_time_exact_ok fs first last n Hfs Hn EL t Ht) as (k & A & B).
  exists k. split; [exact A|]. eapply first_sample_comp; [|exact B]. symmetry. exact EP.
Qed.

Lemma to_time_full fs first last n t :
  0 < fs -> (1 <= n)%Z ->
  (sub_micro_ns (1 / fs) == 0 \/ 1 # 10000 <= sub_micro_ns (1 / fs)) ->
  sample_to_datetime exact fs first (n - 1) (Some n) = Ok last ->
  (t < first -> to_time_to_sample exact fs first last t = Err ValueError) /\
  (first <= t -> exists k, to_time_to_sample exact fs first last t = Ok k
               /\ last_sample_at_or_before first (period exact fs) n t k).
Proof.
  intros Hfs Hn Hp Hl. pose proof (period_exact fs Hp) as EP.
  split; [apply to_time_err|]. intros Ht.
  assert (EL : last == stamp first (1 / fs) (n - 1)).
  { unfold sample_to_datetime in Hl. destruct (_ || _); [discriminate|].
    injection Hl as <-. unfold stamp. rewrite EP. reflexivity. }
  destruct (to_time_exact_ok fs first last n Hfs Hn EL t Ht) as (k & A & B).
  exists k. split; [exact A|]. eapply last_sample_comp; [|exact B]. symmetry. exact EP.
Qed.

(** C03 in exact arithmetic *)
Lemma roundtrip_exact fs first last n k t :
  0 < fs ->
  (sub_micro_ns (1 / fs) == 0 \/ 1 # 10000 <= sub_micro_ns (1 / fs)) ->
  sample_to_datetime exact fs first (n - 1) (Some n) = Ok last ->
  sample_to_datetime exact fs first k (Some n) = Ok t ->
  from_time_to_sample exact fs first last t = Ok k /\ to_time_to_sample exact fs first last t = Ok k.
Proof.
  intros Hfs Hp Hl Ht. pose proof (period_exact fs Hp) as EP.
  unfold sample_to_datetime in Hl, Ht.
  destruct ((k <? 0)%Z || _) eqn:B1; [discriminate|]. apply orb_false_iff in B1.
  destruct ((n - 1 <? 0)%Z || _) eqn:B2; [discriminate|]. apply orb_false_iff in B2.
  assert (K : (0 <= k < n)%Z) by lia.
  injection Hl as EL. injection Ht as ET.
  assert (ET' : (t - first) * fs == inject_Z k).
  { rewrite <- ET, EP. field. lra. }
  assert (P : 0 < 1 / fs) by (apply Qlt_shift_div_l; lra).
  assert (L1 : t <= last).
  { rewrite <- EL, <- ET, EP. assert (inject_Z k <= inject_Z (n - 1)) by (rewrite <- inject_Z_le; lia). nra. }
  assert (L2 : first <= t).
  { rewrite <- ET, EP. assert (inject_Z 0 <= inject_Z k) by (rewrite <- inject_Z_le; lia).
    change (inject_Z 0) with 0 in *. nra. }
  unfold from_time_to_sample, to_time_to_sample, check_from_time, check_to_time, bind.
  destruct (Qltb last t) eqn:A1; [apply Qltb_true in A1; exfalso; lra|].
  destruct (Qltb (t - first) 0) eqn:A2; [apply Qltb_true in A2; exfalso; lra|].
  destruct (Qltb t first) eqn:A3; [apply Qltb_true in A3; exfalso; lra|].
  destruct (Qltb (last - t) 0) eqn:A4; [apply Qltb_true in A4; exfalso; lra|].
  rewrite !(to_n_samples_exact_mult _ _ _ _ ET'). split; f_equal; lia.
Qed.

(** ** datetime_array (C07) *)
Lemma arange_length n : length (arange n) = Z.to_nat n.
Proof. unfold arange. rewrite map_length, seq_length. reflexivity. Qed.
Lemma arange_nth n i : (i < Z.to_nat n)%nat -> nth_error (arange n) i = Some (Z.of_nat i).
Proof.
  intros H. unfold arange. rewrite nth_error_map.
  rewrite (nth_error_nth' _ 0%nat) by (rewrite seq_length; exact H). rewrite seq_nth by exact H. reflexivity.
Qed.

Lemma datetime_array_spec rnd first fs n :
  exists ts, datetime_array rnd first fs (Some n) None = Ok ts /\
    length ts = Z.to_nat n /\
    forall i, (0 <= i < n)%Z ->
      exists t, nth_error ts (Z.to_nat i) = Some t /\ sample_to_datetime rnd fs first i (Some n) = Ok t.
Proof.
  eexists. split; [reflexivity|]. split; [rewrite map_length, arange_length; reflexivity|].
  intros i Hi. exists (first + inject_Z i * period rnd fs). split.
  - rewrite nth_error_map, arange_nth by lia. cbn. rewrite Z2Nat.id by lia. reflexivity.
  - unfold sample_to_datetime.
    destruct (Z.ltb_spec i 0); [lia|]. destruct (Z.geb_spec i n); [lia|]. reflexivity.
Qed.

Lemma datetime_array_samples_spec rnd first fs l :
  exists ts, datetime_array rnd first fs None (Some l) = Ok ts /\ length ts = length l /\
    forall j i, nth_error l j = Some i ->
      exists t, nth_error ts j = Some t /\ sample_to_datetime rnd fs first i None = Ok t.
Proof.
  eexists. split; [reflexivity|]. split; [apply map_length|].
  intros j i Hj. exists (first + inject_Z i * period rnd fs). split; [|reflexivity].
  rewrite nth_error_map, Hj. reflexivity.
Qed.

(** timestamps increase when the period is positive *)
Lemma sample_times_increasing rnd first fs i j a b : 0 < period rnd fs -> (i < j)%Z ->
  sample_to_datetime rnd fs first i None = Ok a -> sample_to_datetime rnd fs first j None = Ok b -> a < b.
Proof.
  intros P H A B. injection A as <-. injection B as <-.
  rewrite inject_Z_lt in H. nra.
Qed.

(** the period is positive for every frequency up to 10^13 Hz in exact arithmetic *)
Lemma period_exact_pos fs : 0 < fs -> fs <= inject_Z (10 ^ 13) -> 0 < period exact fs.
Proof.
  intros H1 H2. unfold period. destruct (to_timedelta_exact_err (exact (1 / fs))) as [A B].
  unfold tiny in B. unfold exact in *.
  assert (1 # 10000000000000 <= 1 / fs).
  { apply Qle_shift_div_l; [exact H1|]. change (inject_Z (10^13)) with (10000000000000#1) in H2. lra. }
  lra.
Qed.

Lemma to_n_samples_exact_all d fs :
  (forall k m, d * fs == inject_Z k -> to_n_samples exact d fs m = (k + 1)%Z) /\
  ((forall k, ~ d * fs == inject_Z k) ->
    to_n_samples exact d fs Mceil = (to_n_samples exact d fs Mfloor + 1)%Z) /\
  (to_n_samples exact d fs Mfloor <= to_n_samples exact d fs Mround <= to_n_samples exact d fs Mceil)%Z /\
  (forall m, Qabs (inject_Z (to_n_samples exact d fs m) - (d * fs + 1)) < 1) /\
  Qabs (inject_Z (to_n_samples exact d fs Mround) - (d * fs + 1)) <= 1 # 2 /\
  inject_Z (to_n_samples exact d fs Mfloor) <= d * fs + 1 /\
  d * fs + 1 <= inject_Z (to_n_samples exact d fs Mceil).
Proof.
  pose proof (to_n_samples_order exact d fs) as [O1 O2].
  assert (Fl : inject_Z (to_n_samples exact d fs Mfloor) <= d * fs + 1 /\
               d * fs + 1 < inject_Z (to_n_samples exact d fs Mfloor) + 1).
  { rewrite to_n_samples_exact_floor, inject_Z_plus. change (inject_Z 1) with 1.
    destruct (qfloor_spec (d * fs)). lra. }
  assert (Ce : d * fs + 1 <= inject_Z (to_n_samples exact d fs Mceil) /\
               inject_Z (to_n_samples exact d fs Mceil) - 1 < d * fs + 1).
  { rewrite to_n_samples_exact_ceil, inject_Z_plus. change (inject_Z 1) with 1.
    destruct (qceil_spec (d * fs)). lra. }
  assert (Ro : Qabs (inject_Z (to_n_samples exact d fs Mround) - (d * fs + 1)) <= 1 # 2).
  { rewrite to_n_samples_eq. cbv zeta. pose proof (n_float_exact d fs) as E.
    set (x := n_float exact d fs) in *. rewrite <- E.
    destruct (q_is_integer x) eqn:I.
    - apply q_is_integer_true in I. assert (Z0 : inject_Z (qfloor x) - x == 0) by lra.
      rewrite Z0. discriminate.
    - pose proof (qround_spec x) as R.
      assert (S : inject_Z (qround x) - x == - (x - inject_Z (qround x))) by ring.
      rewrite S, Qabs_opp. exact R. }
  split; [intros; apply to_n_samples_exact_mult; assumption|].
  split.
  { intros N. rewrite to_n_samples_exact_ceil, to_n_samples_exact_floor.
    rewrite qceil_floor_nonint; [lia|]. destruct (q_is_integer (d * fs)) eqn:I; [|reflexivity].
    apply q_is_integer_true in I. exfalso. exact (N _ I). }
  split; [exact O1|]. split.
  { intros m. destruct m; [lra| |]; apply Qabs_case; intros; lra. }
  split; [exact Ro|]. split; [apply Fl|apply Ce].
Qed.
