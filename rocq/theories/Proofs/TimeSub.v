(** C11: composition of subsections *)
From Coq Require Import String Qminmax.
From Verif Require Import Base.Prelude Base.Rounding Base.ListUtil Base.Interp Model.Sampling Model.Time
  Spec.Sampling Spec.Time Proofs.Sampling Proofs.SamplingFloat Proofs.Period Proofs.TimeMeta Proofs.TimeProc.
Open Scope Q_scope.

Lemma interval_cap first dt f1 t1 f2 t2 j :
  in_interval first dt (Qmax f1 f2) (Qmin t1 t2) j <->
  in_interval first dt f1 t1 j /\ in_interval first dt f2 t2 j.
Proof.
  unfold in_interval. rewrite Q.max_lub_iff, Q.min_glb_iff. tauto.
Qed.

Lemma interval_shift first dt a f t j :
  in_interval (stamp first dt a) dt f t j <-> in_interval first dt f t (a + j)%Z.
Proof.
  unfold in_interval, stamp. rewrite inject_Z_plus.
  assert (E : first + inject_Z a * dt + inject_Z j * dt == first + (inject_Z a + inject_Z j) * dt) by ring.
  rewrite E. reflexivity.
Qed.

Lemma range_unique n a b a' b' : (0 <= a)%Z -> (a < b)%Z -> (b < n)%Z -> (0 <= a')%Z -> (a' < b')%Z -> (b' < n)%Z ->
  (forall j, (0 <= j < n)%Z -> ((a <= j <= b) <-> (a' <= j <= b'))%Z) -> a = a' /\ b = b'.
Proof.
  intros H1 H2 H3 H4 H5 H6 R.
  pose proof (R a ltac:(lia)). pose proof (R b ltac:(lia)). pose proof (R a' ltac:(lia)). pose proof (R b' ltac:(lia)). lia.
Qed.

Section Compose.
  Variable td : tdata.
  Let m := meta td.
  Hypothesis Hfs : 0 < fs m.
  Hypothesis Hp : sub_micro_ns (1 / fs m) == 0 \/ 1 # 10000 <= sub_micro_ns (1 / fs m).
  Hypothesis Hn : (1 <= n_samples m)%Z.
  Hypothesis Hc : consistent exact td.
  Let first := first_time m.
  Let dtt := period exact (fs m).

  Definition sub_result (f t : Q) (a b : Z) : tdata :=
    mkData (with_history (adjust_time_metadata exact m (fs m) (stamp first dtt a) (b - a + 1))
                    (history m ++ [CProc (PSubsection f t)])) (dtype td)
                 (map (slice a (b + 1)) (rows td)).

  Lemma sub_res f t td1 : subsection exact f t td = Ok td1 ->
    exists a b, (0 <= a)%Z /\ (a < b)%Z /\ (b < n_samples m)%Z /\
      (forall j, (0 <= j < n_samples m)%Z -> (in_interval first dtt f t j <-> (a <= j <= b)%Z)) /\
      td1 = sub_result f t a b.
  Proof.
    intros H. destruct (sub_ok_inv td Hfs Hp Hn Hc f t td1 H) as (a & b & Ea & Eb & A & L & B & R).
    destruct (subsection_inv _ _ _ _ _ H) as (a' & b' & Ea' & Eb' & _ & ->).
    fold m in Ea, Eb, Ea', Eb'. rewrite Ea in Ea'. rewrite Eb in Eb'. injection Ea' as <-. injection Eb' as <-.
    exists a, b. repeat split; try assumption; apply R; assumption.
  Qed.

  Lemma sub_res_ok f t i j : (0 <= i)%Z -> (i < j)%Z -> (j < n_samples m)%Z ->
    in_interval first dtt f t i -> in_interval first dtt f t j ->
    exists td1, subsection exact f t td = Ok td1.
  Proof.
    intros H0 Hij Hj Ii Ij. destruct (sub_two_ok td Hfs Hp Hn Hc f t i j H0 Hij Hj Ii Ij) as (a & b & Ea & Eb & _ & L & _).
    eexists. apply (subsection_ok exact f t td a b Ea Eb L).
  Qed.

  Lemma sub_result_consistent f t a b : (0 <= a)%Z -> (a < b)%Z -> (b < n_samples m)%Z ->
    consistent exact (sub_result f t a b).
  Proof.
    intros A L B.
    change (consistent exact (new_time_data td (Some (adjust_time_metadata exact (meta td) (fs (meta td)) (stamp first dtt a) (b - a + 1)))
      (Some (map (slice a (b + 1)) (rows td))) (Some (CProc (PSubsection f t))))).
    apply adjust_consistent; [exact Hc|]. destruct Hc as (_ & _ & _ & Cn & _). eapply rows_ok_map; [exact Cn|].
    intros x Hx. fold m in Hx. rewrite slice_length; lia.
  Qed.
End Compose.

Lemma compose_fwd td f1 t1 f2 t2 td1 td2 :
  0 < fs (meta td) -> (sub_micro_ns (1 / fs (meta td)) == 0 \/ 1 # 10000 <= sub_micro_ns (1 / fs (meta td))) ->
  (1 <= n_samples (meta td))%Z -> consistent exact td ->
  subsection exact f1 t1 td = Ok td1 -> subsection exact f2 t2 td1 = Ok td2 ->
  exists td3, subsection exact (Qmax f1 f2) (Qmin t1 t2) td = Ok td3 /\
    rows td3 = rows td2 /\ n_samples (meta td3) = n_samples (meta td2) /\
    first_time (meta td3) == first_time (meta td2) /\ last_time (meta td3) == last_time (meta td2).
Proof.
  intros Hfs Hp Hn Hc H1 H2.
  destruct (sub_res td Hfs Hp Hn Hc _ _ _ H1) as (a1 & b1 & A1 & L1 & B1 & R1 & ->).
  pose proof (sub_result_consistent td Hc f1 t1 a1 b1 A1 L1 B1) as Hc1.
  assert (Hn1 : (1 <= n_samples (meta (sub_result td f1 t1 a1 b1)))%Z) by (cbn; lia).
  destruct (sub_res (sub_result td f1 t1 a1 b1) Hfs Hp Hn1 Hc1 _ _ _ H2) as (a2 & b2 & A2 & L2 & B2 & R2 & ->).
  cbn [sub_result meta with_history adjust_time_metadata n_samples first_time fs] in B2, R2.
  set (first := first_time (meta td)) in *. set (dtt := period exact (fs (meta td))) in *. set (n := n_samples (meta td)) in *.
  assert (R3 : forall j, (0 <= j < n)%Z -> (in_interval first dtt (Qmax f1 f2) (Qmin t1 t2) j <-> (a1 + a2 <= j <= a1 + b2)%Z)).
  { intros j Hj. rewrite interval_cap, (R1 j Hj). split.
    - intros [I1 I2]. assert (E : in_interval (stamp first dtt a1) dtt f2 t2 (j - a1)).
      { apply (proj2 (interval_shift _ _ _ _ _ _)). replace (a1 + (j - a1))%Z with j by lia. exact I2. }
      apply R2 in E; lia.
    - intros I1. split; [lia|]. assert (E : in_interval (stamp first dtt a1) dtt f2 t2 (j - a1)) by (apply R2; lia).
      apply (proj1 (interval_shift _ _ _ _ _ _)) in E. replace (a1 + (j - a1))%Z with j in E by lia. exact E. }
  destruct (sub_res_ok td Hfs Hp Hn Hc (Qmax f1 f2) (Qmin t1 t2) (a1 + a2) (a1 + b2)) as [td3 H3]; fold n; try lia.
  { apply R3; lia. } { apply R3; lia. }
  exists td3. split; [exact H3|].
  destruct (sub_res td Hfs Hp Hn Hc _ _ _ H3) as (a3 & b3 & A3 & L3 & B3 & R3' & ->).
  fold n in B3, R3'. fold first dtt in R3'.
  destruct (range_unique n a3 b3 (a1 + a2) (a1 + b2)) as [-> ->]; try lia.
  { intros j Hj. rewrite <- R3, <- R3' by exact Hj. reflexivity. }
  cbn [sub_result rows meta with_history adjust_time_metadata n_samples first_time last_time fs].
  split.
  - rewrite map_map. apply map_ext_in. intros r Hr. rewrite slice_slice by lia. f_equal; lia.
  - split; [lia|]. fold first dtt. unfold stamp.
    assert (F : first + inject_Z (a1 + a2) * dtt == first + inject_Z a1 * dtt + inject_Z a2 * dtt) by (rewrite inject_Z_plus; ring).
    split; [exact F|]. rewrite F. replace (a1 + b2 - (a1 + a2) + 1 - 1)%Z with (b2 - a2 + 1 - 1)%Z by lia. reflexivity.
Qed.

Lemma compose_bwd td f1 t1 f2 t2 td3 :
  0 < fs (meta td) -> (sub_micro_ns (1 / fs (meta td)) == 0 \/ 1 # 10000 <= sub_micro_ns (1 / fs (meta td))) ->
  (1 <= n_samples (meta td))%Z -> consistent exact td ->
  subsection exact (Qmax f1 f2) (Qmin t1 t2) td = Ok td3 ->
  exists td1 td2, subsection exact f1 t1 td = Ok td1 /\ subsection exact f2 t2 td1 = Ok td2.
Proof.
  intros Hfs Hp Hn Hc H3.
  destruct (sub_res td Hfs Hp Hn Hc _ _ _ H3) as (a & b & A & L & B & R & ->).
  pose proof (proj2 (R a ltac:(lia)) ltac:(lia)) as Ia. pose proof (proj2 (R b ltac:(lia)) ltac:(lia)) as Ib.
  apply interval_cap in Ia. apply interval_cap in Ib. destruct Ia as [Ia1 Ia2], Ib as [Ib1 Ib2].
  destruct (sub_res_ok td Hfs Hp Hn Hc f1 t1 a b) as [td1 H1]; try lia; try assumption.
  exists td1. destruct (sub_res td Hfs Hp Hn Hc _ _ _ H1) as (a1 & b1 & A1 & L1 & B1 & R1 & ->).
  pose proof (sub_result_consistent td Hc f1 t1 a1 b1 A1 L1 B1) as Hc1.
  assert (Hn1 : (1 <= n_samples (meta (sub_result td f1 t1 a1 b1)))%Z) by (cbn; lia).
  pose proof (proj1 (R1 a ltac:(lia)) Ia1). pose proof (proj1 (R1 b ltac:(lia)) Ib1).
  destruct (sub_res_ok (sub_result td f1 t1 a1 b1) Hfs Hp Hn1 Hc1 f2 t2 (a - a1) (b - a1)) as [td2 H2];
    cbn [sub_result meta with_history adjust_time_metadata n_samples first_time fs]; try lia.
  - apply (proj2 (interval_shift _ _ _ _ _ _)). replace (a1 + (a - a1))%Z with a by lia. exact Ia2.
  - apply (proj2 (interval_shift _ _ _ _ _ _)). replace (a1 + (b - a1))%Z with b by lia. exact Ib2.
  - exists td2. split; assumption.
Qed.
