(** A concrete limit_denominator (brute force) satisfying its contract *)
From Coq Require Import String.
From Verif Require Import Base.Prelude Base.Rounding Base.ListUtil Model.Sampling Model.Time Model.Decimate
  Spec.Time Spec.Decimate Proofs.Toy Proofs.DecRun.
Open Scope Q_scope.

Definition cand (x : Q) (q : nat) : Q := qround (x * inject_Z (Z.of_nat q)) # Pos.of_nat q.
Fixpoint brute (x : Q) (D : nat) : Q :=
  match D with
  | O => 0
  | S O => cand x 1
  | S k => let b := brute x k in let c := cand x (S k) in
           if Qltb (Qabs (c - x)) (Qabs (b - x)) then c else b
  end.

Lemma qround_best y p : Qabs (inject_Z (qround y) - y) <= Qabs (inject_Z p - y).
Proof.
  pose proof (qround_spec y) as H. destruct (Z.eq_dec p (qround y)) as [->|N]; [lra|].
  assert (E : inject_Z (qround y) - y == - (y - inject_Z (qround y))) by ring. rewrite E, Qabs_opp. clear E.
  apply Qle_trans with (1#2); [exact H|]. apply Qabs_Qle_condition in H.
  destruct (Z_lt_le_dec p (qround y)) as [L|L].
  - assert (L' : (p + 1 <= qround y)%Z) by lia. apply (proj1 (inject_Z_le _ _)) in L'. rewrite inject_Z_plus in L'. change (inject_Z 1) with 1 in L'.
    rewrite Qabs_neg by lra. lra.
  - assert (L' : (qround y + 1 <= p)%Z) by lia. apply (proj1 (inject_Z_le _ _)) in L'. rewrite inject_Z_plus in L'. change (inject_Z 1) with 1 in L'.
    rewrite Qabs_pos by lra. lra.
Qed.

Lemma cand_best x q p : (1 <= q)%nat -> Qabs (cand x q - x) <= Qabs ((p # Pos.of_nat q) - x).
Proof.
  intros Hq. unfold cand. set (Q0 := inject_Z (Z.of_nat q)).
  assert (P : Zpos (Pos.of_nat q) = Z.of_nat q) by lia.
  assert (PQ : 0 < Q0). { unfold Q0. change 0 with (inject_Z 0). apply (proj1 (inject_Z_lt _ _)). lia. }
  assert (K : forall k, Qabs ((k # Pos.of_nat q) - x) == Qabs (inject_Z k - x * Q0) / Q0).
  { intros k. assert (E : (k # Pos.of_nat q) - x == (inject_Z k - x * Q0) / Q0).
    { rewrite (Qmake_Qdiv k (Pos.of_nat q)). rewrite P. fold Q0. field. lra. }
    rewrite E. unfold Qdiv. rewrite Qabs_Qmult. rewrite (Qabs_pos (/ Q0)); [reflexivity|]. apply Qlt_le_weak, Qinv_lt_0_compat. exact PQ. }
  rewrite !K. apply Qmult_le_compat_r; [apply qround_best|]. apply Qlt_le_weak, Qinv_lt_0_compat. exact PQ.
Qed.

Lemma Qred_den_le r : (Zpos (Qden (Qred r)) <= Zpos (Qden r))%Z.
Proof.
  destruct r as [n d]. unfold Qred. pose proof (Z.ggcd_gcd n (Zpos d)) as Hg. pose proof (Z.ggcd_correct_divisors n (Zpos d)) as H.
  destruct (Z.ggcd n (Zpos d)) as [g [a b]]. destruct H as [H1 H2]. cbn [fst] in Hg. cbn [snd Qden].
  assert (0 <= g)%Z by (subst g; apply Z.gcd_nonneg).
  assert (0 < b)%Z by nia. assert (1 <= g)%Z by (destruct (Z.eq_dec g 0) as [->|]; lia). rewrite Z2Pos.id by lia. rewrite H2. nia.
Qed.

Lemma brute_best x D : (1 <= D)%nat -> best_approx (Z.of_nat D) x (brute x D).
Proof.
  assert (K : forall D, (1 <= D)%nat -> (Zpos (Qden (brute x D)) <= Z.of_nat D)%Z /\
     forall q p, (1 <= q <= D)%nat -> Qabs (brute x D - x) <= Qabs ((p # Pos.of_nat q) - x)).
  { clear. induction D as [|k IH]; intros H; [lia|]. destruct k as [|k].
    - cbn [brute]. split; [cbn; lia|]. intros q p Hq. replace q with 1%nat by lia. apply cand_best. lia.
    - destruct (IH ltac:(lia)) as [I1 I2].
      change (brute x (S (S k))) with (let b := brute x (S k) in let c := cand x (S (S k)) in
         if Qltb (Qabs (c - x)) (Qabs (b - x)) then c else b). cbv zeta.
      destruct (Qltb (Qabs (cand x (S (S k)) - x)) (Qabs (brute x (S k) - x))) eqn:E.
      + apply Qltb_true in E. split; [cbn [cand Qden]; lia|]. intros q p Hq.
        destruct (Nat.eq_dec q (S (S k))) as [->|]; [apply cand_best; lia|]. pose proof (I2 q p ltac:(lia)). lra.
      + apply Qltb_false in E. split; [lia|]. intros q p Hq.
        destruct (Nat.eq_dec q (S (S k))) as [->|]; [|apply I2; lia]. pose proof (cand_best x (S (S k)) p ltac:(lia)). lra. }
  intros HD. destruct (K D HD) as [K1 K2]. split.
  - pose proof (Qred_den_le (brute x D)). lia.
  - intros p q Hq. pose proof (K2 (Pos.to_nat q) p ltac:(lia)) as K3. rewrite Pos2Nat.id in K3. exact K3.
Qed.

Definition toyD : oracles := {|
  o_filter := o_filter toy; o_resample := o_resample toy; o_decimate := o_decimate toy; o_isqrt := o_isqrt toy;
  o_limit_denominator := fun x => brute x 40; o_garbage := o_garbage toy |}.
Lemma toyD_good : good_oracles toyD /\ forall x, best_approx 40 x (o_limit_denominator toyD x).
Proof.
  split.
  - destruct toy_good. constructor; assumption.
  - intros x. apply (brute_best x 40). lia.
Qed.
