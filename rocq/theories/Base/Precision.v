(** Precision of a rounding: [precision p r] says that [r] rounds to about p significant bits. binary64 has 53, binary32 24
    (exponent range unbounded, as in Base.Rounding). *)
From Verif Require Import Base.Prelude Base.Rounding Base.B32.
Open Scope Q_scope.

Record precision (p : Z) (r : Q -> Q) : Prop := {
  pr_comp : forall x y, x == y -> r x == r y;
  (* whole numbers up to 2^p are not rounded *)
  pr_int : forall k : Z, (Z.abs k <= 2 ^ p)%Z -> r (inject_Z k) == inject_Z k;
  (* relative error at most 2^-p *)
  pr_err : forall x, Qabs (r x - x) <= Qabs x * pow2 (- p);
  pr_mono : forall x y, x <= y -> r x <= r y
}.

Lemma good_precision rnd : good_rnd rnd -> precision 53 rnd.
Proof.
  intros G. split.
  - apply (gr_comp _ G).
  - intros k Hk. assert (E : inject_Z k * pow2 0 == inject_Z k) by (rewrite pow2_0; ring).
    rewrite (gr_comp _ G _ _ (Qeq_sym _ _ E)). rewrite (gr_repr _ G _ 0 Hk). exact E.
  - intros x. change (pow2 (- 53)) with (1 # 9007199254740992). apply (gr_err _ G).
  - apply (gr_mono _ G).
Qed.
Lemma exact_precision p : precision p exact.
Proof.
  split; unfold exact; intros; try assumption; try reflexivity.
  assert (E : x - x == 0) by ring. rewrite E. rewrite (Qabs_pos 0) by lra.
  pose proof (Qabs_nonneg x). pose proof (pow2_pos (- p)). nra.
Qed.

Lemma b32_cases x : (x == 0 /\ b32 x == 0) \/
  exists e, ~ x == 0 /\ pow2 (e + 23) <= Qabs x /\ Qabs x < pow2 (e + 24)
       /\ b32 x == inject_Z (qround (x * pow2 (- e))) * pow2 e.
Proof.
  unfold b32, b32_aux. destruct (Qeq_bool (Qred x) 0) eqn:E.
  - apply Qeq_bool_iff in E. rewrite Qred_correct in E. left. split; [exact E|reflexivity].
  - right.
    assert (N : ~ Qred x == 0) by (intro C; apply Qeq_bool_iff in C; congruence).
    destruct (b64_exp_spec _ N) as [H1 H2]. revert H1 H2.
    generalize (b64_exp (Qred x)). intros e0 H1 H2. exists (e0 + 29)%Z.
    rewrite Qred_correct in H1, H2. replace (e0 + 29 + 23)%Z with (e0 + 52)%Z by lia. replace (e0 + 29 + 24)%Z with (e0 + 53)%Z by lia.
    set (e := (e0 + 29)%Z). repeat split; try assumption.
    + intro C. apply N. rewrite Qred_correct. exact C.
    + rewrite Qred_correct.
      assert (Q1 : Qred x * pow2 (- e) == x * pow2 (- e)) by (rewrite Qred_correct; reflexivity).
      rewrite (qround_comp _ _ Q1). reflexivity.
Qed.
Lemma b32_err x : Qabs (b32 x - x) <= Qabs x * (1 # 16777216).
Proof.
  destruct (b32_cases x) as [[H0 Hr]|(e & Hn & H1 & H2 & Hr)].
  - rewrite Hr, H0. vm_compute. discriminate.
  - rewrite Hr. pose proof (qround_spec (x * pow2 (- e))) as R.
    assert (E : inject_Z (qround (x * pow2 (- e))) * pow2 e - x
                == - ((x * pow2 (-e) - inject_Z (qround (x * pow2 (- e)))) * pow2 e)).
    { generalize (qround (x * pow2 (- e))). intros m.
      assert (T : x * (pow2 e * pow2 (- e)) == x) by (rewrite pow2_opp; ring).
      lra. }
    rewrite E, Qabs_opp, Qabs_Qmult. pose proof (pow2_pos e) as P.
    rewrite (Qabs_pos (pow2 e)) by lra.
    assert (K2 : pow2 e * (1 # 2) <= Qabs x * (1 # 16777216)).
    {
      assert (pow2 e * (1 # 2) == pow2 (e + 23) * (1 # 16777216)) as ->.
      { rewrite pow2_plus. change (pow2 23) with (2^23 # 1). 
        assert ((2^23 # 1) * (1 # 16777216) == 1 # 2) by reflexivity. rewrite <- Qmult_assoc, H. reflexivity. }
      apply Qmult_le_compat_r; [exact H1|]. discriminate. }
    eapply Qle_trans; [|exact K2]. rewrite Qmult_comm.
    apply Qmult_le_l; assumption.
Qed.
Lemma b32_abs_bounds x e : pow2 (e + 23) <= Qabs x -> Qabs x < pow2 (e + 24) ->
  pow2 (e + 23) <= Qabs (inject_Z (qround (x * pow2 (- e))) * pow2 e) /\
  Qabs (inject_Z (qround (x * pow2 (- e))) * pow2 e) <= pow2 (e + 24).
Proof.
  intros H1 H2. pose proof (pow2_pos e) as P. pose proof (pow2_pos (-e)) as P'.
  pose proof (pow2_opp e) as O.
  rewrite !pow2_plus in *. rewrite Qabs_Qmult, (Qabs_pos (pow2 e)) by lra.
  change (Qabs (inject_Z ?a)) with (inject_Z (Z.abs a)).
  assert (B : (2^23 <= Z.abs (qround (x * pow2 (-e))) <= 2^24)%Z).
  { apply (Qabs_case x (fun r => pow2 e * pow2 23 <= r -> r < pow2 e * pow2 24 -> (2^23 <= Z.abs (qround (x * pow2 (-e))) <= 2^24)%Z)); try assumption.
    - intros Hp L1 L2.
      assert (pow2 23 <= x * pow2 (-e)) as A by nra.
      assert (x * pow2 (-e) <= pow2 24) as B by nra.
      rewrite (pow2_Z 23) in A by lia. rewrite (pow2_Z 24) in B by lia.
      apply qround_mono in A. apply qround_mono in B. rewrite qround_Z in A, B. lia.
    - intros Hp L1 L2.
      assert (x * pow2 (-e) <= - pow2 23) as A by nra.
      assert (- pow2 24 <= x * pow2 (-e)) as B by nra.
      rewrite (pow2_Z 23) in A by lia. rewrite (pow2_Z 24) in B by lia. rewrite <- inject_Z_opp in A, B.
      apply qround_mono in A. apply qround_mono in B. rewrite qround_Z in A, B. lia. }
  destruct B as [B1 B2]. apply inject_Z_le in B1, B2. rewrite <- pow2_Z in B1, B2 by lia.
  split; nra.
Qed.
Lemma b32_pos x : 0 < x -> 0 <= b32 x.
Proof.
  intros H. destruct (b32_cases x) as [[H0 Hr]|(e & Hn & H1 & H2 & Hr)]; [lra|].
  rewrite Hr. pose proof (pow2_pos e). pose proof (pow2_pos (-e)).
  assert (A : inject_Z 0 <= x * pow2 (-e)) by (change (inject_Z 0) with 0; nra).
  apply qround_mono in A. rewrite qround_Z in A. apply inject_Z_le in A. change (inject_Z 0) with 0 in A. nra.
Qed.
Lemma b32_neg x : x < 0 -> b32 x <= 0.
Proof.
  intros H. destruct (b32_cases x) as [[H0 Hr]|(e & Hn & H1 & H2 & Hr)]; [lra|].
  rewrite Hr. pose proof (pow2_pos e). pose proof (pow2_pos (-e)).
  assert (A : x * pow2 (-e) <= inject_Z 0) by (change (inject_Z 0) with 0; nra).
  apply qround_mono in A. rewrite qround_Z in A. apply inject_Z_le in A. change (inject_Z 0) with 0 in A. nra.
Qed.
Lemma b32_mono x y : x <= y -> b32 x <= b32 y.
Proof.
  intros H.
  destruct (b32_cases x) as [[H0 Hr]|(e & Hn & H1 & H2 & Hr)].
  { rewrite Hr. destruct (Qlt_le_dec 0 y) as [P|P]; [apply b32_pos; exact P|].
    assert (Z : y == 0) by lra. rewrite (b32_comp _ _ Z). discriminate. }
  destruct (b32_cases y) as [[H0' Hr']|(e' & Hn' & H1' & H2' & Hr')].
  { rewrite Hr'. apply b32_neg. destruct (Q_dec x 0) as [[A|A]|A]; [exact A| |contradiction]. lra. }
  destruct (Q_dec x 0) as [[Nx|Px]|A]; [| |contradiction].
  - destruct (Q_dec y 0) as [[Ny|Py]|A]; [| |contradiction].
    2:{ pose proof (b32_neg x Nx). pose proof (b32_pos y Py). lra. }
    destruct (Z.eq_dec e e') as [<-|NE].
    + rewrite Hr, Hr'. pose proof (pow2_pos e). pose proof (pow2_pos (-e)).
      assert (x * pow2 (-e) <= y * pow2 (-e)) as M by nra. apply qround_mono, inject_Z_le in M. nra.
    + pose proof (b32_abs_bounds x e H1 H2) as [X1 X2]. pose proof (b32_abs_bounds y e' H1' H2') as [Y1 Y2].
      rewrite <- Hr in X1, X2. rewrite <- Hr' in Y1, Y2.
      pose proof (b32_neg x Nx) as Ix. pose proof (b32_neg y Ny) as Iy.
      rewrite (Qabs_neg x) in H1, H2 by lra. rewrite (Qabs_neg y) in H1', H2' by lra.
      rewrite (Qabs_neg (b32 x)) in X1, X2 by lra. rewrite (Qabs_neg (b32 y)) in Y1, Y2 by lra.
      assert (e' < e)%Z as LL.
      { assert (pow2 (e' + 23) < pow2 (e + 24)) as T by lra. apply pow2_lt_inv in T. lia. }
      assert (pow2 (e' + 24) <= pow2 (e + 23)) by (apply pow2_le; lia). lra.
  - assert (Py : 0 < y) by lra.
    destruct (Z.eq_dec e e') as [<-|NE].
    + rewrite Hr, Hr'. pose proof (pow2_pos e). pose proof (pow2_pos (-e)).
      assert (x * pow2 (-e) <= y * pow2 (-e)) as M by nra. apply qround_mono, inject_Z_le in M. nra.
    + pose proof (b32_abs_bounds x e H1 H2) as [X1 X2]. pose proof (b32_abs_bounds y e' H1' H2') as [Y1 Y2].
      rewrite <- Hr in X1, X2. rewrite <- Hr' in Y1, Y2.
      pose proof (b32_pos x Px) as Ix. pose proof (b32_pos y Py) as Iy.
      rewrite (Qabs_pos x) in H1, H2 by lra. rewrite (Qabs_pos y) in H1', H2' by lra.
      rewrite (Qabs_pos (b32 x)) in X1, X2 by lra. rewrite (Qabs_pos (b32 y)) in Y1, Y2 by lra.
      assert (e < e')%Z as LL.
      { assert (pow2 (e + 23) < pow2 (e' + 24)) as T by lra. apply pow2_lt_inv in T. lia. }
      assert (pow2 (e + 24) <= pow2 (e' + 23)) by (apply pow2_le; lia). lra.
Qed.

Theorem b32_precision : precision 24 b32.
Proof.
  split.
  - intros x y H. rewrite (b32_comp _ _ H). reflexivity.
  - intros k Hk. destruct (Z.eq_dec (Z.abs k) (2 ^ 24)) as [E|N]; [|apply b32_int; lia].
    assert (k = 2 ^ 24 \/ k = - 2 ^ 24)%Z as [->| ->] by lia; vm_compute; reflexivity.
  - intros x. change (pow2 (- 24)) with (1 # 16777216). apply b32_err.
  - apply b32_mono.
Qed.
