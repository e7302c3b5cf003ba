(** Floating point as rational arithmetic with explicit rounding.

    [b64] is IEEE binary64 round-to-nearest-even restricted to the normal
    range (unbounded exponent, no overflow / subnormals / NaN).  [exact] is
    the identity.  [good_rnd] collects what the theorems use about rounding;
    both are instances. *)
From Verif Require Import Base.Prelude.
Open Scope Q_scope.

Definition pow2 (e : Z) : Q := Qpower 2 e.

Lemma pow2_pos e : 0 < pow2 e.
Proof. unfold pow2. apply Qpower_0_lt. reflexivity. Qed.
Lemma pow2_plus a b : pow2 (a + b) == pow2 a * pow2 b.
Proof. unfold pow2. apply Qpower_plus. intro H. discriminate H. Qed.
Lemma pow2_0 : pow2 0 == 1.
Proof. reflexivity. Qed.
Lemma pow2_Z e : (0 <= e)%Z -> pow2 e == inject_Z (2 ^ e).
Proof. intros H. unfold pow2. rewrite (Zpower_Qpower 2 e H). reflexivity. Qed.
Lemma pow2_le a b : (a <= b)%Z -> pow2 a <= pow2 b.
Proof.
  intros H. replace b with (a + (b - a))%Z by lia. rewrite pow2_plus.
  pose proof (pow2_pos a). rewrite (pow2_Z (b - a)) by lia.
  assert (1 <= inject_Z (2 ^ (b - a))).
  { change 1 with (inject_Z 1). rewrite <- inject_Z_le.
    pose proof (Z.pow_pos_nonneg 2 (b - a)). lia. }
  nra.
Qed.
Lemma pow2_opp a : pow2 a * pow2 (- a) == 1.
Proof. rewrite <- pow2_plus. replace (a + - a)%Z with 0%Z by lia. reflexivity. Qed.
Lemma pow2_lt_inv a b : pow2 a < pow2 b -> (a < b)%Z.
Proof.
  intros H. destruct (Z_lt_le_dec a b) as [|L]; [assumption|].
  pose proof (pow2_le b a L). lra.
Qed.

Record good_rnd (rnd : Q -> Q) : Prop := {
  (* the rounding is a function of the value *)
  gr_comp : forall x y, x == y -> rnd x == rnd y;
  (* numbers with at most 53 significant bits are not rounded *)
  gr_repr : forall m e : Z, (Z.abs m <= 2 ^ 53)%Z ->
            rnd (inject_Z m * pow2 e) == inject_Z m * pow2 e;
  (* relative error at most 2^-53 *)
  gr_err : forall x, Qabs (rnd x - x) <= Qabs x * (1 # 9007199254740992);
  (* monotone *)
  gr_mono : forall x y, x <= y -> rnd x <= rnd y
}.

Definition exact (x : Q) : Q := x.

Lemma exact_good : good_rnd exact.
Proof.
  split; unfold exact; intros; try assumption; try reflexivity.
  assert (E : x - x == 0) by ring. rewrite E. rewrite (Qabs_pos 0) by lra.
  pose proof (Qabs_nonneg x). nra.
Qed.

(** exponent [e] such that [2^52 <= |x| / 2^e < 2^53] *)
Definition b64_exp (x : Q) : Z :=
  let l := (Z.log2 (Z.abs (Qnum x)) - Z.log2 (Zpos (Qden x)))%Z in
  if Qltb (Qabs x) (pow2 l) then (l - 53)%Z else (l - 52)%Z.

Definition b64_aux (x : Q) : Q :=
  if Qeq_bool x 0 then 0 else
  let e := b64_exp x in
  Qred (inject_Z (qround (x * pow2 (- e))) * pow2 e).

Definition b64 (x : Q) : Q := b64_aux (Qred x).

Lemma Qabs_frac n d : Qabs (n # d) == inject_Z (Z.abs n) / inject_Z (Zpos d).
Proof. unfold Qabs. rewrite (Qmake_Qdiv (Z.abs n) d). reflexivity. Qed.

Lemma b64_exp_spec x : ~ x == 0 ->
  pow2 (b64_exp x + 52) <= Qabs x /\ Qabs x < pow2 (b64_exp x + 53).
Proof.
  intros Hx. unfold b64_exp. set (l := (_ - _)%Z).
  assert (Hn : (0 < Z.abs (Qnum x))%Z).
  { destruct x as [n d]. cbn. assert (n <> 0)%Z; [|lia]. intros ->. apply Hx. reflexivity. }
  pose proof (Z.log2_spec _ Hn) as [A1 A2].
  pose proof (Z.log2_spec (Zpos (Qden x)) ltac:(lia)) as [B1 B2].
  pose proof (Z.log2_nonneg (Z.abs (Qnum x))) as PA.
  pose proof (Z.log2_nonneg (Zpos (Qden x))) as PB.
  set (a := Z.log2 (Z.abs (Qnum x))) in *. set (b := Z.log2 (Zpos (Qden x))) in *.
  assert (HA1 : pow2 a <= inject_Z (Z.abs (Qnum x))) by (rewrite pow2_Z by lia; rewrite <- inject_Z_le; exact A1).
  assert (HA2 : inject_Z (Z.abs (Qnum x)) < pow2 (a + 1)) by (rewrite pow2_Z by lia; rewrite <- inject_Z_lt; exact A2).
  assert (HB1 : pow2 b <= inject_Z (Zpos (Qden x))) by (rewrite pow2_Z by lia; rewrite <- inject_Z_le; exact B1).
  assert (HB2 : inject_Z (Zpos (Qden x)) < pow2 (b + 1)) by (rewrite pow2_Z by lia; rewrite <- inject_Z_lt; exact B2).
  assert (HQ : Qabs x * inject_Z (Zpos (Qden x)) == inject_Z (Z.abs (Qnum x))).
  { destruct x as [n d]. rewrite Qabs_frac. cbn [Qnum Qden]. field. intro E; discriminate E. }
  assert (Hl : pow2 a == pow2 l * pow2 b).
  { rewrite <- pow2_plus. unfold l. replace (a - b + b)%Z with a by lia. reflexivity. }
  rewrite pow2_plus in HA2, HB2.
  change (pow2 1) with 2 in *.
  pose proof (pow2_pos b) as Pb. pose proof (pow2_pos l) as Pl. pose proof (Qabs_nonneg x) as Px.
  assert (HH : pow2 l == 2 * pow2 (l - 1)).
  { replace l with ((l - 1) + 1)%Z at 1 by lia. rewrite pow2_plus. change (pow2 1) with 2. ring. }
  assert (U : Qabs x < 2 * pow2 l).
  { apply Qnot_le_lt. intro C. assert (2 * pow2 l * pow2 b <= Qabs x * inject_Z (Zpos (Qden x))) by nra. nra. }
  assert (L : pow2 (l - 1) <= Qabs x).
  { apply Qnot_lt_le. intro C. pose proof (pow2_pos (l - 1)).
    assert (Qabs x * inject_Z (Zpos (Qden x)) <= pow2 (l-1) * (2 * pow2 b)) by nra. nra. }
  assert (H2 : pow2 (l + 1) == 2 * pow2 l) by (rewrite pow2_plus; change (pow2 1) with 2; ring).
  destruct (Qltb (Qabs x) (pow2 l)) eqn:E.
  - apply Qltb_true in E. replace (l - 53 + 52)%Z with (l - 1)%Z by lia.
    replace (l - 53 + 53)%Z with l by lia. split; assumption.
  - apply Qltb_false in E. replace (l - 52 + 52)%Z with l by lia.
    replace (l - 52 + 53)%Z with (l + 1)%Z by lia. rewrite H2. split; assumption.
Qed.

Lemma b64_comp x y : x == y -> b64 x = b64 y.
Proof. intros H. unfold b64. rewrite (Qred_complete _ _ H). reflexivity. Qed.

Lemma b64_cases x : (x == 0 /\ b64 x == 0) \/
  exists e, ~ x == 0 /\ pow2 (e + 52) <= Qabs x /\ Qabs x < pow2 (e + 53)
       /\ b64 x == inject_Z (qround (x * pow2 (- e))) * pow2 e.
Proof.
  unfold b64, b64_aux. destruct (Qeq_bool (Qred x) 0) eqn:E.
  - apply Qeq_bool_iff in E. rewrite Qred_correct in E. left. split; [exact E|reflexivity].
  - right.
    assert (N : ~ Qred x == 0) by (intro C; apply Qeq_bool_iff in C; congruence).
    destruct (b64_exp_spec _ N) as [H1 H2]. revert H1 H2.
    generalize (b64_exp (Qred x)). intros e H1 H2. exists e.
    rewrite Qred_correct in H1, H2. repeat split; try assumption.
    + intro C. apply N. rewrite Qred_correct. exact C.
    + cbv zeta. rewrite Qred_correct.
      assert (Q1 : Qred x * pow2 (- e) == x * pow2 (- e)) by (rewrite Qred_correct; reflexivity).
      rewrite (qround_comp _ _ Q1). reflexivity.
Qed.

Lemma b64_err x : Qabs (b64 x - x) <= Qabs x * (1 # 9007199254740992).
Proof.
  destruct (b64_cases x) as [[H0 Hr]|(e & Hn & H1 & H2 & Hr)].
  - rewrite Hr, H0. vm_compute. discriminate.
  - rewrite Hr. pose proof (qround_spec (x * pow2 (- e))) as R.
    assert (E : inject_Z (qround (x * pow2 (- e))) * pow2 e - x
                == - ((x * pow2 (-e) - inject_Z (qround (x * pow2 (- e)))) * pow2 e)).
    { generalize (qround (x * pow2 (- e))). intros m.
      assert (T : x * (pow2 e * pow2 (- e)) == x) by (rewrite pow2_opp; ring).
      lra. }
    rewrite E, Qabs_opp, Qabs_Qmult. pose proof (pow2_pos e) as P.
    rewrite (Qabs_pos (pow2 e)) by lra.
    assert (K2 : pow2 e * (1 # 2) <= Qabs x * (1 # 9007199254740992)).
    {
      assert (pow2 e * (1 # 2) == pow2 (e + 52) * (1 # 9007199254740992)) as ->.
      { rewrite pow2_plus. change (pow2 52) with (2^52 # 1). 
        assert ((2^52 # 1) * (1 # 9007199254740992) == 1 # 2) by reflexivity. rewrite <- Qmult_assoc, H. reflexivity. }
      apply Qmult_le_compat_r; [exact H1|]. discriminate. }
    eapply Qle_trans; [|exact K2]. rewrite Qmult_comm.
    apply Qmult_le_l; assumption.
Qed.

Lemma qround_int x k : x == inject_Z k -> qround x = k.
Proof. intros H. rewrite (qround_comp _ _ H). apply qround_Z. Qed.

Lemma b64_repr m e : (Z.abs m <= 2 ^ 53)%Z -> b64 (inject_Z m * pow2 e) == inject_Z m * pow2 e.
Proof.
  intros Hm. set (x := inject_Z m * pow2 e).
  destruct (b64_cases x) as [[H0 Hr]|(e' & Hn & H1 & H2 & Hr)].
  - rewrite Hr, H0. reflexivity.
  - assert (I : exists k, x * pow2 (- e') == inject_Z k).
    { unfold x. destruct (Z_le_gt_dec e' e) as [L|G].
      - exists (m * 2 ^ (e - e'))%Z. rewrite inject_Z_mult.
        rewrite <- pow2_Z by lia. unfold Z.sub. rewrite pow2_plus. ring.
      - assert (Ax : Qabs x == inject_Z (Z.abs m) * pow2 e).
        { unfold x. rewrite Qabs_Qmult. pose proof (pow2_pos e). rewrite (Qabs_pos (pow2 e)) by lra. reflexivity. }
        rewrite Ax in H1.
        assert (M : inject_Z (Z.abs m) <= inject_Z (2^53)) by (rewrite <- inject_Z_le; exact Hm).
        rewrite <- pow2_Z in M by lia.
        assert (Eq : e' = (e + 1)%Z).
        { pose proof (pow2_pos e). assert (pow2 (e' + 52) <= pow2 (e + 53)) as F by (rewrite (pow2_plus e); nra).
          destruct (Z_le_gt_dec e' (e+1)) as [|G2]; [lia|].
          assert (pow2 (e + 54) <= pow2 (e' + 52)) as F2 by (apply pow2_le; lia).
          assert (pow2 (e + 54) == 2 * pow2 (e + 53)) as F3.
          { replace (e + 54)%Z with (e + 53 + 1)%Z by lia. rewrite (pow2_plus (e+53)). change (pow2 1) with 2. ring. }
          pose proof (pow2_pos (e+53)). lra. }
        subst e'.
        assert (W : Z.abs m = (2^53)%Z).
        { assert (pow2 53 <= inject_Z (Z.abs m)).
          { replace (e + 1 + 52)%Z with (e + 53)%Z in H1 by lia. rewrite pow2_plus in H1.
            pose proof (pow2_pos e). apply Qnot_lt_le. intro C. nra. }
          rewrite pow2_Z in H by lia. rewrite <- inject_Z_le in H. lia. }
        assert (m = 2^53 \/ m = - 2^53)%Z as [->| ->] by lia.
        + exists (2^52)%Z. replace (-(e+1))%Z with (-e + -1)%Z by lia. rewrite pow2_plus.
          transitivity (inject_Z (2^53) * (pow2 e * pow2 (-e)) * pow2 (-1)); [ring|]. rewrite pow2_opp. reflexivity.
        + exists (- 2^52)%Z. replace (-(e+1))%Z with (-e + -1)%Z by lia. rewrite pow2_plus.
          transitivity (inject_Z (- 2^53) * (pow2 e * pow2 (-e)) * pow2 (-1)); [ring|]. rewrite pow2_opp. reflexivity. }
    destruct I as [k Hk]. rewrite Hr, (qround_int _ _ Hk), <- Hk.
    transitivity (x * (pow2 e' * pow2 (- e'))); [ring|]. rewrite pow2_opp. ring.
Qed.

Lemma qround_mono x y : x <= y -> (qround x <= qround y)%Z.
Proof.
  intros H. destruct (qfloor_spec x) as [X1 X2], (qfloor_spec y) as [Y1 Y2].
  assert (F : (qfloor x <= qfloor y)%Z) by (apply Qfloor_resp_le; exact H).
  destruct (Z.eq_dec (qfloor x) (qfloor y)) as [E|N].
  - unfold qround. cbv zeta. change Qfloor with qfloor. rewrite <- E in *.
    destruct (Qltb (x - _) _) eqn:A1.
    + destruct (Qltb (y - _) _); [lia|]. destruct (Qltb (1#2) (y - _)); [lia|]. destruct (Z.even _); lia.
    + apply Qltb_false in A1. destruct (Qltb (1#2) (x - _)) eqn:A2.
      * apply Qltb_true in A2. destruct (Qltb (y - _) _) eqn:B1; [apply Qltb_true in B1; exfalso; lra|].
        destruct (Qltb (1#2) (y - _)) eqn:B2; [lia|]. apply Qltb_false in B2. exfalso; lra.
      * apply Qltb_false in A2. destruct (Qltb (y - _) _) eqn:B1; [apply Qltb_true in B1; exfalso; lra|].
        destruct (Qltb (1#2) (y - _)); destruct (Z.even _); lia.
  - destruct (qround_floor_or_ceil x) as [-> | ->], (qround_floor_or_ceil y) as [-> | ->]; lia.
Qed.

Lemma b64_abs_bounds x e : pow2 (e + 52) <= Qabs x -> Qabs x < pow2 (e + 53) ->
  pow2 (e + 52) <= Qabs (inject_Z (qround (x * pow2 (- e))) * pow2 e) /\
  Qabs (inject_Z (qround (x * pow2 (- e))) * pow2 e) <= pow2 (e + 53).
Proof.
  intros H1 H2. pose proof (pow2_pos e) as P. pose proof (pow2_pos (-e)) as P'.
  pose proof (pow2_opp e) as O.
  rewrite !pow2_plus in *. rewrite Qabs_Qmult, (Qabs_pos (pow2 e)) by lra.
  change (Qabs (inject_Z ?a)) with (inject_Z (Z.abs a)).
  assert (B : (2^52 <= Z.abs (qround (x * pow2 (-e))) <= 2^53)%Z).
  { apply (Qabs_case x (fun r => pow2 e * pow2 52 <= r -> r < pow2 e * pow2 53 -> (2^52 <= Z.abs (qround (x * pow2 (-e))) <= 2^53)%Z)); try assumption.
    - intros Hp L1 L2.
      assert (pow2 52 <= x * pow2 (-e)) as A by nra.
      assert (x * pow2 (-e) <= pow2 53) as B by nra.
      rewrite (pow2_Z 52) in A by lia. rewrite (pow2_Z 53) in B by lia.
      apply qround_mono in A. apply qround_mono in B. rewrite qround_Z in A, B. lia.
    - intros Hp L1 L2.
      assert (x * pow2 (-e) <= - pow2 52) as A by nra.
      assert (- pow2 53 <= x * pow2 (-e)) as B by nra.
      rewrite (pow2_Z 52) in A by lia. rewrite (pow2_Z 53) in B by lia. rewrite <- inject_Z_opp in A, B.
      apply qround_mono in A. apply qround_mono in B. rewrite qround_Z in A, B. lia. }
  destruct B as [B1 B2]. apply inject_Z_le in B1, B2. rewrite <- pow2_Z in B1, B2 by lia.
  split; nra.
Qed.

Lemma b64_pos x : 0 < x -> 0 <= b64 x.
Proof.
  intros H. destruct (b64_cases x) as [[H0 Hr]|(e & Hn & H1 & H2 & Hr)]; [lra|].
  rewrite Hr. pose proof (pow2_pos e). pose proof (pow2_pos (-e)).
  assert (A : inject_Z 0 <= x * pow2 (-e)) by (change (inject_Z 0) with 0; nra).
  apply qround_mono in A. rewrite qround_Z in A. apply inject_Z_le in A. change (inject_Z 0) with 0 in A. nra.
Qed.
Lemma b64_neg x : x < 0 -> b64 x <= 0.
Proof.
  intros H. destruct (b64_cases x) as [[H0 Hr]|(e & Hn & H1 & H2 & Hr)]; [lra|].
  rewrite Hr. pose proof (pow2_pos e). pose proof (pow2_pos (-e)).
  assert (A : x * pow2 (-e) <= inject_Z 0) by (change (inject_Z 0) with 0; nra).
  apply qround_mono in A. rewrite qround_Z in A. apply inject_Z_le in A. change (inject_Z 0) with 0 in A. nra.
Qed.

Lemma b64_mono x y : x <= y -> b64 x <= b64 y.
Proof.
  intros H.
  destruct (b64_cases x) as [[H0 Hr]|(e & Hn & H1 & H2 & Hr)].
  { rewrite Hr. destruct (Qlt_le_dec 0 y) as [P|P]; [apply b64_pos; exact P|].
    assert (Z : y == 0) by lra. rewrite (b64_comp _ _ Z). discriminate. }
  destruct (b64_cases y) as [[H0' Hr']|(e' & Hn' & H1' & H2' & Hr')].
  { rewrite Hr'. apply b64_neg. destruct (Q_dec x 0) as [[A|A]|A]; [exact A| |contradiction]. lra. }
  destruct (Q_dec x 0) as [[Nx|Px]|A]; [| |contradiction].
  - destruct (Q_dec y 0) as [[Ny|Py]|A]; [| |contradiction].
    2:{ pose proof (b64_neg x Nx). pose proof (b64_pos y Py). lra. }
    destruct (Z.eq_dec e e') as [<-|NE].
    + rewrite Hr, Hr'. pose proof (pow2_pos e). pose proof (pow2_pos (-e)).
      assert (x * pow2 (-e) <= y * pow2 (-e)) as M by nra. apply qround_mono, inject_Z_le in M. nra.
    + pose proof (b64_abs_bounds x e H1 H2) as [X1 X2]. pose proof (b64_abs_bounds y e' H1' H2') as [Y1 Y2].
      rewrite <- Hr in X1, X2. rewrite <- Hr' in Y1, Y2.
      pose proof (b64_neg x Nx) as Ix. pose proof (b64_neg y Ny) as Iy.
      rewrite (Qabs_neg x) in H1, H2 by lra. rewrite (Qabs_neg y) in H1', H2' by lra.
      rewrite (Qabs_neg (b64 x)) in X1, X2 by lra. rewrite (Qabs_neg (b64 y)) in Y1, Y2 by lra.
      assert (e' < e)%Z as LL.
      { assert (pow2 (e' + 52) < pow2 (e + 53)) as T by lra. apply pow2_lt_inv in T. lia. }
      assert (pow2 (e' + 53) <= pow2 (e + 52)) by (apply pow2_le; lia). lra.
  - assert (Py : 0 < y) by lra.
    destruct (Z.eq_dec e e') as [<-|NE].
    + rewrite Hr, Hr'. pose proof (pow2_pos e). pose proof (pow2_pos (-e)).
      assert (x * pow2 (-e) <= y * pow2 (-e)) as M by nra. apply qround_mono, inject_Z_le in M. nra.
    + pose proof (b64_abs_bounds x e H1 H2) as [X1 X2]. pose proof (b64_abs_bounds y e' H1' H2') as [Y1 Y2].
      rewrite <- Hr in X1, X2. rewrite <- Hr' in Y1, Y2.
      pose proof (b64_pos x Px) as Ix. pose proof (b64_pos y Py) as Iy.
      rewrite (Qabs_pos x) in H1, H2 by lra. rewrite (Qabs_pos y) in H1', H2' by lra.
      rewrite (Qabs_pos (b64 x)) in X1, X2 by lra. rewrite (Qabs_pos (b64 y)) in Y1, Y2 by lra.
      assert (e < e')%Z as LL.
      { assert (pow2 (e + 52) < pow2 (e' + 53)) as T by lra. apply pow2_lt_inv in T. lia. }
      assert (pow2 (e + 53) <= pow2 (e' + 52)) by (apply pow2_le; lia). lra.
Qed.

Theorem b64_good : good_rnd b64.
Proof.
  split.
  - intros x y H. rewrite (b64_comp x y H). reflexivity.
  - exact b64_repr.
  - exact b64_err.
  - exact b64_mono.
Qed.

(** 0.1 + 0.2 is 0.30000000000000004 *)
Example b64_point3 : b64 (b64 (1#10) + b64 (2#10)) == b64 (30000000000000004 # 100000000000000000).
Proof. vm_compute. reflexivity. Qed.
Example b64_not_point3 : ~ b64 (b64 (1#10) + b64 (2#10)) == b64 (3#10).
Proof. vm_compute. discriminate. Qed.

Section Good.
  Context {rnd : Q -> Q} (G : good_rnd rnd).
  Lemma gr_int k : (Z.abs k <= 2 ^ 53)%Z -> rnd (inject_Z k) == inject_Z k.
  Proof.
    intros H. assert (E : inject_Z k == inject_Z k * pow2 0) by (rewrite pow2_0; ring).
    rewrite (gr_comp _ G _ _ E), (gr_repr _ G k 0 H), pow2_0. ring.
  Qed.
  Lemma gr_0 : rnd 0 == 0.
  Proof. exact (gr_int 0 ltac:(lia)). Qed.
  Lemma gr_is x m e : (Z.abs m <= 2 ^ 53)%Z -> x == inject_Z m * pow2 e -> rnd x == x.
  Proof. intros H E. rewrite (gr_comp _ G _ _ E), (gr_repr _ G m e H), E. reflexivity. Qed.
  Lemma gr_nonneg x : 0 <= x -> 0 <= rnd x.
  Proof. intros H. rewrite <- gr_0. apply (gr_mono _ G); exact H. Qed.
  Lemma gr_nonpos x : x <= 0 -> rnd x <= 0.
  Proof. intros H. rewrite <- gr_0. apply (gr_mono _ G); exact H. Qed.
End Good.
