(** Rounding to 24 significant bits (binary32 with unbounded exponent). *)
From Verif Require Import Base.Prelude Base.Rounding.
Open Scope Q_scope.

Definition b32_aux (x : Q) : Q :=
  if Qeq_bool x 0 then 0 else
  let e := (b64_exp x + 29)%Z in
  Qred (inject_Z (qround (x * pow2 (- e))) * pow2 e).
Definition b32 (x : Q) : Q := b32_aux (Qred x).

Lemma b32_comp x y : x == y -> b32 x = b32 y.
Proof. intros H. unfold b32. rewrite (Qred_complete _ _ H). reflexivity. Qed.

Lemma b32_int k : (Z.abs k < 2 ^ 24)%Z -> b32 (inject_Z k) == inject_Z k.
Proof.
  intros Hk. unfold b32, b32_aux. destruct (Qeq_bool (Qred (inject_Z k)) 0) eqn:E.
  - apply Qeq_bool_iff in E. rewrite Qred_correct in E. rewrite E. reflexivity.
  - assert (N : ~ Qred (inject_Z k) == 0) by (intro C; apply Qeq_bool_iff in C; congruence).
    destruct (b64_exp_spec _ N) as [H1 _]. revert H1. generalize (b64_exp (Qred (inject_Z k))). intros e H1.
    rewrite Qred_correct in H1. cbv zeta. rewrite Qred_correct.
    assert (A : Qabs (inject_Z k) == inject_Z (Z.abs k)) by reflexivity.
    rewrite A in H1.
    assert (L : pow2 (e + 52) < pow2 24).
    { eapply Qle_lt_trans; [exact H1|]. rewrite pow2_Z by lia. rewrite <- inject_Z_lt. exact Hk. }
    apply pow2_lt_inv in L.
    set (e' := (e + 29)%Z). assert (E0 : (e' <= 0)%Z) by (unfold e'; lia).
    assert (I : Qred (inject_Z k) * pow2 (- e') == inject_Z (k * 2 ^ (- e'))).
    { rewrite Qred_correct, inject_Z_mult, <- pow2_Z by lia. reflexivity. }
    rewrite (qround_int _ _ I), inject_Z_mult, <- pow2_Z by lia.
    transitivity (inject_Z k * (pow2 e' * pow2 (- e'))); [ring|]. rewrite pow2_opp. ring.
Qed.
