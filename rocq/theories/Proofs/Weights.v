(** C53: weights and the sign of the residuals. *)
From Coq Require Import Qabs.
From Verif Require Import Base.Prelude Base.Rounding Model.Regression Spec.Regression Spec.Weights Proofs.RegressionFinal.
Open Scope list_scope. Open Scope Q_scope.

Lemma by_size (W : list Q -> list Q) : robust_weights (fun x => 0 <= x) W -> robust_by_size (fun x => 0 <= x) W.
Proof.
  intros H r D. destruct (H r D) as [H1 H2]. split; [exact H1|]. intros i x w Hx Hw. destruct (H2 i x w Hx Hw) as (A & B & C & M).
  split; [exact A|]. split; [exact B|]. split; [exact C|]. intros j y v Hy Hv L. rewrite !Qabs_pos in L by (apply D; eapply nth_error_In; eassumption). exact (M j y v Hy Hv L).
Qed.
Lemma weaken (W : list Q -> list Q) (P R : Q -> Prop) : (forall x, P x -> R x) -> robust_weights R W -> robust_weights P W.
Proof. intros I H r D. apply H. auto. Qed.
Lemma c53_by_size : forall rnd k, good_rnd rnd -> 0 < k ->
  robust_by_size (fun x => 0 <= x) (bisquare rnd k) /\ robust_by_size (fun x => 0 <= x) (huber rnd k) /\ robust_by_size (fun x => 0 <= x) (trimmed_mean k).
Proof.
  intros rnd k G Hk. split; [apply by_size, c53_bisquare; assumption|]. split; apply by_size.
  - apply (weaken _ _ (fun _ => True)); [auto|]. apply c53_huber; assumption.
  - apply (weaken _ _ (fun _ => True)); [auto|]. apply c53_trimmed. lra.
Qed.
Lemma rnd_int rnd (G : good_rnd rnd) m x : (Z.abs m <= 2 ^ 53)%Z -> x == inject_Z m -> rnd x == inject_Z m.
Proof.
  intros H E. rewrite (gr_comp _ G x (inject_Z m * pow2 0)) by (rewrite E, pow2_0; ring). rewrite (gr_repr _ G m 0 H), pow2_0. ring.
Qed.
Lemma c53_signed : forall rnd k, good_rnd rnd -> 0 < k ->
  ~ robust_by_size (fun _ => True) (bisquare rnd k) /\ ~ robust_by_size (fun _ => True) (huber rnd k) /\ ~ robust_by_size (fun _ => True) (trimmed_mean k).
Proof.
  intros rnd k G Hk.
  assert (ABS : Qabs (4 * k) <= Qabs (- (8) * k)). { rewrite (Qabs_pos (4 * k)) by lra. rewrite (Qabs_neg (- (8) * k)) by lra. lra. }
  split; [|split]; intros H.
  - destruct (H [- (8) * k] (fun _ _ => I)) as [_ K]. destruct (K 0%nat (- (8) * k) (bw (rnd := rnd) k (- (8) * k)) eq_refl eq_refl) as (_ & LE & _). revert LE. unfold bw. cbv zeta.
    assert (R1 : rnd (- (8) * k / k) == inject_Z (-8)) by (apply rnd_int; [exact G|lia|field; lra]).
    assert (T : Qltb 1 (rnd (- (8) * k / k)) = false) by (apply Qltb_false; rewrite R1; vm_compute; discriminate). rewrite T.
    assert (R2 : square rnd (rnd (- (8) * k / k)) == inject_Z 64) by (unfold square; apply rnd_int; [exact G|lia|rewrite R1; reflexivity]).
    assert (R3 : rnd (1 - square rnd (rnd (- (8) * k / k))) == inject_Z (-63)) by (apply rnd_int; [exact G|lia|rewrite R2; reflexivity]).
    assert (R4 : square rnd (rnd (1 - square rnd (rnd (- (8) * k / k)))) == inject_Z 3969) by (unfold square at 1; apply rnd_int; [exact G|lia|rewrite R3; reflexivity]).
    rewrite R4. vm_compute. intros F. apply F. reflexivity.
  - destruct (H [4 * k; - (8) * k] (fun _ _ => I)) as [_ K]. destruct (K 0%nat (4 * k) (hw (rnd := rnd) k (4 * k)) eq_refl eq_refl) as (_ & _ & _ & M). specialize (M 1%nat (- (8) * k) (hw (rnd := rnd) k (- (8) * k)) eq_refl eq_refl ABS). revert M. unfold hw.
    assert (T1 : Qltb k (4 * k) = true) by (apply Qltb_true; lra). assert (T2 : Qltb k (- (8) * k) = false) by (apply Qltb_false; lra). rewrite T1, T2.
    assert (R : rnd (k / (4 * k)) == inject_Z 1 * pow2 (-2)). { rewrite (gr_comp _ G _ (inject_Z 1 * pow2 (-2))); [apply (gr_repr _ G); lia|]. change (pow2 (-2)) with (1 # 4). field. lra. }
    rewrite R. vm_compute. intros F. apply F. reflexivity.
  - destruct (H [4 * k; - (8) * k] (fun _ _ => I)) as [_ K]. destruct (K 0%nat (4 * k) (tw k (4 * k)) eq_refl eq_refl) as (_ & _ & _ & M). specialize (M 1%nat (- (8) * k) (tw k (- (8) * k)) eq_refl eq_refl ABS). revert M. unfold tw.
    assert (T1 : Qle_bool (4 * k) k = false). { destruct (Qle_bool (4 * k) k) eqn:E; [apply Qle_bool_iff in E; lra|reflexivity]. }
    assert (T2 : Qle_bool (- (8) * k) k = true) by (apply Qle_bool_iff; lra). rewrite T1, T2. intros F. apply F. reflexivity.
Qed.
Lemma c53_negative : forall rnd k x, 0 < k -> x <= 0 -> huber rnd k [x] = [1] /\ trimmed_mean k [x] = [1].
Proof.
  intros rnd k x Hk Hx. unfold huber, trimmed_mean. cbn [map].
  assert (T1 : Qltb k x = false) by (apply Qltb_false; lra). assert (T2 : Qle_bool x k = true) by (apply Qle_bool_iff; lra). rewrite T1, T2. split; reflexivity.
Qed.
