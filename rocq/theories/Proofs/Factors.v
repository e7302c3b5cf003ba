(** C14: factorisation of the decimation factor (time.py 2076-2165) *)
From Coq Require Import String Znumtheory.
From Verif Require Import Base.Prelude Base.ListUtil Model.Time Spec.Time Proofs.TimeProc.
Open Scope Z_scope.

Lemma prodZ_app a b : prodZ (a ++ b) = prodZ a * prodZ b.
Proof. induction a; cbn [app prodZ]; [lia|]. rewrite IHa. ring. Qed.

Definition no_div_below (k n : Z) : Prop := forall d, 2 <= d < k -> ~ (d | n).

Lemma strip_spec fuel p n : 2 <= p -> 1 <= n -> n < 2 ^ (Z.of_nat fuel) ->
  forall l r, strip_factor fuel p n = (l, r) ->
  prodZ l * r = n /\ 1 <= r /\ (forall x, In x l -> x = p) /\ ~ (p | r) /\ (l <> [] -> (p | n)).
Proof.
  intros Hp. revert n. induction fuel as [|k IH]; intros n Hn Hb l r E.
  - cbn in Hb. lia.
  - cbn [strip_factor] in E. destruct (Z.eqb_spec (n mod p) 0) as [M|M].
    + destruct (strip_factor k p (n / p)) as [l' r'] eqn:E2. injection E as <- <-.
      pose proof (Z.div_mod n p ltac:(lia)) as D. rewrite M, Z.add_0_r in D.
      assert (1 <= n / p) by nia.
      assert (n / p < 2 ^ Z.of_nat k).
      { rewrite Nat2Z.inj_succ, Z.pow_succ_r in Hb by lia. nia. }
      destruct (IH (n / p) H H0 l' r' E2) as (A & B & C & F & _).
      split; [|split; [exact B|split; [|split; [exact F|]]]].
      * cbn [prodZ]. rewrite <- Z.mul_assoc, A. symmetry; exact D.
      * intros x [<-|Hx]; [reflexivity|apply C; exact Hx].
      * intros _. exists (n / p). rewrite Z.mul_comm. exact D.
    + injection E as <- <-. split; [cbn [prodZ]; lia|]. split; [exact Hn|]. split; [intros x []|]. split.
      * intros [q Hq]. apply M. rewrite Hq. apply Z.mod_mul. lia.
      * congruence.
Qed.

Lemma strip_log n p l r : 2 <= p -> 1 <= n -> strip_factor (S (Z.to_nat (Z.log2 n))) p n = (l, r) ->
  prodZ l * r = n /\ 1 <= r /\ (forall x, In x l -> x = p) /\ ~ (p | r) /\ (l <> [] -> (p | n)).
Proof.
  intros Hp Hn. apply strip_spec; [exact Hp|exact Hn|].
  pose proof (Z.log2_spec n ltac:(lia)) as [_ H]. pose proof (Z.log2_nonneg n).
  rewrite Nat2Z.inj_succ, Z2Nat.id by lia. exact H.
Qed.

Lemma no_div_mul k a b : no_div_below k (a * b) -> no_div_below k b.
Proof. intros H d Hd D. apply (H d Hd). apply Z.divide_mul_r. exact D. Qed.

Lemma prime_of_least d n : 2 <= d -> no_div_below d n -> (d | n) -> prime d.
Proof.
  intros H1 H2 H3. apply prime_alt. split; [lia|]. intros k Hk D.
  apply (H2 k ltac:(lia)). eapply Z.divide_trans; eassumption.
Qed.

Lemma odd_loop_spec count ii n l r : 3 <= ii -> 1 <= n -> (exists q, ii = 2 * q + 1) ->
  no_div_below ii n -> odd_loop count ii n = (l, r) ->
  prodZ l * r = n /\ 1 <= r /\ (forall x, In x l -> prime x) /\ no_div_below (ii + 2 * Z.of_nat count) r.
Proof.
  revert ii n l r. induction count as [|k IH]; intros ii n l r Hi Hn Ho Hd E.
  - cbn in E. injection E as <- <-. split; [cbn [prodZ]; lia|]. split; [exact Hn|]. split; [intros x []|].
    replace (ii + 2 * Z.of_nat 0) with ii by lia. exact Hd.
  - cbn [odd_loop] in E.
    destruct (strip_factor (S (Z.to_nat (Z.log2 n))) ii n) as [l1 n1] eqn:E1.
    destruct (odd_loop k (ii + 2) n1) as [l2 n2] eqn:E2. injection E as <- <-.
    destruct (strip_log n ii l1 n1 ltac:(lia) Hn E1) as (A & B & C & D & F).
    assert (N1 : no_div_below (ii + 2) n1).
    { assert (M : no_div_below ii n1) by (apply (no_div_mul _ (prodZ l1)); rewrite A; exact Hd).
      intros d Hd2 Dv. destruct (Z.eq_dec d ii) as [->|N]; [exact (D Dv)|].
      destruct (Z.eq_dec d (ii + 1)) as [->|N2]; [|apply (M d ltac:(lia) Dv)].
      apply (M 2 ltac:(lia)). destruct Ho as [q ->]. destruct Dv as [w Hw]. exists (w * (q + 1)). lia. }
    destruct (IH (ii + 2) n1 l2 n2 ltac:(lia) B) as (A2 & B2 & C2 & D2); auto.
    { destruct Ho as [q ->]. exists (q + 1). ring. }
    split; [rewrite prodZ_app, <- Z.mul_assoc, A2; exact A|]. split; [exact B2|]. split.
    + intros x Hx. apply in_app_iff in Hx. destruct Hx as [Hx|Hx]; [|apply C2; exact Hx].
      rewrite (C x Hx). apply (prime_of_least ii n); [lia|exact Hd|]. apply F. intros ->. destruct Hx.
    + replace (ii + 2 * Z.of_nat (S k)) with (ii + 2 + 2 * Z.of_nat k) by lia. exact D2.
Qed.

(** no divisor up to the square root: 1 or prime *)
Lemma no_div_prime k n : 1 <= n -> n < k * k -> 2 <= k -> no_div_below k n -> n = 1 \/ prime n.
Proof.
  intros Hn Hk Hk2 Hd. destruct (Z.eq_dec n 1) as [->|N]; [left; reflexivity|right].
  apply prime_alt. split; [lia|]. intros d Hd2 [q Hq].
  assert (Hq0 : 0 < q) by nia.
  destruct (Z_lt_le_dec d k).
  - apply (Hd d ltac:(lia)). exists q. exact Hq.
  - assert (q < k) by nia. apply (Hd q); [|exists d; lia]. nia.
Qed.

Section Fact.
  Variable orc : oracles.
  Hypothesis GO : good_oracles orc.

  Lemma prime_factorisation_spec n : 2 <= n ->
    prodZ (prime_factorisation orc n) = n /\ (forall x, In x (prime_factorisation orc n) -> prime x).
  Proof.
    intros Hn. unfold prime_factorisation.
    destruct (strip_factor (S (Z.to_nat (Z.log2 n))) 2 n) as [twos n1] eqn:E1.
    destruct (strip_log n 2 twos n1 ltac:(lia) ltac:(lia) E1) as (A & B & C & D & _).
    assert (T : forall x, In x twos -> prime x) by (intros x Hx; rewrite (C x Hx); apply prime_2).
    destruct (Z.eqb_spec n1 1) as [->|N]; [split; [lia|exact T]|].
    set (stop := o_isqrt orc n1 + 1).
    destruct (odd_loop (Z.to_nat ((stop - 3 + 1) / 2)) 3 n1) as [odds n2] eqn:E2.
    assert (N3 : no_div_below 3 n1) by (intros d Hd Dv; assert (d = 2) by lia; subst; exact (D Dv)).
    destruct (odd_loop_spec _ 3 n1 odds n2 ltac:(lia) B (ex_intro _ 1 eq_refl) N3 E2) as (A2 & B2 & C2 & D2).
    set (k := 3 + 2 * Z.of_nat (Z.to_nat ((stop - 3 + 1) / 2))) in *.
    assert (Hs : Z.sqrt n1 + 1 <= stop) by (unfold stop; pose proof (go_isqrt _ GO n1 ltac:(lia)); lia).
    assert (Hks : stop <= k /\ 3 <= k).
    { unfold k. pose proof (Z.div_mod (stop - 3 + 1) 2 ltac:(lia)). pose proof (Z.mod_pos_bound (stop - 3 + 1) 2 ltac:(lia)).
      destruct (Z_le_gt_dec 0 ((stop - 3 + 1) / 2)); [rewrite Z2Nat.id by lia; lia|lia]. }
    assert (Hk : n2 < k * k).
    { pose proof (Z.sqrt_spec n1 ltac:(lia)) as [_ S2]. unfold Z.succ in S2.
      pose proof (Z.sqrt_nonneg n1).
      assert (1 <= prodZ odds) by nia. nia. }
    destruct (no_div_prime k n2 B2 Hk ltac:(lia) D2) as [-> | P].
    - cbn. split; [rewrite prodZ_app, <- A, <- A2; ring|].
      intros x Hx. apply in_app_iff in Hx. destruct Hx; auto.
    - assert (n2 <> 2). { intros ->. apply D. exists (prodZ odds). lia. }
      pose proof (prime_ge_2 _ P). assert (n2 >? 2 = true) as -> by (apply Z.gtb_lt; lia).
      split; [rewrite !prodZ_app; cbn [prodZ]; rewrite <- A, <- A2; ring|].
      intros x Hx. rewrite !in_app_iff in Hx. destruct Hx as [Hx|[Hx|[<-|[]]]]; auto.
  Qed.

  Lemma pack_spec maxf l v : 1 <= maxf -> (1 <= v) -> (v <= maxf \/ prime v) -> (forall x, In x l -> prime x) ->
    prodZ (pack_factors maxf l v) = v * prodZ l /\
    (forall x, In x (pack_factors maxf l v) -> 1 <= x /\ (x <= maxf \/ prime x)).
  Proof.
    intros Hm. revert v. induction l as [|f t IH]; intros v Hv Ok Hp; cbn [pack_factors].
    - cbn [prodZ]. split; [lia|]. intros x [<-|[]]. auto.
    - pose proof (Hp f (or_introl eq_refl)) as Pf. pose proof (prime_ge_2 _ Pf).
      assert (Pt : forall x, In x t -> prime x) by (intros; apply Hp; right; assumption).
      destruct (v * f >? maxf) eqn:E.
      + destruct (IH (1 * f)) as [A B]; [lia|right; rewrite Z.mul_1_l; exact Pf|exact Pt|].
        split; [cbn [prodZ]; rewrite A; ring|]. intros x [<-|Hx]; auto.
      + assert (v * f <= maxf) by (rewrite Z.gtb_ltb in E; apply Z.ltb_ge in E; exact E).
        destruct (IH (v * f)) as [A B]; [nia|left; assumption|exact Pt|].
        split; [rewrite A; cbn [prodZ]; ring|exact B].
  Qed.

  Lemma downsample_spec maxf f : 1 <= f -> 2 <= maxf ->
    prodZ (downsample_factors orc maxf f) = f /\
    (forall x, In x (downsample_factors orc maxf f) -> 1 <= x /\ (x <= maxf \/ prime x)).
  Proof.
    intros Hf Hm. unfold downsample_factors. destruct (Z.leb_spec f maxf).
    - cbn [prodZ]. split; [lia|]. intros x [<-|[]]. lia.
    - destruct (prime_factorisation_spec f ltac:(lia)) as [A B].
      destruct (pack_spec maxf (prime_factorisation orc f) 1) as [C D]; [lia|lia|lia|exact B|].
      split; [rewrite C, A; lia|exact D].
  Qed.

  Lemma factors_ok_good : factors_ok orc.
  Proof.
    intros f k Hf Hk. destruct (downsample_spec k f Hf Hk) as [A B].
    split; [exact A|]. intros x Hx. apply B, Hx.
  Qed.
End Fact.
