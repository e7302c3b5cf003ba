(** Decimal strings: str(n), int(s) and the format "%.6f". *)
From Coq Require Import String Ascii NArith Nnat.
From Verif Require Import Base.Prelude.
Local Open Scope string_scope.

Definition digit (n : N) : ascii := ascii_of_N (48 + n).
Fixpoint digs (fuel : nat) (n : N) (acc : string) : string :=
  match fuel with
  | O => acc
  | S f => let acc' := String (digit (n mod 10)) acc in
           if (n / 10 =? 0)%N then acc' else digs f (n / 10)%N acc'
  end.
(** str(n), n >= 0 *)
Definition dec (n : N) : string := digs (S (N.to_nat (N.log2 n))) n "".
(** exactly k digits *)
Fixpoint fixed (k : nat) (n : N) (acc : string) : string :=
  match k with O => acc | S k' => fixed k' (n / 10)%N (String (digit (n mod 10)) acc) end.
(** int(s); None for anything that is no digit *)
Fixpoint undec_acc (v : N) (s : string) : option N :=
  match s with
  | EmptyString => Some v
  | String c t => let d := N_of_ascii c in
                  if ((48 <=? d) && (d <=? 57))%N then undec_acc (10 * v + (d - 48))%N t else None
  end.
Definition undec (s : string) : option N := match s with EmptyString => None | _ => undec_acc 0 s end.
(** f"{x:.6f}": the nearest multiple of 10^-6, ties to even *)
Definition fix6 (x : Q) : string :=
  let n := Z.to_N (qround (Qabs x * 1000000)) in
  (if Qltb x 0 then "-" else "") ++ dec (n / 1000000) ++ "." ++ fixed 6 (n mod 1000000) "".

Lemma digit_val n : (n < 10)%N -> N_of_ascii (digit n) = (48 + n)%N.
Proof. intros H. unfold digit. apply N_ascii_embedding. lia. Qed.
Lemma undec_digit v n t : (n < 10)%N -> undec_acc v (String (digit n) t) = undec_acc (10 * v + n)%N t.
Proof.
  intros H. cbn [undec_acc]. rewrite (digit_val n H).
  assert ((48 <=? 48 + n)%N = true) as -> by (apply N.leb_le; lia). assert ((48 + n <=? 57)%N = true) as -> by (apply N.leb_le; lia).
  cbn [andb]. f_equal. lia.
Qed.
Lemma digs_undec f : forall n acc, (n < 10 ^ N.of_nat f)%N -> (1 <= f)%nat -> undec_acc 0 (digs f n acc) = undec_acc n acc.
Proof.
  induction f as [|f IH]; intros n acc Hn Hf; [lia|]. cbn [digs].
  assert (Hm : (n mod 10 < 10)%N) by (apply N.mod_lt; lia).
  pose proof (N.div_mod n 10 ltac:(lia)) as Hd.
  destruct (N.eqb_spec (n / 10)%N 0) as [E|E].
  - rewrite undec_digit; [|exact Hm]. f_equal. lia.
  - rewrite Nat2N.inj_succ, N.pow_succ_r' in Hn.
    assert (Hq : (n / 10 < 10 ^ N.of_nat f)%N) by (apply N.div_lt_upper_bound; lia).
    destruct f as [|f]; [cbn in Hq; lia|].
    rewrite IH; [|exact Hq|lia]. rewrite undec_digit; [|exact Hm]. f_equal. lia.
Qed.
Lemma log2_bound n : (n < 10 ^ N.of_nat (S (N.to_nat (N.log2 n))))%N.
Proof.
  rewrite Nat2N.inj_succ, N2Nat.id. destruct (N.eq_dec n 0) as [->|H]; [reflexivity|].
  destruct (N.log2_spec n ltac:(lia)) as [_ H2]. eapply N.lt_le_trans; [exact H2|]. apply N.pow_le_mono_l. lia.
Qed.
Lemma undec_acc_dec n t : undec_acc 0 (digs (S (N.to_nat (N.log2 n))) n t) = undec_acc n t.
Proof. apply digs_undec; [apply log2_bound|lia]. Qed.
Lemma digs_nonempty f n acc : exists c t, digs (S f) n acc = String c t.
Proof.
  revert n acc. induction f as [|f IH]; intros n acc.
  - cbn [digs]. destruct (n / 10 =? 0)%N; eauto.
  - remember (S f) as g. cbn [digs]. destruct (n / 10 =? 0)%N; [eauto|]. subst g. apply IH.
Qed.
Lemma undec_dec n : undec (dec n) = Some n.
Proof.
  unfold undec, dec. destruct (digs_nonempty (N.to_nat (N.log2 n)) n "") as (c & t & E). rewrite E, <- E.
  rewrite undec_acc_dec. reflexivity.
Qed.
Lemma dec_inj a b : dec a = dec b -> a = b.
Proof. intros H. pose proof (undec_dec a) as K. rewrite H, undec_dec in K. congruence. Qed.

Lemma fixed_undec k : forall v n acc, undec_acc v (fixed k n acc) = undec_acc (v * 10 ^ N.of_nat k + n mod 10 ^ N.of_nat k)%N acc.
Proof.
  induction k as [|k IH]; intros v n acc; cbn [fixed].
  - f_equal. change (10 ^ N.of_nat 0)%N with 1%N. rewrite N.mod_1_r. lia.
  - rewrite IH, undec_digit by (apply N.mod_lt; lia). f_equal.
    rewrite Nat2N.inj_succ, N.pow_succ_r'. rewrite (N.mod_mul_r n 10 (10 ^ N.of_nat k)); [|lia|apply N.pow_nonzero; lia]. lia.
Qed.
Lemma fixed_length k : forall n acc, String.length (fixed k n acc) = (k + String.length acc)%nat.
Proof. induction k as [|k IH]; intros n acc; cbn [fixed]; [reflexivity|]. rewrite IH. cbn. lia. Qed.
Lemma fixed_app k : forall n acc t, fixed k n acc ++ t = fixed k n (acc ++ t).
Proof. induction k as [|k IH]; intros n acc t; cbn [fixed]; [reflexivity|]. rewrite IH. reflexivity. Qed.

(** no "." or "_" among the digits *)
Definition is_digit (c : ascii) : bool := let d := N_of_ascii c in ((48 <=? d) && (d <=? 57))%N.
Fixpoint all_digits (s : string) : bool := match s with EmptyString => true | String c t => is_digit c && all_digits t end.
Lemma digit_is n : (n < 10)%N -> is_digit (digit n) = true.
Proof. intros H. unfold is_digit. rewrite (digit_val n H). apply andb_true_intro. split; apply N.leb_le; lia. Qed.
Lemma digs_digits f : forall n acc, all_digits acc = true -> all_digits (digs f n acc) = true.
Proof.
  induction f as [|f IH]; intros n acc H; cbn [digs]; [exact H|].
  assert (all_digits (String (digit (n mod 10)) acc) = true) by (cbn [all_digits]; rewrite digit_is by (apply N.mod_lt; lia); exact H).
  destruct (n / 10 =? 0)%N; [assumption|apply IH; assumption].
Qed.
Lemma dec_digits n : all_digits (dec n) = true.
Proof. apply digs_digits. reflexivity. Qed.
Lemma fixed_digits k : forall n acc, all_digits acc = true -> all_digits (fixed k n acc) = true.
Proof.
  induction k as [|k IH]; intros n acc H; cbn [fixed]; [exact H|]. apply IH. cbn [all_digits].
  rewrite digit_is by (apply N.mod_lt; lia). exact H.
Qed.
(** digits up to a separator are determined *)
Lemma digits_sep c : is_digit c = false -> forall s1 s2 t1 t2, all_digits s1 = true -> all_digits s2 = true ->
  s1 ++ String c t1 = s2 ++ String c t2 -> s1 = s2 /\ t1 = t2.
Proof.
  intros Hc. induction s1 as [|a s1 IH]; intros [|b s2] t1 t2 H1 H2 H; cbn in *.
  - injection H as H. split; [reflexivity|exact H].
  - injection H as -> H. rewrite Hc in H2. discriminate.
  - injection H as -> H. rewrite Hc in H1. discriminate.
  - injection H as -> H. apply andb_true_iff in H1, H2. destruct (IH s2 t1 t2 (proj2 H1) (proj2 H2) H) as [-> ->]. split; reflexivity.
Qed.
Lemma app_same_length : forall s1 s2 t1 t2, String.length s1 = String.length s2 -> s1 ++ t1 = s2 ++ t2 -> s1 = s2 /\ t1 = t2.
Proof.
  induction s1 as [|a s1 IH]; intros [|b s2] t1 t2 L H; cbn in *; try discriminate.
  - split; [reflexivity|exact H].
  - injection H as -> H. injection L as L. destruct (IH s2 t1 t2 L H) as [-> ->]. split; reflexivity.
Qed.
