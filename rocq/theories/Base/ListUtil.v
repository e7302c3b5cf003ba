(** List helpers standing for numpy / python indexing. *)
From Verif Require Import Base.Prelude.
From Coq Require Import Permutation.

(** [l[a:b]] for 0 <= a (numpy clips b to the length). *)
Definition slice {A} (a b : Z) (l : list A) : list A :=
  firstn (Z.to_nat (b - a)) (skipn (Z.to_nat a) l).

(** [l[i] = x] *)
Fixpoint upd_nth {A} (i : nat) (x : A) (l : list A) : list A :=
  match l, i with
  | [], _ => []
  | _ :: t, O => x :: t
  | h :: t, S j => h :: upd_nth j x t
  end.

(** row [i] replaced by [f row] *)
Fixpoint map_nth {A} (i : nat) (f : A -> A) (l : list A) : list A :=
  match l, i with
  | [], _ => []
  | h :: t, O => f h :: t
  | h :: t, S j => h :: map_nth j f t
  end.

Lemma upd_nth_length {A} i (x : A) l : length (upd_nth i x l) = length l.
Proof. revert i; induction l as [|h t IH]; intros [|i]; cbn; auto. Qed.
Lemma map_nth_length {A} i (f : A -> A) l : length (map_nth i f l) = length l.
Proof. revert i; induction l as [|h t IH]; intros [|i]; cbn; auto. Qed.

Lemma nth_error_upd {A} i (x : A) l j :
  nth_error (upd_nth i x l) j =
  if Nat.eqb i j then (if Nat.ltb i (length l) then Some x else None) else nth_error l j.
Proof.
  revert i j; induction l as [|h t IH]; intros i j.
  - destruct i; cbn; destruct j; cbn; try reflexivity; destruct (Nat.eqb _ _); reflexivity.
  - destruct i as [|i], j as [|j]; cbn; try reflexivity. rewrite IH. cbn.
    destruct (Nat.eqb i j); [|reflexivity]. reflexivity.
Qed.
Lemma nth_error_upd_eq {A} i (x : A) l : (i < length l)%nat -> nth_error (upd_nth i x l) i = Some x.
Proof. intros H. rewrite nth_error_upd, Nat.eqb_refl. apply Nat.ltb_lt in H. rewrite H. reflexivity. Qed.
Lemma nth_error_upd_neq {A} i j (x : A) l : i <> j -> nth_error (upd_nth i x l) j = nth_error l j.
Proof. intros H. rewrite nth_error_upd. apply Nat.eqb_neq in H. rewrite H. reflexivity. Qed.

Lemma nth_error_map_nth {A} i (f : A -> A) l j :
  nth_error (map_nth i f l) j = if Nat.eqb i j then option_map f (nth_error l j) else nth_error l j.
Proof.
  revert i j; induction l as [|h t IH]; intros i j.
  - destruct i, j; cbn; try reflexivity. destruct (Nat.eqb i j); reflexivity.
  - destruct i as [|i], j as [|j]; cbn; try reflexivity. rewrite IH. reflexivity.
Qed.

Lemma slice_length {A} a b (l : list A) :
  (0 <= a)%Z -> (a <= b)%Z -> (b <= Z.of_nat (length l))%Z ->
  Z.of_nat (length (slice a b l)) = (b - a)%Z.
Proof.
  intros H1 H2 H3. unfold slice. rewrite firstn_length, skipn_length. lia.
Qed.
Lemma nth_error_firstn {A} n (l : list A) i :
  nth_error (firstn n l) i = if Nat.ltb i n then nth_error l i else None.
Proof.
  revert l i; induction n as [|n IH]; intros l i; [destruct i; reflexivity|].
  destruct l as [|h t]; [rewrite firstn_nil; destruct (Nat.ltb i (S n)); destruct i; reflexivity|].
  destruct i as [|i]; [reflexivity|]. cbn [firstn nth_error]. rewrite IH. reflexivity.
Qed.
Lemma nth_error_skipn {A} n (l : list A) i : nth_error (skipn n l) i = nth_error l (n + i).
Proof.
  revert l; induction n as [|n IH]; intros l; [reflexivity|].
  destruct l as [|h t]; [destruct i; reflexivity|]. cbn. apply IH.
Qed.
Lemma nth_error_slice {A} a b (l : list A) i : (0 <= a)%Z ->
  nth_error (slice a b l) i = if (Z.of_nat i <? b - a)%Z then nth_error l (Z.to_nat (a + Z.of_nat i)) else None.
Proof.
  intros Ha. unfold slice. rewrite nth_error_firstn, nth_error_skipn.
  destruct (Nat.ltb_spec i (Z.to_nat (b - a))), (Z.ltb_spec (Z.of_nat i) (b - a)); try lia; try reflexivity.
  f_equal. lia.
Qed.

Lemma nth_error_ext' {A} (l l' : list A) : (forall i, nth_error l i = nth_error l' i) -> l = l'.
Proof.
  revert l'; induction l as [|h t IH]; intros [|h' t'] H.
  - reflexivity.
  - specialize (H 0%nat). discriminate.
  - specialize (H 0%nat). discriminate.
  - pose proof (H 0%nat) as H0. cbn in H0. injection H0 as ->. f_equal. apply IH.
    intros i. exact (H (S i)).
Qed.

Lemma slice_slice {A} a b c d (l : list A) :
  (0 <= a)%Z -> (0 <= c)%Z -> (d <= b - a)%Z -> slice c d (slice a b l) = slice (a + c) (a + d) l.
Proof.
  intros Ha Hc Hd. apply nth_error_ext'. intros i.
  rewrite !nth_error_slice by lia.
  destruct (Z.ltb_spec (Z.of_nat i) (d - c)), (Z.ltb_spec (Z.of_nat i) (a + d - (a + c))); try lia; try reflexivity.
  destruct (Z.ltb_spec (Z.of_nat (Z.to_nat (c + Z.of_nat i))) (b - a)); try lia.
  f_equal. lia.
Qed.

(** monadic map *)
Fixpoint mapM {A B} (f : A -> res B) (l : list A) : res (list B) :=
  match l with
  | [] => Ok []
  | x :: t => y <- f x ;; ys <- mapM f t ;; Ok (y :: ys)
  end.

Lemma mapM_ok {A B} (f : A -> res B) l ys :
  mapM f l = Ok ys <-> Forall2 (fun x y => f x = Ok y) l ys.
Proof.
  revert ys; induction l as [|x t IH]; intros ys; cbn.
  - split; [intros H; injection H as <-; constructor|intros H; inversion H; reflexivity].
  - destruct (f x) as [y|e] eqn:E; cbn.
    + destruct (mapM f t) as [ts|e] eqn:E2; cbn.
      * split; [intros H; injection H as <-|intros H].
        -- constructor; [exact E|]. apply IH; reflexivity.
        -- inversion H as [|? ? ? ? A1 A2]; subst. apply IH in A2. congruence.
      * split; [discriminate|intros H]. inversion H as [|? ? ? ? A1 A2]; subst. apply IH in A2. congruence.
    + split; [discriminate|intros H]. inversion H as [|? ? ? ? A1 A2]; subst. congruence.
Qed.

Lemma Forall2_nth_error {A B} (R : A -> B -> Prop) l l' i x :
  Forall2 R l l' -> nth_error l i = Some x -> exists y, nth_error l' i = Some y /\ R x y.
Proof.
  intros H. revert i. induction H as [|a b t t' HR HF IH]; intros [|i] E; cbn in *; try discriminate.
  - injection E as <-. eauto.
  - eauto.
Qed.
Lemma Forall2_nth_error_r {A B} (R : A -> B -> Prop) l l' i y :
  Forall2 R l l' -> nth_error l' i = Some y -> exists x, nth_error l i = Some x /\ R x y.
Proof.
  intros H. revert i. induction H as [|a b t t' HR HF IH]; intros [|i] E; cbn in *; try discriminate.
  - injection E as <-. eauto.
  - eauto.
Qed.
Lemma Forall2_length' {A B} (R : A -> B -> Prop) l l' : Forall2 R l l' -> length l = length l'.
Proof. induction 1; cbn; congruence. Qed.
