(** sorted(list(set(names))): order and uniqueness. *)
From Coq Require Import String Ascii Sorted Permutation.
From Verif Require Import Base.Prelude Model.Gather.
Open Scope list_scope.

Lemma ascii_compare_N a b : Ascii.compare a b = N.compare (N_of_ascii a) (N_of_ascii b).
Proof. reflexivity. Qed.
Lemma leb_trans a : forall b c, String.leb a b = true -> String.leb b c = true -> String.leb a c = true.
Proof.
  unfold String.leb. induction a as [|x a IH]; intros [|y b] [|z c]; cbn [String.compare]; try congruence.
  rewrite !ascii_compare_N.
  destruct (N.compare_spec (N_of_ascii x) (N_of_ascii y)) as [E1|L1|L1]; try discriminate;
  destruct (N.compare_spec (N_of_ascii y) (N_of_ascii z)) as [E2|L2|L2]; try discriminate;
  destruct (N.compare_spec (N_of_ascii x) (N_of_ascii z)) as [E3|L3|L3]; try lia; try reflexivity.
  apply IH.
Qed.
Definition name_le (a b : string) : Prop := String.leb a b = true.

Lemma insert_name_perm x l : Permutation (insert_name x l) (x :: l).
Proof. induction l as [|y t IH]; cbn; [reflexivity|]. destruct (str_leb x y); [reflexivity|]. rewrite IH. apply perm_swap. Qed.
Lemma sort_names_perm l : Permutation (sort_names l) l.
Proof. induction l as [|x t IH]; cbn; [reflexivity|]. fold (sort_names t). rewrite insert_name_perm, IH. reflexivity. Qed.
Lemma insert_name_sorted x l : StronglySorted name_le l -> StronglySorted name_le (insert_name x l).
Proof.
  induction l as [|y t IH]; cbn; intros H; [constructor; constructor|].
  inversion H as [|? ? H1 H2]; subst. unfold str_leb. destruct (String.leb x y) eqn:E.
  - constructor; [exact H|]. constructor; [exact E|]. eapply Forall_impl; [|exact H2]. intros z Hz. eapply leb_trans; eassumption.
  - constructor; [apply IH; exact H1|]. apply Forall_forall. intros z Hz.
    rewrite (insert_name_perm x t) in Hz. destruct Hz as [<-|Hz].
    + destruct (String.leb_total x y); [congruence|assumption].
    + rewrite Forall_forall in H2. apply H2. exact Hz.
Qed.
Lemma sort_names_sorted l : StronglySorted name_le (sort_names l).
Proof. induction l as [|x t IH]; cbn; [constructor|]. apply insert_name_sorted. exact IH. Qed.

Lemma sorted_set_in l x : In x (sorted_set l) <-> In x l.
Proof.
  unfold sorted_set. rewrite <- (nodup_In string_dec l x). split; apply Permutation_in; [|symmetry]; apply sort_names_perm.
Qed.
Lemma sorted_set_nodup l : NoDup (sorted_set l).
Proof. eapply Permutation_NoDup; [symmetry; apply sort_names_perm|]. apply NoDup_nodup. Qed.
Lemma sorted_set_sorted l : StronglySorted name_le (sorted_set l).
Proof. apply sort_names_sorted. Qed.

Lemma sorted_unique (l l' : list string) : StronglySorted name_le l -> StronglySorted name_le l' -> NoDup l -> NoDup l' ->
  (forall x, In x l <-> In x l') -> l = l'.
Proof.
  revert l'. induction l as [|x t IH]; intros l' S S' N N' H.
  - destruct l' as [|y l']; [reflexivity|]. exfalso. apply (H y). left. reflexivity.
  - destruct l' as [|y t']; [exfalso; apply (H x); left; reflexivity|].
    inversion S as [|? ? S1 F1]; inversion S' as [|? ? S2 F2]; inversion N as [|? ? N1 N2]; inversion N' as [|? ? N3 N4]; subst.
    rewrite Forall_forall in F1, F2.
    assert (x = y).
    { destruct (proj1 (H x) (or_introl eq_refl)) as [E|E]; [congruence|].
      destruct (proj2 (H y) (or_introl eq_refl)) as [E'|E']; [congruence|].
      apply String.leb_antisym; [apply F1; exact E'|apply F2; exact E]. }
    subst y. f_equal. apply IH; auto. intros z. specialize (H z). cbn in H. split; intros K.
    + destruct (proj1 H (or_intror K)) as [<-|]; [contradiction|assumption].
    + destruct (proj2 H (or_intror K)) as [<-|]; [contradiction|assumption].
Qed.
Lemma sorted_set_ext l l' : (forall x, In x l <-> In x l') -> sorted_set l = sorted_set l'.
Proof.
  intros H. apply sorted_unique; try apply sorted_set_sorted; try apply sorted_set_nodup.
  intros x. rewrite !sorted_set_in. apply H.
Qed.
