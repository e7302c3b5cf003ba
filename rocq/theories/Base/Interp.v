(** Piecewise linear interpolation as done by numpy.interp / scipy interp1d. *)
From Verif Require Import Base.Prelude Base.ListUtil.
Open Scope Q_scope.

(** value on the segment (x0,y0)-(x1,y1): slope*(x - x0) + y0 *)
Definition seg (x0 y0 x1 y1 x : Q) : Q := (y1 - y0) / (x1 - x0) * (x - x0) + y0.

(** the point is known to be >= x0 *)
Fixpoint interp_from (x0 y0 : Q) (rest : list (Q * Q)) (x : Q) : Q :=
  match rest with
  | [] => y0
  | (x1, y1) :: rest' => if Qltb x x1 then seg x0 y0 x1 y1 x else interp_from x1 y1 rest' x
  end.

(** numpy.interp(x, xp, fp) with pts = zip(xp, fp), xp increasing: clamps outside
    the range, raises ValueError when there are no points. *)
Definition np_interp (pts : list (Q * Q)) (x : Q) : res Q :=
  match pts with
  | [] => Err ValueError
  | (x0, y0) :: rest => Ok (if Qltb x x0 then y0 else interp_from x0 y0 rest x)
  end.

(** increasing abscissae *)
Fixpoint incr_from (x0 : Q) (rest : list (Q * Q)) : Prop :=
  match rest with [] => True | (x1, _) :: r => x0 < x1 /\ incr_from x1 r end.
Definition increasing (pts : list (Q * Q)) : Prop :=
  match pts with [] => True | (x0, _) :: r => incr_from x0 r end.

(** Specification: [y] is the piecewise linear interpolant through [pts] at [x],
    constant outside the range. *)
Inductive interpolates (pts : list (Q * Q)) (x y : Q) : Prop :=
| int_below x0 y0 : nth_error pts 0 = Some (x0, y0) -> x <= x0 -> y == y0 -> interpolates pts x y
| int_above n x0 y0 : nth_error pts n = Some (x0, y0) -> nth_error pts (S n) = None ->
    x0 <= x -> y == y0 -> interpolates pts x y
| int_between i xa ya xb yb : nth_error pts i = Some (xa, ya) -> nth_error pts (S i) = Some (xb, yb) ->
    xa <= x -> x <= xb -> xa < xb ->
    y == ya + (yb - ya) * ((x - xa) / (xb - xa)) -> interpolates pts x y.

Lemma seg_eq x0 y0 x1 y1 x : x0 < x1 ->
  seg x0 y0 x1 y1 x == y0 + (y1 - y0) * ((x - x0) / (x1 - x0)).
Proof. intros H. unfold seg. field. lra. Qed.

Lemma interp_from_spec x0 y0 rest x :
  incr_from x0 rest -> x0 <= x ->
  interpolates ((x0, y0) :: rest) x (interp_from x0 y0 rest x).
Proof.
  revert x0 y0. induction rest as [|[x1 y1] r IH]; intros x0 y0 HI Hx; cbn [interp_from].
  - apply (int_above _ x _ 0 x0 y0); auto. reflexivity.
  - destruct HI as [H01 HI]. destruct (Qltb x x1) eqn:E.
    + apply Qltb_true in E. apply (int_between _ _ _ 0 x0 y0 x1 y1); auto; try lra.
      apply seg_eq. exact H01.
    + apply Qltb_false in E. destruct (IH x1 y1 HI E) as [a b A B C|n a b A A' B C|i xa ya xb yb A B C D F G].
      * cbn in A. injection A as <- <-.
        assert (x == x1) by lra.
        apply (int_between _ _ _ 0 x0 y0 x1 y1); auto; try lra.
        rewrite C, H. field. lra.
      * apply (int_above _ _ _ (S n) a b); auto.
      * apply (int_between _ _ _ (S i) xa ya xb yb); auto.
Qed.

Lemma np_interp_spec pts x y : increasing pts -> np_interp pts x = Ok y -> interpolates pts x y.
Proof.
  intros HI H. destruct pts as [|[x0 y0] rest]; [discriminate|]. cbn in H. injection H as <-.
  destruct (Qltb x x0) eqn:E.
  - apply Qltb_true in E. apply (int_below _ _ _ x0 y0); [reflexivity|lra|reflexivity].
  - apply Qltb_false in E. apply interp_from_spec; assumption.
Qed.

Lemma np_interp_total pts x : pts <> [] -> exists y, np_interp pts x = Ok y.
Proof. destruct pts as [|[a b] r]; [congruence|]. intros _. eexists. reflexivity. Qed.

Lemma incr_from_nth x0 rest i x y : incr_from x0 rest -> nth_error rest i = Some (x, y) -> x0 < x.
Proof.
  revert x0 i. induction rest as [|[x1 y1] r IH]; intros x0 i HI E; [destruct i; discriminate|].
  destruct HI as [H HI]. destruct i as [|i]; cbn in E.
  - injection E as <- <-. exact H.
  - specialize (IH x1 i HI E). lra.
Qed.
Lemma increasing_nth pts i j xi yi xj yj : increasing pts -> (i < j)%nat ->
  nth_error pts i = Some (xi, yi) -> nth_error pts j = Some (xj, yj) -> xi < xj.
Proof.
  revert i j. induction pts as [|[x0 y0] r IH]; intros i j HI Hij Ei Ej; [destruct i; discriminate|].
  destruct j as [|j]; [lia|]. cbn in Ej. destruct i as [|i].
  - cbn in Ei. injection Ei as <- <-. eapply incr_from_nth; eassumption.
  - cbn in Ei. apply (IH i j); auto; [|lia]. destruct r as [|[x1 y1] r']; [exact I|]. exact (proj2 HI).
Qed.

(** the interpolant is unique for increasing points *)
Lemma interpolates_unique pts x y y' : increasing pts ->
  interpolates pts x y -> interpolates pts x y' -> y == y'.
Proof.
  intros HI.
  assert (Mono : forall i j xi yi xj yj, nth_error pts i = Some (xi, yi) -> nth_error pts j = Some (xj, yj) ->
     xi < xj -> (i < j)%nat).
  { intros i j xi yi xj yj A B C. destruct (Nat.lt_trichotomy i j) as [L|[L|L]]; [exact L| |].
    - subst. rewrite A in B. injection B as -> ->. exfalso; lra.
    - pose proof (increasing_nth _ _ _ _ _ _ _ HI L B A). exfalso; lra. }
  assert (Eq : forall i j xi yi xj yj, nth_error pts i = Some (xi, yi) -> nth_error pts j = Some (xj, yj) ->
     xi == xj -> yi == yj).
  { intros i j xi yi xj yj A B C. destruct (Nat.lt_trichotomy i j) as [L|[L|L]].
    - pose proof (increasing_nth _ _ _ _ _ _ _ HI L A B). exfalso; lra.
    - subst. rewrite A in B. injection B as -> ->. reflexivity.
    - pose proof (increasing_nth _ _ _ _ _ _ _ HI L B A). exfalso; lra. }
  (* value at a node *)
  assert (At : forall z i xi yi, nth_error pts i = Some (xi, yi) -> x == xi -> interpolates pts x z -> z == yi).
  { intros z i xi yi Ei Ex [a b A B C|n a b A A' B C|k xa ya xb yb A B C D F G].
    - rewrite C. destruct i as [|i]; [rewrite A in Ei; injection Ei as -> ->; reflexivity|].
      pose proof (increasing_nth _ 0 (S i) _ _ _ _ HI ltac:(lia) A Ei). exfalso; lra.
    - rewrite C. apply (Eq n i a b xi yi A Ei).
      destruct (Nat.lt_trichotomy i n) as [L|[L|L]].
      + pose proof (increasing_nth _ _ _ _ _ _ _ HI L Ei A). lra.
      + subst. rewrite A in Ei. injection Ei as -> ->. reflexivity.
      + exfalso. apply nth_error_None in A'. assert (nth_error pts i <> None) by congruence.
        apply nth_error_Some in H. lia.
    - rewrite G. destruct (Qlt_le_dec xa x) as [L1|L1].
      + destruct (Qlt_le_dec x xb) as [L2|L2].
        * assert (k < i)%nat by (eapply Mono; [exact A|exact Ei|lra]).
          assert (i < S k)%nat by (eapply Mono; [exact Ei|exact B|lra]). lia.
        * rewrite (Eq (S k) i xb yb xi yi B Ei) by lra. 
          assert (x - xa == xb - xa) by lra. rewrite H. 
          rewrite <- (Eq (S k) i xb yb xi yi B Ei) by lra. field. lra.
      + rewrite <- (Eq k i xa ya xi yi A Ei) by lra.
        assert (x - xa == 0) by lra. rewrite H. field. lra. }
  intros H1 H2.
  destruct H1 as [a b A B C|n a b A A' B C|k xa ya xb yb A B C D F G].
  - destruct H2 as [a2 b2 A2 B2 C2|n2 a2 b2 A2 A2' B2 C2|k2 xa2 ya2 xb2 yb2 A2 B2 C2 D2 F2 G2].
    + rewrite A in A2. injection A2 as -> ->. rewrite C, C2. reflexivity.
    + destruct n2 as [|n2].
      * rewrite A in A2. injection A2 as -> ->. rewrite C, C2. reflexivity.
      * pose proof (increasing_nth _ 0 (S n2) _ _ _ _ HI ltac:(lia) A A2). exfalso; lra.
    + assert (a <= xa2).
      { destruct k2 as [|k2]; [rewrite A in A2; injection A2 as -> ->; lra|].
        pose proof (increasing_nth _ 0 (S k2) _ _ _ _ HI ltac:(lia) A A2). lra. }
      assert (x == a) by lra. rewrite C. symmetry.
      apply (At y' 0%nat a b A H0). apply (int_between _ _ _ k2 xa2 ya2 xb2 yb2); auto.
  - destruct H2 as [a2 b2 A2 B2 C2|n2 a2 b2 A2 A2' B2 C2|k2 xa2 ya2 xb2 yb2 A2 B2 C2 D2 F2 G2].
    + destruct n as [|n].
      * rewrite A in A2. injection A2 as -> ->. rewrite C, C2. reflexivity.
      * pose proof (increasing_nth _ 0 (S n) _ _ _ _ HI ltac:(lia) A2 A). exfalso; lra.
    + assert (n = n2).
      { apply nth_error_None in A'. apply nth_error_None in A2'.
        assert (nth_error pts n <> None) as N1 by congruence. apply nth_error_Some in N1.
        assert (nth_error pts n2 <> None) as N2 by congruence. apply nth_error_Some in N2. lia. }
      subst. rewrite A in A2. injection A2 as -> ->. rewrite C, C2. reflexivity.
    + assert (xb2 <= a).
      { destruct (Nat.lt_trichotomy (S k2) n) as [L|[L|L]].
        - pose proof (increasing_nth _ _ _ _ _ _ _ HI L B2 A). lra.
        - subst n. rewrite A in B2. injection B2 as -> ->. lra.
        - apply nth_error_None in A'. assert (nth_error pts (S k2) <> None) as N by congruence.
          apply nth_error_Some in N. lia. }
      assert (x == a) by lra. rewrite C. symmetry.
      apply (At y' n a b A H0). apply (int_between _ _ _ k2 xa2 ya2 xb2 yb2); auto.
  - assert (Ik : interpolates pts x y) by (apply (int_between _ _ _ k xa ya xb yb); auto).
    destruct (Qlt_le_dec xa x) as [L1|L1]; [destruct (Qlt_le_dec x xb) as [L2|L2]|].
    + destruct H2 as [a2 b2 A2 B2 C2|n2 a2 b2 A2 A2' B2 C2|k2 xa2 ya2 xb2 yb2 A2 B2 C2 D2 F2 G2].
      * destruct k as [|k]; [rewrite A in A2; injection A2 as -> ->; exfalso; lra|].
        pose proof (increasing_nth _ 0 (S k) _ _ _ _ HI ltac:(lia) A2 A). exfalso; lra.
      * assert (n2 < S k)%nat by (eapply Mono; [exact A2|exact B|lra]).
        assert (nth_error pts (S n2) <> None); [|congruence]. apply nth_error_Some.
        assert (nth_error pts (S k) <> None) as N by congruence. apply nth_error_Some in N. lia.
      * assert (k < S k2)%nat by (eapply Mono; [exact A|exact B2|lra]).
        assert (k2 < S k)%nat by (eapply Mono; [exact A2|exact B|lra]).
        assert (k = k2) by lia. subst. rewrite A in A2. rewrite B in B2.
        injection A2 as -> ->. injection B2 as -> ->. rewrite G, G2. reflexivity.
    + rewrite (At y (S k) xb yb B) by (auto; lra). symmetry. apply (At y' (S k) xb yb B); auto; lra.
    + rewrite (At y k xa ya A) by (auto; lra). symmetry. apply (At y' k xa ya A); auto; lra.
Qed.
