(** C100: least squares solutions in other units. *)
From Verif Require Import Base.Prelude Base.ListUtil Base.Cplx Model.Regression Spec.Regression Spec.Solvers Spec.Units.
Open Scope list_scope. Open Scope Q_scope.

(** combinations entry by entry *)
Definition lin (p q : Q) (x y : list Q) : list Q := map (fun z => p * fst z + q * snd z) (combine x y).
Lemma lin_length p q x y : length x = length y -> length (lin p q x y) = length x.
Proof. intros L. unfold lin. rewrite map_length, combine_length. lia. Qed.
Lemma dot_lin p q row : forall x y, length x = length y -> dot row (lin p q x y) == p * dot row x + q * dot row y.
Proof.
  induction row as [|r row IH]; intros x y L; [cbn; ring|]. destruct x as [|a x], y as [|b y]; try discriminate; [cbn; ring|].
  unfold lin. cbn [combine map dot fst snd]. fold (lin p q x y). rewrite IH by (cbn in L; lia). ring.
Qed.
(** the sum of squares of [P d] *)
Fixpoint quad (P : list (list Q)) (d : list Q) : Q := match P with row :: P' => dot row d * dot row d + quad P' d | [] => 0 end.
Lemma sq_nonneg (u : Q) : 0 <= u * u.
Proof. nra. Qed.
Lemma quad_nonneg P d : 0 <= quad P d.
Proof. induction P as [|row P IH]; cbn [quad]; [lra|]. pose proof (sq_nonneg (dot row d)). lra. Qed.
Lemma quad_zero P d : quad P d <= 0 -> forall row, In row P -> dot row d == 0.
Proof.
  induction P as [|r P IH]; cbn [quad]; intros H row Hr; [destruct Hr|]. pose proof (sq_nonneg (dot r d)) as N. pose proof (quad_nonneg P d) as M. destruct Hr as [<-|Hr]; [|apply IH; [lra|exact Hr]].
  assert (E : dot r d * dot r d == 0) by lra. apply Qmult_integral in E. destruct E; assumption.
Qed.
Lemma parallelogram P : forall b x y, length b = length P -> length x = length y ->
  squares P b x + squares P b y == 2 * squares P b (lin (1 # 2) (1 # 2) x y) + (1 # 2) * quad P (lin 1 (-1) x y).
Proof.
  induction P as [|row P IH]; intros [|y0 b] x y L E; try discriminate; [cbn; ring|]. cbn [squares quad]. specialize (IH b x y ltac:(cbn in L; lia) E).
  rewrite !dot_lin by exact E. set (u := dot row x) in *. set (v := dot row y) in *. set (A := squares P b x) in *. set (B := squares P b y) in *. set (C := squares P b (lin _ _ x y)) in *. set (D := quad P _) in *. clearbody u v A B C D.
  setoid_replace ((u - y0) * (u - y0) + A + ((v - y0) * (v - y0) + B)) with ((u - y0) * (u - y0) + (v - y0) * (v - y0) + (A + B)) by ring. rewrite IH. field.
Qed.
Definition injective (n : nat) (P : list (list Q)) : Prop := forall d, length d = n -> (forall row, In row P -> dot row d == 0) -> forall q, In q d -> q == 0.
Lemma unique_minimum n P b x y : injective n P -> length b = length P -> length x = n -> length y = n ->
  (forall z, length z = n -> squares P b x <= squares P b z) -> squares P b y <= squares P b x -> Forall2 Qeq x y.
Proof.
  intros I Lb Lx Ly M1 M2. assert (E : length x = length y) by congruence. pose proof (parallelogram P b x y Lb E) as PG. pose proof (M1 (lin (1 # 2) (1 # 2) x y)) as M3.
  rewrite lin_length in M3 by exact E. specialize (M3 Lx). assert (Q : quad P (lin 1 (-1) x y) <= 0) by lra.
  pose proof (I (lin 1 (-1) x y)) as K. rewrite lin_length in K by exact E. specialize (K Lx (quad_zero _ _ Q)). clear -E K. revert y E K. induction x as [|a x IH]; intros [|b y] E K; try discriminate; constructor.
  - assert (H : 1 * a + -1 * b == 0) by (apply K; left; reflexivity). lra.
  - apply IH; [cbn in E; lia|]. intros q Hq. apply K. right. exact Hq.
Qed.

(** columns and observations in other units *)
Definition cols (s : list Q) (row row' : list Q) : Prop := length row = length s /\ Forall2 (fun qx y => y == fst qx * snd qx) (combine s row) row'.
Definition rescale (c : Q) (s x : list Q) : list Q := map (fun z => fst z * snd z / c) (combine s x).
Definition unscale (c : Q) (s x : list Q) : list Q := map (fun z => c * snd z / fst z) (combine s x).
Lemma rescale_length c s x : length x = length s -> length (rescale c s x) = length s.
Proof. intros L. unfold rescale. rewrite map_length, combine_length. lia. Qed.
Lemma unscale_length c s x : length x = length s -> length (unscale c s x) = length s.
Proof. intros L. unfold unscale. rewrite map_length, combine_length. lia. Qed.
Lemma cols_dot c s : ~ c == 0 -> forall row row' x, cols s row row' -> length x = length s -> dot row' x == c * dot row (rescale c s x).
Proof.
  intros C. induction s as [|q s IH]; intros [|r row] row' x [L H] Lx; try discriminate; [inversion H; subst; cbn; ring|].
  destruct x as [|a x]; [discriminate|]. cbn [combine] in H. inversion H as [|? y ? row2 E H2]; subst. cbn [fst snd] in E. unfold rescale. cbn [combine map dot fst snd]. fold (rescale c s x).
  assert (L1 : length row = length s) by (cbn in L; lia). assert (L2 : length x = length s) by (cbn in Lx; lia). rewrite (IH row row2 x (conj L1 H2) L2), E. field. exact C.
Qed.
Lemma cols_undot c s : (forall q, In q s -> ~ q == 0) -> forall row row' x, cols s row row' -> length x = length s -> dot row' (unscale c s x) == c * dot row x.
Proof.
  intros C. induction s as [|q s IH]; intros [|r row] row' x [L H] Lx; try discriminate; [inversion H; subst; cbn; ring|].
  destruct x as [|a x]; [discriminate|]. cbn [combine] in H. inversion H as [|? y ? row2 E H2]; subst. cbn [fst snd] in E. unfold unscale. cbn [combine map dot fst snd]. fold (unscale c s x).
  assert (L1 : length row = length s) by (cbn in L; lia). assert (L2 : length x = length s) by (cbn in Lx; lia). rewrite (IH (fun q Hq => C q (or_intror Hq)) row row2 x (conj L1 H2) L2), E. field. apply C. left. reflexivity.
Qed.
Lemma squares_units c s P P' (f : list Q -> list Q) x : Forall2 (cols s) P P' -> (forall row row', cols s row row' -> dot row' x == c * dot row (f x)) ->
  forall b b', times_c c b b' -> squares P' b' x == c * c * squares P b (f x).
Proof.
  intros H D. induction H as [|row row' P P' R H IH]; intros b b' T; [destruct b, b'; cbn; ring|]. destruct T as [|y y' b b' E T]; [cbn; ring|]. cbn [squares]. rewrite (IH b b' T), (D _ _ R), E. ring.
Qed.
Lemma squares_comp P : forall b x y, Forall2 Qeq x y -> squares P b x == squares P b y.
Proof.
  assert (D : forall row x y, Forall2 Qeq x y -> dot row x == dot row y). { induction row as [|r row IH]; intros x y [|a b x' y' E F]; cbn [dot]; try reflexivity. rewrite E, (IH _ _ F). reflexivity. }
  induction P as [|row P IH]; intros [|y0 b] x y H; try reflexivity. cbn [squares]. rewrite (D row _ _ H), (IH b _ _ H). reflexivity.
Qed.
Theorem minimises_units fit s c P P' b b' x x' : minimises fit -> s <> [] -> (forall q, In q s -> ~ q == 0) -> ~ c == 0 -> Forall2 (cols s) P P' -> times_c c b b' -> length b = length P ->
  injective (length s) P -> fit P b = Ok x -> fit P' b' = Ok x' -> Forall2 (fun qx y => fst qx * y == c * snd qx) (combine s x) x'.
Proof.
  intros M NE NZ C H T LB I A B. assert (NP : P <> []).
  { intros ->. destruct s as [|q s]; [congruence|]. assert (K : 1 == 0); [|discriminate K]. apply (I (repeat 1 (length (q :: s)))); [apply repeat_length|intros row []|left; reflexivity]. }
  assert (NP' : P' <> []) by (intros ->; inversion H; subst; congruence).
  assert (W : forall row, In row P -> length row = length s). { intros row Hr. apply In_nth_error in Hr. destruct Hr as [i Hi]. destruct (Forall2_nth_error _ _ _ _ _ H Hi) as (r' & _ & K). apply K. }
  assert (W' : forall row, In row P' -> length row = length s). { intros row Hr. apply In_nth_error in Hr. destruct Hr as [i Hi]. destruct (Forall2_nth_error_r _ _ _ _ _ H Hi) as (r' & _ & K1 & K2). apply Forall2_length' in K2. rewrite combine_length in K2. lia. }
  pose proof (Forall2_length' _ _ _ H) as LP. pose proof (Forall2_length' _ _ _ T) as LT.
  destruct (M P b _ x NP W LB A) as [Lx Mx]. destruct (M P' b' _ x' NP' W' ltac:(congruence) B) as [Lx' Mx'].
  assert (CC : 0 < c * c). { pose proof (sq_nonneg c) as K. destruct (Qeq_dec (c * c) 0) as [Z|Z]; [|lra]. apply Qmult_integral in Z. tauto. }
  set (y := rescale c s x'). assert (Ly : length y = length s) by (apply rescale_length; exact Lx').
  assert (S1 : squares P' b' x' == c * c * squares P b y) by (refine (squares_units c s P P' (rescale c s) x' H _ b b' T); intros row row' R; exact (cols_dot c s C row row' x' R Lx')).
  assert (S2 : squares P' b' (unscale c s x) == c * c * squares P b x) by (refine (squares_units c s P P' (fun _ => x) _ H _ b b' T); intros row row' R; exact (cols_undot c s NZ row row' x R Lx)).
  pose proof (Mx' (unscale c s x) (unscale_length c s x Lx)) as M3. rewrite S1, S2 in M3. assert (M4 : squares P b y <= squares P b x) by (apply (Qmult_le_l _ _ (c * c) CC); exact M3).
  pose proof (unique_minimum _ P b x y I LB Lx Ly Mx M4) as U. unfold y, rescale in U. clear -U Lx Lx' C. revert x x' Lx Lx' U. induction s as [|q s IH]; intros [|a x] [|a' x'] L L' U; try discriminate; [constructor|].
  cbn [combine map fst snd] in U. inversion U as [|? ? ? ? E F]; subst. cbn [combine]. constructor; [cbn [fst snd]; rewrite E; field; exact C|]. apply IH; [cbn in L; lia|cbn in L'; lia|exact F].
Qed.
