(** A fit that minimises the sum of squares, for the examples of C100: the normal equations by elimination, checked. *)
From Coq Require Import String.
From Verif Require Import Base.Prelude Base.Rounding Base.ListUtil Base.NdArray Base.Cplx Base.Elim Model.Sampling Model.Time Model.Decimate Model.Window Model.Spectra
  Model.Calibrate Model.Gather Model.Regression Model.Pipeline Spec.Calibrate Spec.Gather Spec.Regression Spec.Pipeline Spec.Linear Spec.Solvers Spec.Units
  Proofs.SolversMore Proofs.UnitsFit.
Open Scope list_scope. Open Scope Q_scope.
Fixpoint grad (n : nat) (P : list (list Q)) (b x : list Q) : list Q :=
  match P, b with row :: P', y :: b' => map Qred (lin (Qred (dot row x - y)) 1 row (grad n P' b' x)) | _, _ => repeat 0 n end.
Fixpoint normal (P : list (list Q)) (b : list Q) (n : nat) : list (list Q * Q) :=
  match P, b with
  | row :: P', y :: b' => map (fun z => (lin (fst (fst z)) 1 row (fst (snd z)), fst (fst z) * y + snd (snd z))) (combine (combine row row) (normal P' b' n))
  | _, _ => repeat (repeat 0 n, 0) n
  end.
(** elimination with every number reduced *)
Definition red_row (z : list Q * Q) : list Q * Q := (map Qred (fst z), Qred (snd z)).
Fixpoint elim_red (n : nat) (e : list (list Q * Q)) : list Q :=
  match n with
  | O => []
  | S m => match pivot e with
           | None => 0 :: elim_red m (map (fun q => (tl (fst q), snd q)) e)
           | Some (a, r, b) => let xs := elim_red m (map (fun z => red_row (eliminate a r b z)) e) in Qred ((b - dotp r xs) / a) :: xs
           end
  end.
Definition normal_core (n : nat) (P : list (list Q)) (b : list Q) : res (list Q) :=
  let x := elim_red n (map red_row (normal P b n)) in
  if Nat.eqb (length x) n && forallb (fun q => Qeq_bool q 0) (grad n P b x) then Ok x else Err ValueError.
Definition normal_fit (P : list (list Q)) (b : list Q) : res (list Q) := normal_core (length (hd [] P)) (map (map Qred) P) (map Qred b).

Lemma grad_length n P : forall b x, (forall row, In row P -> length row = n) -> length (grad n P b x) = n.
Proof. induction P as [|row P IH]; intros b x W; [apply repeat_length|]. destruct b as [|y b]; [apply repeat_length|]. cbn [grad]. rewrite map_length, lin_length; [apply W; left; reflexivity|]. rewrite IH; [apply W; left; reflexivity|intros r Hr; apply W; right; exact Hr]. Qed.
Lemma dot_comm a : forall b, dot a b == dot b a.
Proof. induction a as [|x a IH]; intros [|y b]; cbn [dot]; try reflexivity. rewrite IH. ring. Qed.
Lemma dot_zeros n : forall d, dot d (repeat 0 n) == 0.
Proof. induction n as [|n IH]; intros [|x d]; cbn [dot repeat]; try reflexivity. rewrite IH. ring. Qed.
Lemma dot_zero d : forall g, (forall q, In q g -> q == 0) -> dot d g == 0.
Proof. induction d as [|x d IH]; intros [|y g] H; cbn [dot]; try reflexivity. rewrite (IH g), (H y); [ring|left; reflexivity|intros q Hq; apply H; right; exact Hq]. Qed.
Lemma dot_red row : forall x, dot (map Qred row) x == dot row x.
Proof. induction row as [|q row IH]; intros [|y x]; cbn [map dot]; try reflexivity. rewrite (IH x), Qred_correct. reflexivity. Qed.
(** the expansion around [x] *)
Lemma expand n P : forall b x y, (forall row, In row P -> length row = n) -> length b = length P -> length x = n -> length y = n ->
  squares P b y == squares P b x + quad P (lin 1 (-1) y x) + 2 * dot (lin 1 (-1) y x) (grad n P b x).
Proof.
  induction P as [|row P IH]; intros b x y W LB Lx Ly; [destruct b; [|discriminate]; cbn [squares grad]; rewrite dot_zeros; cbn; ring|].
  destruct b as [|z b]; [discriminate|]. assert (W' : forall r, In r P -> length r = n) by (intros r Hr; apply W; right; exact Hr). cbn [squares grad]. rewrite (IH b x y W' ltac:(cbn in LB; lia) Lx Ly).
  assert (LR : length row = length (grad n P b x)) by (rewrite grad_length by exact W'; apply W; left; reflexivity).
  rewrite (dot_comm (lin 1 (-1) y x) (map Qred _)), dot_red, (dot_comm (lin _ 1 row _)), (dot_lin (Qred (dot row x - z)) 1 (lin 1 (-1) y x) row (grad n P b x) LR), (dot_comm (lin 1 (-1) y x) row), Qred_correct. unfold quad. cbn [map fold_right]. fold (quad P (lin 1 (-1) y x)).
  rewrite (dot_lin 1 (-1) row y x) by congruence. ring.
Qed.
Lemma squares_red P : forall b x, squares (map (map Qred) P) (map Qred b) x == squares P b x.
Proof. induction P as [|row P IH]; intros [|y b] x; cbn [map squares]; try reflexivity. rewrite (IH b x), dot_red, Qred_correct. reflexivity. Qed.
Theorem normal_minimises : minimises normal_fit.
Proof.
  intros P b n x NP W LB H. unfold normal_fit in H. assert (Eh : length (hd [] P) = n) by (destruct P as [|r P]; [congruence|apply W; left; reflexivity]). rewrite Eh in H. unfold normal_core in H. set (x0 := elim_red _ _) in H.
  destruct (Nat.eqb_spec (length x0) n) as [L|]; [|discriminate]. destruct (forallb _ _) eqn:G; [|discriminate]. injection H as <-. split; [exact L|]. intros y Ly.
  rewrite <- (squares_red P b x0), <- (squares_red P b y). set (P' := map (map Qred) P) in *. set (b' := map Qred b) in *.
  assert (W' : forall row, In row P' -> length row = n) by (intros row Hr; apply in_map_iff in Hr; destruct Hr as (r & <- & Hr); rewrite map_length; exact (W r Hr)).
  assert (LB' : length b' = length P') by (unfold b', P'; rewrite !map_length; exact LB).
  rewrite (expand n P' b' x0 y W' LB' L Ly). rewrite (dot_zero _ (grad n P' b' x0)). { pose proof (quad_nonneg P' (lin 1 (-1) y x0)). lra. }
  intros q Hq. rewrite forallb_forall in G. apply Qeq_bool_eq. exact (G q Hq).
Qed.

(** the closed form for two unknowns has no preference for units *)
Fixpoint sum2 (g : Q -> Q -> Q -> Q) (P : list (list Q)) (b : list Q) : Q :=
  match P, b with [p; q] :: P', y :: b' => Qred (g (Qred p) (Qred q) (Qred y) + sum2 g P' b') | _ :: P', _ :: b' => sum2 g P' b' | _, _ => 0 end.
Definition cramer (P : list (list Q)) (b : list Q) : res (list Q) :=
  if forallb (fun r => Nat.eqb (length r) 2) P && negb (Nat.eqb (length P) 0) then
    let A := sum2 (fun p q y => p * p) P b in let B := sum2 (fun p q y => p * q) P b in let C := sum2 (fun p q y => q * q) P b in
    let u := sum2 (fun p q y => p * y) P b in let v := sum2 (fun p q y => q * y) P b in
    Ok [Qred ((C * u - B * v) / (A * C - B * B)); Qred ((A * v - B * u) / (A * C - B * B))]
  else Err ValueError.
Lemma sum2_scale s1 s2 c g t : (forall p q y, g (s1 * p) (s2 * q) (c * y) == t * g p q y) -> (forall p p' q q' y y', p == p' -> q == q' -> y == y' -> g p q y == g p' q' y') ->
  forall P P' b b', (forall r, In r P -> length r = 2%nat) -> Forall2 (fun row row' => Forall2 (fun qx y => y == fst qx * snd qx) (combine [s1; s2] row) row') P P' -> times_c c b b' -> sum2 g P' b' == t * sum2 g P b.
Proof.
  intros G M P P' b b' W F. revert b b'. induction F as [|row row' P P' R F IH]; intros b b' T; [cbn; ring|]. destruct T as [|y y' b b' E T]; [destruct row as [|? [|? [|]]], row' as [|? [|? [|]]]; cbn; ring|].
  pose proof (W row (or_introl eq_refl)) as L. destruct row as [|p [|q [|]]]; try discriminate L. cbn [combine] in R. inversion R as [|? p' ? ? R1 R2]; subst. inversion R2 as [|? q' ? ? R3 R4]; subst. inversion R4; subst. cbn [fst snd] in R1, R3. cbn [sum2].
  rewrite (Qred_correct (_ + sum2 g P' b')), (Qred_correct (_ + sum2 g P b)), (IH (fun r Hr => W r (or_intror Hr)) b b' T), (M (Qred p') (s1 * Qred p) (Qred q') (s2 * Qred q) (Qred y') (c * Qred y)); [|rewrite !Qred_correct; exact R1|rewrite !Qred_correct; exact R3|rewrite !Qred_correct; exact E]. rewrite G. ring.
Qed.
Lemma quot_scale s t n n' d d' : ~ s == 0 -> ~ t == 0 -> n' == s * n -> d' == t * d -> n' / d' == (s / t) * (n / d).
Proof.
  intros Hs Ht -> ->. destruct (Qeq_dec d 0) as [Z|Z]; [|field; split; assumption]. unfold Qdiv. assert (E : / d == 0) by (rewrite Z; reflexivity). assert (E2 : / (t * d) == 0) by (rewrite Z, Qmult_0_r; reflexivity). rewrite E, E2. ring.
Qed.
Lemma ok_inj {A} (x y : A) : Ok x = Ok y -> y = x.
Proof. congruence. Qed.
Theorem cramer_unit_free : unit_free cramer.
Proof.
  intros s c P P' b b' x x' NZ NC F T A B. unfold cramer in A, B. destruct (forallb _ P && _) eqn:G; [|discriminate]. destruct (forallb _ P' && _); [|discriminate]. apply andb_prop in G. destruct G as [G G2].
  assert (W : forall r, In r P -> length r = 2%nat) by (intros r Hr; rewrite forallb_forall in G; apply Nat.eqb_eq; exact (G r Hr)).
  assert (L2 : length s = 2%nat) by (destruct F as [|row row' P P' [L _] F]; [discriminate G2|rewrite <- L; apply W; left; reflexivity]).
  destruct s as [|s1 [|s2 [|]]]; try discriminate L2. pose proof (NZ s1 (or_introl eq_refl)) as N1. pose proof (NZ s2 (or_intror (or_introl eq_refl))) as N2.
  assert (F' : Forall2 (fun row row' => Forall2 (fun qx y => y == fst qx * snd qx) (combine [s1; s2] row) row') P P') by (clear -F; induction F as [|? ? ? ? [_ E] F IH]; constructor; assumption).
  apply ok_inj in A. apply ok_inj in B. subst x x'. set (A := sum2 (fun p q y => p * p) P b). set (B := sum2 (fun p q y => p * q) P b). set (C := sum2 (fun p q y => q * q) P b). set (u := sum2 (fun p q y => p * y) P b). set (v := sum2 (fun p q y => q * y) P b).
  assert (EA : sum2 (fun p q y => p * p) P' b' == (s1 * s1) * A) by (apply (sum2_scale s1 s2 c); [intros; ring|intros ? ? ? ? ? ? E1 E2 E3; cbv beta; rewrite ?E1, ?E2, ?E3; reflexivity|exact W|exact F'|exact T]).
  assert (EB : sum2 (fun p q y => p * q) P' b' == (s1 * s2) * B) by (apply (sum2_scale s1 s2 c); [intros; ring|intros ? ? ? ? ? ? E1 E2 E3; cbv beta; rewrite ?E1, ?E2, ?E3; reflexivity|exact W|exact F'|exact T]).
  assert (EC : sum2 (fun p q y => q * q) P' b' == (s2 * s2) * C) by (apply (sum2_scale s1 s2 c); [intros; ring|intros ? ? ? ? ? ? E1 E2 E3; cbv beta; rewrite ?E1, ?E2, ?E3; reflexivity|exact W|exact F'|exact T]).
  assert (Eu : sum2 (fun p q y => p * y) P' b' == (s1 * c) * u) by (apply (sum2_scale s1 s2 c); [intros; ring|intros ? ? ? ? ? ? E1 E2 E3; cbv beta; rewrite ?E1, ?E2, ?E3; reflexivity|exact W|exact F'|exact T]).
  assert (Ev : sum2 (fun p q y => q * y) P' b' == (s2 * c) * v) by (apply (sum2_scale s1 s2 c); [intros; ring|intros ? ? ? ? ? ? E1 E2 E3; cbv beta; rewrite ?E1, ?E2, ?E3; reflexivity|exact W|exact F'|exact T]).
  assert (NN : forall x y : Q, ~ x == 0 -> ~ y == 0 -> ~ x * y == 0) by (intros x y X Y K; apply Qmult_integral in K; tauto). clearbody A B C u v.
  constructor; [|constructor; [|constructor]]; cbn [fst snd].
  - do 2 rewrite (Qred_correct (_ / _)). rewrite (quot_scale (s1 * s2 * s2 * c) (s1 * s1 * s2 * s2) (C * u - B * v) _ (A * C - B * B) _); [generalize ((C * u - B * v) / (A * C - B * B)); intros; field; repeat split|auto|auto|rewrite EB, EC, Eu, Ev; ring|rewrite EA, EB, EC; ring]; auto.
  - do 2 rewrite (Qred_correct (_ / _)). rewrite (quot_scale (s1 * s1 * s2 * c) (s1 * s1 * s2 * s2) (A * v - B * u) _ (A * C - B * B) _); [generalize ((A * v - B * u) / (A * C - B * B)); intros; field; repeat split|auto|auto|rewrite EB, EA, Eu, Ev; ring|rewrite EA, EB, EC; ring]; auto.
Qed.
