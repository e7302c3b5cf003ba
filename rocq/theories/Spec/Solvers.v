(** Vocabulary for the solvers. *)
From Coq Require Import String.
From Verif Require Import Base.Prelude Base.Cplx Model.Time Model.Regression Model.Solvers Spec.Regression.
Open Scope list_scope. Open Scope Q_scope.

(** [x] solves the equations with a weight other than 0 *)
Definition weighted_system (w : list Q) (P : list (list Q)) (x b : list Q) : Prop :=
  forall i wi row y, nth_error w i = Some wi -> nth_error P i = Some row -> nth_error b i = Some y -> ~ wi == 0 -> dot row x == y.
(** a weighted least squares fit of at least one equation: one coefficient per column, solving the equations with a
    weight other than 0 whenever they are solvable *)
Definition weighted_least_squares (wfit : list Q -> list (list Q) -> list Q -> res (list Q)) : Prop :=
  forall w P b n, P <> [] -> (forall row, In row P -> length row = n) -> length b = length P -> length w = length P -> (forall x, In x w -> 0 <= x) ->
    exists x, wfit w P b = Ok x /\ length x = n /\ ((exists y, length y = n /\ weighted_system w P y b) -> weighted_system w P x b).
(** multiplied by [c] *)
Definition times_c (c : Q) (a b : list Q) : Prop := Forall2 (fun x y => y == c * x) a b.
(** a fit that scales with the observations *)
Definition equivariant (wfit : list Q -> list (list Q) -> list Q -> res (list Q)) : Prop :=
  forall c w P b b' x, 0 < c -> times_c c b b' -> wfit w P b = Ok x -> exists x', wfit w P b' = Ok x' /\ times_c c x x'.
(** the number of equations with weight 1 *)
Definition kept (w : list Q) : nat := length (filter (fun x => Qeq_bool x 1) w).
(** weights 0 and 1 for [n] equations, more than three quarters of [n - 1] being 1 *)
Definition subset_weights (w : list Q) (n : nat) : Prop :=
  length w = n /\ (forall x, In x w -> x = 0 \/ x = 1) /\ (3 * (Z.of_nat n - 1) < 4 * Z.of_nat (kept w))%Z.
(** the equations left out have larger residuals for the coefficients [c] than those kept *)
Definition drops_largest (P : list (list Q)) (b c w : list Q) : Prop :=
  forall i j ri rj yi yj, nth_error P i = Some ri -> nth_error P j = Some rj -> nth_error b i = Some yi -> nth_error b j = Some yj ->
    nth_error w i = Some 1 -> nth_error w j = Some 0 -> Qabs (yi - dot ri c) < Qabs (yj - dot rj c).
(** [w] is the weight vector of pass number [i] (from 0), [x] its coefficients, and [r] the absolute residuals *)
Definition pass_of (wfit : list Q -> list (list Q) -> list Q -> res (list Q)) (P : list (list Q)) (b : list Q) (i : nat) (r : list Q) : Prop :=
  exists w x, wls_weights wfit i P b (repeat 1 (length b)) = Ok w /\ wfit w P b = Ok x /\
    r = map (fun xy : Q * Q => Qabs (snd xy - fst xy)) (combine (map (fun row => dot row x) P) b).
(** the weighted sum of squares, and fits that minimise it *)
Fixpoint wss (w : list Q) (P : list (list Q)) (b x : list Q) : Q :=
  match w, P, b with wi :: w', row :: P', y :: b' => wi * (dot row x - y) * (dot row x - y) + wss w' P' b' x | _, _, _ => 0 end.
Definition minimising (wfit : list Q -> list (list Q) -> list Q -> res (list Q)) : Prop :=
  forall w P b n x, P <> [] -> (forall row, In row P -> length row = n) -> wfit w P b = Ok x -> length x = n /\ forall y, length y = n -> wss w P b x <= wss w P b y.

(** a fit with an intercept: it finds coefficients and a constant that fit the equations whenever there are such; among
    several it takes the smallest coefficients (the penalty of HuberRegressor) *)
Definition affine_system (P : list (list Q)) (x : list Q) (c : Q) (b : list Q) : Prop := Forall2 (fun row y => dot row x + c == y) P b.
Definition smallest_affine_fit (fit : list (list Q) -> list Q -> res (list Q)) : Prop :=
  forall P b n x, P <> [] -> (forall row, In row P -> length row = n) -> length b = length P -> (exists y c, length y = n /\ affine_system P y c b) ->
    fit P b = Ok x -> length x = n /\ (exists c, affine_system P x c b) /\
      forall y c, length y = n -> affine_system P y c b -> dot x x <= dot y y.
