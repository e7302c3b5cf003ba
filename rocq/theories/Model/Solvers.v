(** Model of the solvers of resistics/regression.py that do more than one fit or change
    its parameters: SolverScikitWLS (1024-1138) and SolverScikitHuber (905-922).

    Simplifications: exact arithmetic; scikit-learn's estimators are parameters; n_jobs
    and normalize (no effect without an intercept) are dropped. *)
From Coq Require Import String.
From Verif Require Import Base.Prelude Base.ListUtil Base.Cplx Model.Time Model.Regression.
Open Scope list_scope. Open Scope Q_scope.

(** np.sort *)
Fixpoint insert_sorted (x : Q) (l : list Q) : list Q :=
  match l with [] => [x] | y :: t => if Qle_bool x y then x :: l else y :: insert_sorted x t end.
Definition qsort (l : list Q) : list Q := fold_right insert_sorted [] l.
(** np.percentile(x, 100 q): linear interpolation between the closest ranks *)
Definition quantile (q : Q) (l : list Q) : Q :=
  let s := qsort l in
  let pos := q * inject_Z (Z.of_nat (List.length l) - 1) in
  let lo := Z.to_nat (qfloor pos) in
  let a := nth lo s 0 in
  let b := nth (Nat.min (S lo) (List.length l - 1)) s 0 in
  a + (pos - inject_Z (Z.of_nat lo)) * (b - a).
(** sklearn.preprocessing.RobustScaler().fit_transform on one column: median, interquartile
    range, 1 instead of a zero range *)
Definition robust_scale (r : list Q) : list Q :=
  let centre := quantile (1 # 2) r in
  let iqr := quantile (3 # 4) r - quantile (1 # 4) r in
  let scale := if Qeq_bool iqr 0 then 1 else iqr in
  map (fun x => (x - centre) / scale) r.

Fixpoint row_dot (a b : list Q) : Q := match a, b with x :: s, y :: t => x * y + row_dot s t | _, _ => 0 end.
Section WLS.
  (** LinearRegression(fit_intercept=False).fit(preds, obs, sample_weight); .coef_ *)
  Variable wfit : list Q -> list (list Q) -> list Q -> res (list Q).
  (** model.predict(preds), without an intercept *)
  Definition predict (preds : list (list Q)) (coef : list Q) : list Q := map (fun row => row_dot row coef) preds.
  (** one pass of the loop, 1068-1072: the coefficients and the next weights *)
  Definition wls_pass (preds : list (list Q)) (obs weights : list Q) : res (list Q * list Q) :=
    coef <- wfit weights preds obs ;;
    let resids := map (fun xy : Q * Q => Qabs (fst xy - snd xy)) (combine obs (predict preds coef)) in
    Ok (coef, trimmed_mean 2 (robust_scale resids)).
  (** the loop 1067-1073; [coef]: model.coef_ if the model has been fitted *)
  Fixpoint wls_loop (n_iter : nat) (preds : list (list Q)) (obs weights : list Q) (coef : option (list Q)) : res (list Q * list Q) :=
    match n_iter with
    | O => match coef with Some c => Ok (c, weights) | None => Err AttributeError end
    | S n => '(c, w) <- wls_pass preds obs weights ;; wls_loop n preds obs w (Some c)
    end.
  (** _get_coef 1042-1074; a fresh model has no coef_ *)
  Definition wls_coef (n_iter : nat) (preds : list (list Q)) (obs : list Q) : res (list Q) :=
    '(c, _) <- wls_loop n_iter preds obs (repeat 1 (List.length obs)) None ;; Ok c.
  (** the weights of pass number [i] (from 0) *)
  Fixpoint wls_weights (i : nat) (preds : list (list Q)) (obs weights : list Q) : res (list Q) :=
    match i with
    | O => Ok weights
    | S j => '(_, w) <- wls_pass preds obs weights ;; wls_weights j preds obs w
    end.
End WLS.

(** ** the intercept handed to scikit-learn *)
Inductive solver := SolverOLS | SolverHuber | SolverTheilSen | SolverRANSAC | SolverWLS.
(** SolverScikitOLS.run 897-901 (and WLS, which inherits it), TheilSen 978-983, RANSAC 1007-1009
    pass self.fit_intercept; Huber 921 passes only epsilon, and HuberRegressor's default is True *)
Definition intercept_used (s : solver) (fit_intercept : bool) : bool :=
  match s with SolverHuber => true | _ => fit_intercept end.
(** SolverScikit._get_coef 810-811 for an estimator that takes the flag *)
Definition estimator := bool -> list (list Q) -> list Q -> res (list Q).
Definition run_solver_with (s : solver) (fit_intercept : bool) (est : solver -> estimator) (r : reg_input) : res solution :=
  solve (est s (intercept_used s fit_intercept)) r.
