(** C101: the least squares solution is linear in the observations. *)
From Verif Require Import Base.Prelude Base.ListUtil Base.Cplx Model.Regression Spec.Regression Spec.Solvers Spec.Units Proofs.UnitsFit.
Open Scope list_scope. Open Scope Q_scope.

(** half the derivative of the sum of squares at [x] in direction [d] *)
Fixpoint slope (P : list (list Q)) (b x d : list Q) : Q :=
  match P, b with row :: P', y :: b' => (dot row x - y) * dot row d + slope P' b' x d | _, _ => 0 end.
Lemma along P : forall b x d t, length b = length P -> length x = length d ->
  squares P b (lin 1 t x d) == squares P b x + 2 * t * slope P b x d + t * t * quad P d.
Proof.
  induction P as [|row P IH]; intros [|y b] x d t L E; try discriminate; [cbn; ring|]. cbn [squares slope quad]. rewrite (IH b x d t ltac:(cbn in L; lia) E), (dot_lin 1 t row x d E). ring.
Qed.
Lemma stationary n P b x : length b = length P -> length x = n -> (forall y, length y = n -> squares P b x <= squares P b y) -> forall d, length d = n -> slope P b x d == 0.
Proof.
  intros LB Lx M d Ld. set (s := slope P b x d). set (q := quad P d). assert (N : 0 <= q) by apply quad_nonneg.
  assert (A : forall t, 0 <= 2 * t * s + t * t * q).
  { intros t. pose proof (M (lin 1 t x d)) as K. rewrite lin_length in K by congruence. specialize (K Lx). rewrite (along P b x d t LB ltac:(congruence)) in K. fold s q in K. lra. }
  clearbody s q. clear M. assert (SS : 0 <= s * s) by apply sq_nonneg. pose proof (A (- s / (1 + q))) as K.
  assert (Q1 : ~ 1 + q == 0) by lra. assert (E : 2 * (- s / (1 + q)) * s + - s / (1 + q) * (- s / (1 + q)) * q == - (s * s) * ((2 + q) / ((1 + q) * (1 + q)))) by (field; exact Q1).
  rewrite E in K. assert (PD : 0 < (2 + q) / ((1 + q) * (1 + q))). { apply Qlt_shift_div_l; [nra|lra]. }
  assert (Z : s * s == 0). { set (r := (2 + q) / ((1 + q) * (1 + q))) in *. clearbody r. destruct (Qlt_le_dec 0 (s * s)) as [Lt|Le]; [|lra]. assert (0 < s * s * r) by (apply Qmult_lt_0_compat; assumption). lra. }
  apply Qmult_integral in Z. destruct Z; assumption.
Qed.
Lemma slope_lin P d p q : forall b b' x x', length b = length P -> length b' = length P -> length x = length x' ->
  slope P (lin p q b b') (lin p q x x') d == p * slope P b x d + q * slope P b' x' d.
Proof.
  induction P as [|row P IH]; intros [|y b] [|y' b'] x x' L L' E; try discriminate; [cbn; ring|]. unfold lin at 1. cbn [combine map fst snd slope]. fold (lin p q b b').
  rewrite (IH b b' x x' ltac:(cbn in L; lia) ltac:(cbn in L'; lia) E), (dot_lin p q row x x' E). ring.
Qed.
Lemma slope_exact P d z : slope P (map (fun row => dot row z) P) z d == 0.
Proof. induction P as [|row P IH]; cbn [map slope]; [reflexivity|]. rewrite IH. ring. Qed.
Lemma slope_comp P d x : forall b b', Forall2 Qeq b b' -> slope P b x d == slope P b' x d.
Proof. induction P as [|row P IH]; intros b b' [|y y' c c' E F]; cbn [slope]; try reflexivity. rewrite (IH _ _ F), E. reflexivity. Qed.
Lemma slope_diff P d : forall b x y, length b = length P -> length x = length y -> slope P b x d - slope P b y d == slope P (map (fun _ => 0) P) (lin 1 (-1) x y) d.
Proof.
  induction P as [|row P IH]; intros [|z b] x y L E; try discriminate; [cbn; ring|]. cbn [map slope]. rewrite <- (IH b x y ltac:(cbn in L; lia) E), (dot_lin 1 (-1) row x y E). ring.
Qed.
Lemma slope_self P d : slope P (map (fun _ => 0) P) d d == quad P d.
Proof. induction P as [|row P IH]; cbn [map slope quad]; [reflexivity|]. rewrite IH. ring. Qed.
Lemma stationary_unique n P b x y : injective n P -> length b = length P -> length x = n -> length y = n ->
  (forall d, length d = n -> slope P b x d == 0) -> (forall d, length d = n -> slope P b y d == 0) -> Forall2 Qeq x y.
Proof.
  intros I LB Lx Ly SX SY. set (d := lin 1 (-1) x y). assert (Ld : length d = n) by (unfold d; rewrite lin_length; congruence).
  pose proof (slope_diff P d b x y LB ltac:(congruence)) as E. rewrite (SX d Ld), (SY d Ld) in E. fold d in E. rewrite slope_self in E.
  assert (Z : quad P d <= 0) by lra. pose proof (I d Ld (fun row Hr => quad_zero P d Z row Hr)) as K. unfold d, lin in K. clear -K Lx Ly. revert y n Lx Ly K.
  induction x as [|a x IH]; intros [|c y] n Lx Ly K; cbn in *; try congruence; [constructor|]. constructor; [pose proof (K _ (or_introl eq_refl)); lra|]. apply (IH y (length x)); [reflexivity|lia|]. intros q Hq. apply K. right. exact Hq.
Qed.
(** combinations of several vectors *)
Fixpoint lc {A} (l : list (Q * A)) (F : A -> list Q) (base : list Q) : list Q := match l with [] => base | (a, v) :: l' => lin a 1 (F v) (lc l' F base) end.
Lemma lc_length {A} (l : list (Q * A)) F base n : length base = n -> (forall v, In v (map snd l) -> length (F v) = n) -> length (lc l F base) = n.
Proof. intros B. induction l as [|[a v] l IH]; intros H; [exact B|]. cbn [lc]. rewrite lin_length; [apply H; left; reflexivity|]. rewrite IH; [apply H; left; reflexivity|intros u Hu; apply H; right; exact Hu]. Qed.
Lemma lc_cons {A} (l : list (Q * A)) (h : A -> Q) F b base : exists q, lc l (fun v => h v :: F v) (b :: base) = q :: lc l F base /\ q == dot (map fst l) (map h (map snd l)) + b.
Proof.
  induction l as [|[a v] l (q & E & Hq)]; [exists b; split; [reflexivity|cbn; ring]|]. cbn [lc]. rewrite E. exists (a * h v + 1 * q). split; [reflexivity|]. cbn [map fst snd dot]. rewrite Hq. ring.
Qed.
Lemma slope_lc {A} P d (l : list (Q * A)) (B X : A -> list Q) base z n : length base = length P -> length z = n -> (forall v, In v (map snd l) -> length (B v) = length P /\ length (X v) = n /\ slope P (B v) (X v) d == 0) ->
  slope P base z d == 0 -> slope P (lc l B base) (lc l X z) d == 0.
Proof.
  intros LB Lz H Z. induction l as [|[a v] l IH]; [exact Z|]. cbn [lc]. assert (H' : forall v, In v (map snd l) -> length (B v) = length P /\ length (X v) = n /\ slope P (B v) (X v) d == 0) by (intros u Hu; apply H; right; exact Hu).
  destruct (H v (or_introl eq_refl)) as (L1 & L2 & S). rewrite slope_lin; [rewrite S, (IH H'); ring|exact L1|apply lc_length; [exact LB|intros u Hu; apply H'; exact Hu]|]. rewrite L2. symmetry. apply lc_length; [exact Lz|intros u Hu; apply H'; exact Hu].
Qed.
(** the fit of a combination of observations is the combination of the fits *)
Theorem fit_superposes {A} fit n P (l : list (Q * A)) (B X : A -> list Q) b x z : minimises fit -> P <> [] -> (forall row, In row P -> length row = n) -> injective n P -> length z = n ->
  length b = length P -> Forall2 Qeq b (lc l B (map (fun row => dot row z) P)) -> fit P b = Ok x ->
  (forall v, In v (map snd l) -> length (B v) = length P /\ fit P (B v) = Ok (X v)) -> Forall2 Qeq x (lc l X z).
Proof.
  intros M NP W I Lz LB E FX FV. destruct (M P b n x NP W LB FX) as [Lx Mx].
  assert (V : forall v, In v (map snd l) -> length (B v) = length P /\ length (X v) = n /\ forall d, length d = n -> slope P (B v) (X v) d == 0).
  { intros v Hv. destruct (FV v Hv) as [L F]. destruct (M P (B v) n (X v) NP W L F) as [LX MX]. split; [exact L|]. split; [exact LX|]. exact (stationary n P _ _ L LX MX). }
  apply (stationary_unique n P b); [exact I|exact LB|exact Lx|apply lc_length; [exact Lz|intros v Hv; apply V; exact Hv]|exact (stationary n P b x LB Lx Mx)|].
  intros d Ld. rewrite (slope_comp P d _ _ _ E). apply (slope_lc P d l B X _ z n); [apply map_length|exact Lz| |apply slope_exact]. intros v Hv. destruct (V v Hv) as (V1 & V2 & V3). split; [exact V1|]. split; [exact V2|exact (V3 d Ld)].
Qed.
