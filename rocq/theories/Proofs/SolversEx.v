(** The weighted solver depends on the units; contracts met by elimination; the intercept of
    the Huber solver. *)
From Coq Require Import String.
From Verif Require Import Base.Prelude Base.ListUtil Base.Cplx Base.Elim Model.Time Model.Regression Model.Solvers Spec.Regression Spec.Solvers.
From Verif Require Import Proofs.TimeMeta Proofs.Solvers Proofs.SolversMore.
Open Scope list_scope. Open Scope Q_scope.

(** ** elimination meets the contracts *)
Lemma combine_nth_in {A B} (a : list A) (b : list B) i x y : nth_error a i = Some x -> nth_error b i = Some y -> In (x, y) (combine a b).
Proof. intros H1 H2. eapply nth_error_In. apply nth_combine; eassumption. Qed.
Lemma wls_elim : weighted_least_squares elim_wfit.
Proof.
  intros w P b n HP Hn Hb Hw _. eexists. split; [reflexivity|]. rewrite (ncols_ok P n Hn HP). split; [apply elim_length|].
  intros (y & Ly & Hy). set (e := map snd (filter (fun x => negb (Qeq_bool (fst x) 0)) (combine w (combine P b)))).
  assert (S : solves (elim_solve n e) e).
  { apply elim_ok.
    - intros q Hq. apply in_map_iff in Hq. destruct Hq as (p & <- & Hp). apply filter_In in Hp. destruct Hp as [Hp _].
      destruct (in_combine_nth _ _ _ Hp) as (i & _ & Hi). apply nth_error_In in Hi. destruct (in_combine_nth _ _ _ Hi) as (j & Hj & _). apply Hn. exact (nth_error_In _ _ Hj).
    - exists y. split; [exact Ly|]. intros q Hq. apply in_map_iff in Hq. destruct Hq as (p & <- & Hp). apply filter_In in Hp. destruct Hp as [Hp Hz].
      destruct (in_combine_nth _ _ _ Hp) as (i & Hwi & Hi). assert (Hin := nth_error_In _ _ Hi). clear Hin.
      assert (Hq : nth_error P i = Some (fst (snd p)) /\ nth_error b i = Some (snd (snd p))).
      { clear -Hi. revert b i Hi. induction P as [|r P IH]; intros [|z b] [|i] Hi; cbn in *; try discriminate; [split; f_equal; inversion Hi; reflexivity|]. apply IH. exact Hi. }
      destruct Hq as [H1 H2]. rewrite <- dot_dotp. apply (Hy i (fst p)); try assumption. apply Bool.negb_true_iff in Hz. apply Qeq_bool_neq, Hz. }
  intros i wi row z H1 H2 H3 Hz. rewrite dot_dotp. apply (S (row, z)). apply in_map_iff. exists (wi, (row, z)). split; [reflexivity|].
  apply filter_In. split; [apply (combine_nth_in _ _ i); [exact H1|apply nth_combine; assumption]|]. cbn [fst]. destruct (Qeq_bool wi 0) eqn:E; [|reflexivity]. apply Qeq_bool_iff in E. contradiction.
Qed.
Lemma ls_elim : least_squares elim_fit.
Proof.
  intros P b n HP Hn Hb. destruct (wls_elim (ones (length b)) P b n HP Hn Hb) as (x & E & L & H).
  - unfold ones. rewrite repeat_length. exact Hb.
  - intros z Hz. apply repeat_spec in Hz. subst z. lra.
  - exists x. split; [|split; [exact L|]].
    + unfold elim_fit, elim_wfit in *. rewrite <- E. f_equal. f_equal. clear -Hb. revert P Hb. induction b as [|y b IH]; intros [|r P] Hb; try discriminate; [reflexivity|].
      cbn [ones repeat length combine filter fst]. change (Qeq_bool 1 0) with false. cbn [negb map snd]. f_equal. apply IH. cbn in Hb. congruence.
    + intros Hy. apply (ones_system (length b)); [congruence|reflexivity|]. apply H. destruct Hy as (y & Ly & Hy). exists y. split; [exact Ly|]. apply ones_system; [congruence|reflexivity|exact Hy].
Qed.

(** ** units: one input with value 1 in every window, an outlier in the last of five windows *)
Definition P0 : list (list Q) := concat (repeat [[1; 0]; [0; 1]] 5).
Definition b0 (v : Q) : list Q := [0; 0; 0; 0; 0; 0; 0; 0; v; v].
Definition w1 : list Q := [1; 1; 1; 1; 1; 1; 1; 1; 0; 0].
Lemma sq_zero s t : s * s + t * t <= 0 -> s == 0 /\ t == 0.
Proof.
  intros H. assert (A : 0 <= s * s) by nra. assert (B : 0 <= t * t) by nra.
  assert (A' : s * s == 0) by lra. assert (B' : t * t == 0) by lra.
  split; [destruct (Qmult_integral _ _ A'); assumption|destruct (Qmult_integral _ _ B'); assumption].
Qed.
Lemma P0_cols : forall row, In row P0 -> length row = 2%nat.
Proof. intros row H. cbn in H. repeat (destruct H as [<-|H]; [reflexivity|]). destruct H. Qed.
Lemma P0_ne : P0 <> [].
Proof. discriminate. Qed.
Lemma min_ones wfit v x : minimising wfit -> wfit (ones 10) P0 (b0 v) = Ok x -> times_c 1 [v / 5; v / 5] x.
Proof.
  intros M E. destruct (M _ _ _ 2%nat x P0_ne P0_cols E) as [L H]. destruct x as [|a [|b [|? ?]]]; try discriminate. clear L.
  pose proof (H [v / 5; v / 5] eq_refl) as K. cbn [ones repeat P0 concat app b0 wss dot] in K.
  assert (V : v == 5 * (v / 5)) by field. set (u := v / 5) in *. clearbody u.
  assert (Z : (a - u) * (a - u) + (b - u) * (b - u) <= 0) by (rewrite V in K; ring_simplify in K; ring_simplify; lra).
  apply sq_zero in Z. destruct Z. constructor; [lra|]. constructor; [lra|constructor].
Qed.
Lemma min_w1 wfit v x : minimising wfit -> wfit w1 P0 (b0 v) = Ok x -> times_c 1 [0; 0] x.
Proof.
  intros M E. destruct (M _ _ _ 2%nat x P0_ne P0_cols E) as [L H]. destruct x as [|a [|b [|? ?]]]; try discriminate. clear L.
  pose proof (H [0; 0] eq_refl) as K. cbn [w1 P0 repeat concat app b0 wss dot] in K.
  assert (Z : (a - 0) * (a - 0) + (b - 0) * (b - 0) <= 0) by (ring_simplify in K; ring_simplify; lra).
  apply sq_zero in Z. destruct Z. constructor; [lra|]. constructor; [lra|constructor].
Qed.
Lemma next_weights v x x' : times_c 1 x x' -> trimmed_mean 2 (robust_scale (resids P0 (b0 v) x')) = trimmed_mean 2 (robust_scale (resids P0 (b0 v) x)).
Proof.
  intros H. apply (weights_scale 1); [lra| |left; reflexivity]. apply resids_scale; [lra| |exact H]. unfold b0. repeat constructor; lra.
Qed.
Lemma loop_S wfit n P b w c : wls_loop wfit (S n) P b w c = ('(x, w') <- wls_pass wfit P b w ;; wls_loop wfit n P b w' (Some x)).
Proof. reflexivity. Qed.
Lemma stays_ones wfit k c0 c w : minimising wfit -> wls_loop wfit (S k) P0 (b0 (3 # 2)) (ones 10) c0 = Ok (c, w) -> times_c 1 [3 # 10; 3 # 10] c.
Proof.
  intros M. revert c0. induction k as [|k IH]; intros c0 E; rewrite loop_S in E; unfold wls_pass in E;
    destruct (wfit (ones 10) P0 (b0 (3 # 2))) as [x|] eqn:F; try discriminate; cbn [bind] in E; fold (resids P0 (b0 (3 # 2)) x) in E; pose proof (min_ones wfit (3 # 2) x M F) as T.
  - cbn [wls_loop] in E. assert (x = c) as <- by congruence. inversion T as [|? a ? ? Ha T2]; subst. inversion T2 as [|? b ? ? Hb T3]; subst. inversion T3; subst.
    assert (V : (3 # 2) / 5 == 3 # 10) by reflexivity. constructor; [lra|]. constructor; [lra|constructor].
  - rewrite (next_weights _ _ _ T) in E. assert (W : trimmed_mean 2 (robust_scale (resids P0 (b0 (3 # 2)) [(3 # 2) / 5; (3 # 2) / 5])) = ones 10) by (vm_compute; reflexivity).
    rewrite W in E. exact (IH _ E).
Qed.
Lemma stays_w1 wfit k c0 c w : minimising wfit -> wls_loop wfit (S k) P0 (b0 15) w1 c0 = Ok (c, w) -> times_c 1 [0; 0] c.
Proof.
  intros M. revert c0. induction k as [|k IH]; intros c0 E; rewrite loop_S in E; unfold wls_pass in E;
    destruct (wfit w1 P0 (b0 15)) as [x|] eqn:F; try discriminate; cbn [bind] in E; fold (resids P0 (b0 15) x) in E; pose proof (min_w1 wfit 15 x M F) as T.
  - cbn [wls_loop] in E. assert (x = c) as <- by congruence. exact T.
  - rewrite (next_weights _ _ _ T) in E. assert (W : trimmed_mean 2 (robust_scale (resids P0 (b0 15) [0; 0])) = w1) by (vm_compute; reflexivity).
    rewrite W in E. exact (IH _ E).
Qed.
Lemma bind_first (m : res (list Q * list Q)) c : ('(x, _) <- m ;; Ok x) = Ok c -> exists w, m = Ok (c, w).
Proof. destruct m as [[x w]|]; [|discriminate]. cbn [bind]. intros H. exists w. congruence. Qed.
Lemma c78_refuted wfit n_iter c c' : minimising wfit -> (2 <= n_iter)%nat ->
  wls_coef wfit n_iter P0 (b0 (3 # 2)) = Ok c -> wls_coef wfit n_iter P0 (b0 15) = Ok c' ->
  times_c 1 [3 # 10; 3 # 10] c /\ times_c 1 [0; 0] c'.
Proof.
  intros M Hk. destruct n_iter as [|[|k]]; [lia|lia|]. unfold wls_coef. change (length (b0 (3 # 2))) with 10%nat. change (length (b0 15)) with 10%nat. fold (ones 10). intros E E'. split.
  - destruct (bind_first _ _ E) as [w L]. exact (stays_ones _ _ _ _ _ M L).
  - clear E. remember (S k) as k1. rewrite loop_S in E'. unfold wls_pass in E'. destruct (wfit (ones 10) P0 (b0 15)) as [x|] eqn:F; [|discriminate]. cbn [bind] in E'. fold (resids P0 (b0 15) x) in E'.
    rewrite (next_weights _ _ _ (min_ones wfit 15 x M F)) in E'. assert (W : trimmed_mean 2 (robust_scale (resids P0 (b0 15) [15 / 5; 15 / 5])) = w1) by (vm_compute; reflexivity).
    rewrite W in E'. destruct (bind_first _ _ E') as [w L]. rewrite Heqk1 in L. exact (stays_w1 _ _ _ _ _ M L).
Qed.

(** ** the intercept: a constant input 1, output 1 + i in two windows *)
Definition hIn : list (list cq) := [[mkC 1 0]; [mkC 1 0]].
Definition hOut : list (list cq) := [[mkC 1 1]; [mkC 1 1]].
Definition hP : list (list Q) := [[1; -0]; [0; 1]; [1; -0]; [0; 1]].
Definition hb : list Q := [1; 1; 1; 1].
Lemma h_zero : affine_system hP [0; 0] 1 hb.
Proof.
  unfold affine_system, hP, hb. constructor; [vm_compute; reflexivity|]. constructor; [vm_compute; reflexivity|]. constructor; [vm_compute; reflexivity|]. constructor; [vm_compute; reflexivity|]. constructor.
Qed.
Lemma h_cols : forall row, In row hP -> length row = 2%nat.
Proof. intros row K. destruct K as [<-|[<-|[<-|[<-|[]]]]]; reflexivity. Qed.
Lemma affine_zero fit x : smallest_affine_fit fit -> fit hP hb = Ok x -> exists a b, x = [a; b] /\ a == 0 /\ b == 0.
Proof.
  intros H E. destruct (H hP hb 2%nat x) as (L & _ & M); [discriminate|exact h_cols|reflexivity|exists [0; 0], 1; split; [reflexivity|exact h_zero]|exact E|].
  destruct x as [|a [|b [|? ?]]]; try discriminate. exists a, b. split; [reflexivity|].
  apply sq_zero. pose proof (M [0; 0] 1 eq_refl h_zero) as K. cbn [dot] in K. lra.
Qed.
(** ** elimination scales with the observations *)
Definition scaled_eqs (c : Q) (e e' : list (list Q * Q)) : Prop := Forall2 (fun q q' => fst q = fst q' /\ snd q' == c * snd q) e e'.
Lemma pivot_scale c e e' : scaled_eqs c e e' ->
  match pivot e, pivot e' with None, None => True | Some (a, r, b), Some (a', r', b') => a = a' /\ r = r' /\ b' == c * b | _, _ => False end.
Proof.
  induction 1 as [|[l b] [l' b'] e e' [H1 H2] H IH]; [exact I|]. cbn in H1, H2. subst l'. destruct l as [|a r]; cbn [pivot]; [exact IH|].
  destruct (Qeq_bool a 0); [exact IH|]. split; [reflexivity|]. split; [reflexivity|exact H2].
Qed.
Lemma dotp_scale c row x x' : times_c c x x' -> dotp row x' == c * dotp row x.
Proof. exact (dot_scale c row x x'). Qed.
Lemma elim_scale c n : forall e e', scaled_eqs c e e' -> times_c c (elim_solve n e) (elim_solve n e').
Proof.
  induction n as [|n IH]; intros e e' H; [constructor|]. cbn [elim_solve]. pose proof (pivot_scale c e e' H) as P.
  destruct (pivot e) as [[[a r] b]|] eqn:E, (pivot e') as [[[a' r'] b']|]; try contradiction.
  - destruct P as (<- & <- & Hb). assert (T : times_c c (elim_solve n (map (eliminate a r b) e)) (elim_solve n (map (eliminate a r b') e'))).
    { apply IH. clear -H Hb. induction H as [|q q' e e' [H1 H2] H IH]; cbn [map]; constructor; [|exact IH]. unfold eliminate. cbn [fst snd]. rewrite H1. split; [reflexivity|].
      rewrite H2, Hb. ring. }
    constructor; [|exact T]. pose proof (dotp_scale c r _ _ T) as D. rewrite D, Hb. field. apply (pivot_some _ _ _ _ E).
  - constructor; [lra|]. apply IH. clear -H. induction H as [|q q' e e' [H1 H2] H IH]; cbn [map]; constructor; [|exact IH]. cbn [fst snd]. rewrite H1. split; [reflexivity|exact H2].
Qed.
Lemma elim_equivariant : equivariant elim_wfit.
Proof.
  intros c w P b b' x Hc Hb E. unfold elim_wfit in *. eexists. split; [reflexivity|].
  match type of E with Ok ?t = _ => assert (t = x) as <- by congruence end. apply elim_scale. clear E.
  revert P w. induction Hb as [|y y' b b' Ey Hb IH]; intros P w.
  - destruct P, w; constructor.
  - destruct P as [|r P], w as [|v w]; try constructor. cbn [combine filter map fst snd]. destruct (negb (Qeq_bool v 0)); [|apply IH]. cbn [map snd]. constructor; [split; [reflexivity|exact Ey]|apply IH].
Qed.

(** ** a minimising fit for the data of the counterexample *)
Definition qlist_dec : forall a b : list Q, {a = b} + {a <> b}.
Proof. apply list_eq_dec. intros [a d] [a' d']. destruct (Z.eq_dec a a'), (Pos.eq_dec d d'); (left; congruence) || (right; congruence). Defined.
Definition fit0 (w : list Q) (P : list (list Q)) (b : list Q) : res (list Q) :=
  if list_eq_dec qlist_dec P P0 then
    if qlist_dec b (b0 (3 # 2)) then if qlist_dec w (ones 10) then Ok [3 # 10; 3 # 10] else Err ValueError else
    if qlist_dec b (b0 15) then if qlist_dec w (ones 10) then Ok [3; 3] else if qlist_dec w w1 then Ok [0; 0] else Err ValueError else Err ValueError
  else Err ValueError.
Lemma fit0_min : minimising fit0.
Proof.
  intros w P b n x HP Hn E. unfold fit0 in E. destruct (list_eq_dec qlist_dec P P0) as [->|]; [|discriminate].
  assert (n = 2%nat) as -> by (symmetry; exact (Hn [1; 0] (or_introl eq_refl))).
  assert (K : forall s t, 0 <= s * s + t * t) by (intros; nra).
  destruct (qlist_dec b (b0 (3 # 2))) as [->|].
  - destruct (qlist_dec w (ones 10)) as [->|]; [|discriminate]. assert (x = [3 # 10; 3 # 10]) as -> by congruence. split; [reflexivity|].
    intros y L. destruct y as [|p [|q [|? ?]]]; [discriminate L|discriminate L| |discriminate L]. cbn [ones repeat P0 concat app b0 wss dot]. pose proof (K (p - (3 # 10)) (q - (3 # 10))) as S. ring_simplify. ring_simplify in S. lra.
  - destruct (qlist_dec b (b0 15)) as [->|]; [|discriminate]. destruct (qlist_dec w (ones 10)) as [->|].
    + assert (x = [3; 3]) as -> by congruence. split; [reflexivity|].
      intros y L. destruct y as [|p [|q [|? ?]]]; [discriminate L|discriminate L| |discriminate L]. cbn [ones repeat P0 concat app b0 wss dot]. pose proof (K (p - 3) (q - 3)) as S. ring_simplify. ring_simplify in S. lra.
    + destruct (qlist_dec w w1) as [->|]; [|discriminate]. assert (x = [0; 0]) as -> by congruence. split; [reflexivity|].
      intros y L. destruct y as [|p [|q [|? ?]]]; [discriminate L|discriminate L| |discriminate L]. cbn [w1 repeat P0 concat app b0 wss dot]. pose proof (K p q) as S. ring_simplify. ring_simplify in S. lra.
Qed.

(** ** a smallest affine fit for the data of the counterexample *)
Definition hfit (P : list (list Q)) (b : list Q) : res (list Q) :=
  if list_eq_dec qlist_dec P hP then if qlist_dec b hb then Ok [0; 0] else Err ValueError else Err ValueError.
Lemma hfit_smallest : smallest_affine_fit hfit.
Proof.
  intros P b n x _ Hn _ _ E. unfold hfit in E. destruct (list_eq_dec qlist_dec P hP) as [->|]; [|discriminate]. destruct (qlist_dec b hb) as [->|]; [|discriminate].
  assert (x = [0; 0]) as -> by congruence. split; [exact (Hn [1; -0] (or_introl eq_refl))|]. split; [exists 1; exact h_zero|].
  intros y c _ _. assert (K : forall y, 0 <= dot y y) by (induction y0 as [|a y0 IH]; cbn [dot]; [lra|nra]). specialize (K y). cbn [dot]. lra.
Qed.
