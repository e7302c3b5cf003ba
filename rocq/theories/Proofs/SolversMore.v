(** The weighted solver on exact data, its weights, and its dependence on the units. *)
From Coq Require Import String.
From Verif Require Import Base.Prelude Base.ListUtil Base.Cplx Base.Elim Model.Time Model.Regression Model.Solvers Spec.Regression Spec.Solvers.
From Verif Require Import Proofs.TimeMeta Proofs.Solvers.
Open Scope list_scope. Open Scope Q_scope.

Lemma row_dot_dot a b : row_dot a b = dot a b.
Proof. revert b. induction a as [|x a IH]; intros [|y b]; cbn; reflexivity. Qed.

(** ** elimination meets the contracts *)
Definition ncols (P : list (list Q)) : nat := match P with [] => O | r :: _ => length r end.
Definition elim_fit (P : list (list Q)) (b : list Q) : res (list Q) := Ok (elim_solve (ncols P) (combine P b)).
Definition elim_wfit (w : list Q) (P : list (list Q)) (b : list Q) : res (list Q) :=
  Ok (elim_solve (ncols P) (map snd (filter (fun x => negb (Qeq_bool (fst x) 0)) (combine w (combine P b))))).
Lemma dot_dotp a b : dot a b = dotp a b.
Proof. revert b. induction a as [|x a IH]; intros [|y b]; cbn; reflexivity. Qed.

(** ** residuals *)
Lemma in_combine_nth {A B} (a : list A) (b : list B) p : In p (combine a b) -> exists i, nth_error a i = Some (fst p) /\ nth_error b i = Some (snd p).
Proof.
  revert b. induction a as [|x a IH]; intros [|y b] H; try (destruct H). 
  - subst p. exists O. split; reflexivity.
  - destruct (IH b H) as (i & H1 & H2). exists (S i). split; assumption.
Qed.
Lemma nth_combine {A B} (a : list A) (b : list B) i x y : nth_error a i = Some x -> nth_error b i = Some y -> nth_error (combine a b) i = Some (x, y).
Proof.
  revert b i. induction a as [|p a IH]; intros [|q b] [|i] H1 H2; cbn in *; try discriminate; [congruence|]. apply IH; assumption.
Qed.
Definition resids (P : list (list Q)) (b c : list Q) : list Q := map (fun xy : Q * Q => Qabs (fst xy - snd xy)) (combine b (predict P c)).
Lemma predict_length P c : length (predict P c) = length P.
Proof. apply map_length. Qed.
Lemma resids_length P b c : length b = length P -> length (resids P b c) = length b.
Proof. intros H. unfold resids. rewrite map_length, combine_length, predict_length, H. apply Nat.min_id. Qed.
Lemma resids_nth P b c i row y : nth_error P i = Some row -> nth_error b i = Some y -> nth_error (resids P b c) i = Some (Qabs (y - dot row c)).
Proof.
  intros HP Hb. unfold resids. apply (map_nth_error (fun xy : Q * Q => Qabs (fst xy - snd xy)) i _ (d := (y, dot row c))).
  apply nth_combine; [exact Hb|]. unfold predict. rewrite (map_nth_error _ _ _ HP), row_dot_dot. reflexivity.
Qed.

Definition ones (n : nat) : list Q := repeat 1 n.
Lemma ones_system n P x b : length P = n -> length b = n -> weighted_system (ones n) P x b <-> real_system P x b.
Proof.
  intros HP Hb. split.
  - intros H. unfold real_system. revert n b HP Hb H. induction P as [|r P IH]; intros n [|y b] HP Hb H; cbn in *; subst; try discriminate; constructor.
    + apply (H O 1 r y eq_refl eq_refl eq_refl). lra.
    + apply (IH (length P) b eq_refl ltac:(congruence)). intros i wi row z H1 H2 H3. apply (H (S i) wi row z); assumption.
  - intros H i wi row y _ H2 H3 _. revert i b HP Hb H H2 H3. clear. intros i b HP Hb H. clear HP Hb. revert i. induction H as [|r z P b E H IH]; intros [|i] H2 H3; cbn in *; try discriminate.
    + assert (r = row /\ z = y) as (-> & ->) by (split; congruence). exact E.
    + exact (IH i H2 H3).
Qed.

(** ** quantiles of zeros *)
Lemma forall_nth_default (Pr : Q -> Prop) l i : Pr 0 -> Forall Pr l -> Pr (nth i l 0).
Proof. intros H0 H. revert i. induction H; intros [|i]; cbn; auto. Qed.
Lemma qsort_forall (Pr : Q -> Prop) l : Forall Pr l -> Forall Pr (qsort l).
Proof. intros H. rewrite Forall_forall in *. intros x Hx. apply H. apply (Permutation.Permutation_in x (Permutation.Permutation_sym (qsort_perm l)) Hx). Qed.
Lemma quantile_zero q l : Forall (fun x => x == 0) l -> quantile q l == 0.
Proof.
  intros H. apply qsort_forall in H. unfold quantile.
  rewrite (forall_nth_default (fun x => x == 0) (qsort l) _ (Qeq_refl 0) H), (forall_nth_default (fun x => x == 0) (qsort l) (Nat.min _ _) (Qeq_refl 0) H). ring.
Qed.
Lemma zero_weights l : Forall (fun x => x == 0) l -> trimmed_mean 2 (robust_scale l) = ones (length l).
Proof.
  intros H. unfold trimmed_mean, robust_scale. rewrite map_map.
  pose proof (quantile_zero (1 # 2) l H) as C. pose proof (quantile_zero (3 # 4) l H) as U. pose proof (quantile_zero (1 # 4) l H) as L.
  set (c := quantile (1 # 2) l) in *. set (u := quantile (3 # 4) l) in *. set (d := quantile (1 # 4) l) in *. clearbody c u d.
  assert (S : Qeq_bool (u - d) 0 = true) by (apply Qeq_bool_iff; lra). rewrite S.
  unfold ones. induction H as [|x l Hx H IH]; [reflexivity|]. cbn [map length repeat]. rewrite IH. f_equal.
  assert (K : Qle_bool ((x - c) / 1) 2 = true). { apply Qle_bool_iff. setoid_replace ((x - c) / 1) with (x - c) by field. lra. }
  rewrite K. reflexivity.
Qed.

(** ** exact data *)
Lemma exact_pass wfit P b n : weighted_least_squares wfit -> P <> [] -> (forall row, In row P -> length row = n) -> length b = length P ->
  (exists y, length y = n /\ real_system P y b) ->
  exists c, wls_pass wfit P b (ones (length b)) = Ok (c, ones (length b)) /\ length c = n /\ real_system P c b.
Proof.
  intros W HP Hn Hb (y & Ly & Hy).
  assert (Lw : length (ones (length b)) = length P) by (unfold ones; rewrite repeat_length; exact Hb).
  destruct (W (ones (length b)) P b n HP Hn Hb Lw) as (c & E & Lc & Hc).
  { intros x Hx. apply repeat_spec in Hx. subst x. lra. }
  assert (Hs : real_system P c b).
  { apply (ones_system (length b)); [congruence|reflexivity|]. apply Hc. exists y. split; [exact Ly|]. apply ones_system; [congruence|reflexivity|exact Hy]. }
  exists c. split; [|split; assumption]. unfold wls_pass. rewrite E. cbn [bind]. fold (resids P b c).
  rewrite zero_weights; [rewrite resids_length by exact Hb; reflexivity|].
  apply Forall_forall. intros x Hx. unfold resids in Hx. apply in_map_iff in Hx. destruct Hx as (p & <- & Hp). destruct (in_combine_nth _ _ _ Hp) as (i & Hi & Hj).
  unfold predict in Hj. destruct (nth_error P i) as [row|] eqn:R.
  - rewrite (map_nth_error _ _ _ R), row_dot_dot in Hj.
    assert (D : dot row c == fst p).
    { clear -Hs Hi R. revert i Hi R. induction Hs as [|r z P b E H IH]; intros [|i] Hi R; cbn in *; try discriminate; [assert (r = row /\ z = fst p) as (-> & <-) by (split; congruence); exact E|exact (IH i Hi R)]. }
    assert (snd p = dot row c) as -> by congruence. rewrite D. setoid_replace (fst p - fst p) with 0 by ring. reflexivity.
  - apply nth_error_None in R. assert (nth_error (map (fun row => row_dot row c) P) i = None) by (apply nth_error_None; rewrite map_length; exact R). congruence.
Qed.
Lemma exact_loop wfit P b n k c0 : weighted_least_squares wfit -> P <> [] -> (forall row, In row P -> length row = n) -> length b = length P ->
  (exists y, length y = n /\ real_system P y b) -> (length c0 = n /\ real_system P c0 b) ->
  exists c, wls_loop wfit k P b (ones (length b)) (Some c0) = Ok (c, ones (length b)) /\ length c = n /\ real_system P c b.
Proof.
  intros W HP Hn Hb Hy. revert c0. induction k as [|k IH]; intros c0 Hc0; cbn [wls_loop].
  - exists c0. split; [reflexivity|exact Hc0].
  - destruct (exact_pass wfit P b n W HP Hn Hb Hy) as (c & E & Lc & Hc). rewrite E. cbn [bind]. apply IH. split; assumption.
Qed.
(** the fit succeeds *)
Lemma pass_total wfit P b n w : weighted_least_squares wfit -> P <> [] -> (forall row, In row P -> length row = n) -> length b = length P ->
  length w = length P -> (forall x, In x w -> 0 <= x) ->
  exists c w', wls_pass wfit P b w = Ok (c, w') /\ length c = n /\ length w' = length P /\ (forall x, In x w' -> x = 0 \/ x = 1).
Proof.
  intros W HP Hn Hb Lw Hw. destruct (W w P b n HP Hn Hb Lw Hw) as (c & E & Lc & _). unfold wls_pass. rewrite E. cbn [bind]. fold (resids P b c).
  exists c. eexists. split; [reflexivity|]. split; [exact Lc|]. unfold trimmed_mean, robust_scale. split; [rewrite !map_length, resids_length by exact Hb; exact Hb|].
  intros x Hx. apply in_map_iff in Hx. destruct Hx as (z & <- & _). destruct (Qle_bool z 2); [right|left]; reflexivity.
Qed.
Lemma loop_total wfit P b n k : weighted_least_squares wfit -> P <> [] -> (forall row, In row P -> length row = n) -> length b = length P ->
  forall w c0, length w = length P -> (forall x, In x w -> 0 <= x) -> length c0 = n ->
  exists c w', wls_loop wfit k P b w (Some c0) = Ok (c, w') /\ length c = n.
Proof.
  intros W HP Hn Hb. induction k as [|k IH]; intros w c0 Lw Hw Lc; cbn [wls_loop]; [exists c0, w; split; [reflexivity|exact Lc]|].
  destruct (pass_total wfit P b n w W HP Hn Hb Lw Hw) as (c & w' & E & Lc' & Lw' & H01). rewrite E. cbn [bind]. apply IH; [exact Lw'| |exact Lc'].
  intros x Hx. destruct (H01 x Hx) as [->| ->]; lra.
Qed.
Lemma c77_least_squares wfit n_iter : weighted_least_squares wfit -> (1 <= n_iter)%nat -> least_squares (wls_coef wfit n_iter).
Proof.
  intros W Hk P b n HP Hn Hb. destruct n_iter as [|k]; [lia|].
  assert (Lw : length (ones (length b)) = length P) by (unfold ones; rewrite repeat_length; exact Hb).
  assert (Hw : forall x, In x (ones (length b)) -> 0 <= x) by (intros x Hx; apply repeat_spec in Hx; subst x; lra).
  destruct (pass_total wfit P b n _ W HP Hn Hb Lw Hw) as (c & w' & E & Lc & Lw' & H01).
  destruct (loop_total wfit P b n k W HP Hn Hb w' c Lw' ltac:(intros x Hx; destruct (H01 x Hx) as [->| ->]; lra) Lc) as (c2 & w2 & E2 & Lc2).
  unfold wls_coef. fold (ones (length b)). cbn [wls_loop]. rewrite E. cbn [bind]. rewrite E2. cbn [bind]. exists c2. split; [reflexivity|]. split; [exact Lc2|].
  intros Hy. destruct (exact_pass wfit P b n W HP Hn Hb Hy) as (c3 & E3 & Lc3 & Hc3). rewrite E in E3. assert (c = c3 /\ w' = ones (length b)) as (-> & ->) by (split; congruence).
  destruct (exact_loop wfit P b n k c3 W HP Hn Hb Hy (conj Lc3 Hc3)) as (c4 & E4 & _ & Hc4). rewrite E2 in E4. assert (c2 = c4) as -> by congruence. exact Hc4.
Qed.
Lemma c77_zero wfit P b : wls_coef wfit 0 P b = Err AttributeError.
Proof. reflexivity. Qed.

(** ** the weights: the coefficients are the fit to more than three quarters of the equations *)
Lemma ones_kept n : kept (ones n) = n.
Proof. unfold kept, ones. induction n as [|n IH]; [reflexivity|]. cbn [repeat filter]. change (Qeq_bool 1 1) with true. cbn [length]. rewrite IH. reflexivity. Qed.
Lemma ones_subset n : subset_weights (ones n) n.
Proof.
  split; [apply repeat_length|]. split; [intros x Hx; apply repeat_spec in Hx; right; exact Hx|]. rewrite ones_kept. lia.
Qed.
Lemma trimmed_subset r n : length r = n -> subset_weights (trimmed_mean 2 (robust_scale r)) n.
Proof.
  intros L. split; [unfold trimmed_mean, robust_scale; rewrite !map_length; exact L|]. split.
  - intros x Hx. unfold trimmed_mean in Hx. apply in_map_iff in Hx. destruct Hx as (z & <- & _). destruct (Qle_bool z 2); [right|left]; reflexivity.
  - destruct n as [|n].
    + destruct r; [|discriminate]. cbn. lia.
    + rewrite <- L. apply kept_count. lia.
Qed.
Lemma scale_pos r : (1 <= length r)%nat -> 0 < (if Qeq_bool (quantile (3 # 4) r - quantile (1 # 4) r) 0 then 1 else quantile (3 # 4) r - quantile (1 # 4) r).
Proof.
  intros Hl. pose proof (quantile_mono (1 # 4) (3 # 4) r ltac:(lra) ltac:(lra) ltac:(lra) Hl) as M.
  destruct (Qeq_bool (quantile (3 # 4) r - quantile (1 # 4) r) 0) eqn:E; [lra|]. apply Qeq_bool_neq in E.
  destruct (Qlt_le_dec 0 (quantile (3 # 4) r - quantile (1 # 4) r)); [assumption|]. exfalso. apply E. lra.
Qed.
(** the equations left out have larger residuals than those kept *)
Lemma trimmed_largest r i j x y : nth_error r i = Some x -> nth_error r j = Some y ->
  nth_error (trimmed_mean 2 (robust_scale r)) i = Some 1 -> nth_error (trimmed_mean 2 (robust_scale r)) j = Some 0 -> x < y.
Proof.
  intros Hx Hy Wi Wj. assert (Hl : (1 <= length r)%nat) by (destruct r; [destruct i; discriminate|cbn; lia]). pose proof (scale_pos r Hl) as S.
  unfold trimmed_mean, robust_scale in Wi, Wj. rewrite map_map in Wi, Wj. rewrite (map_nth_error _ _ _ Hx) in Wi. rewrite (map_nth_error _ _ _ Hy) in Wj.
  set (s := if Qeq_bool _ _ then _ else _) in *. clearbody s.
  destruct (Qle_bool ((x - quantile (1 # 2) r) / s) 2) eqn:A; [|discriminate]. destruct (Qle_bool ((y - quantile (1 # 2) r) / s) 2) eqn:B; [discriminate|].
  apply Qle_bool_iff in A. assert (B' : 2 < (y - quantile (1 # 2) r) / s) by (destruct (Qlt_le_dec 2 ((y - quantile (1 # 2) r) / s)) as [K|K]; [exact K|apply Qle_bool_iff in K; congruence]).
  destruct (Qlt_le_dec x y) as [K|K]; [exact K|]. exfalso.
  assert (C : (y - quantile (1 # 2) r) / s <= (x - quantile (1 # 2) r) / s).
  { unfold Qdiv. apply Qmult_le_compat_r; [lra|apply Qlt_le_weak, Qinv_lt_0_compat, S]. }
  lra.
Qed.
Lemma trimmed_drops P b c : length b = length P -> drops_largest P b c (trimmed_mean 2 (robust_scale (resids P b c))).
Proof.
  intros Hb i j ri rj yi yj Hri Hrj Hyi Hyj Wi Wj. eapply trimmed_largest; [| |exact Wi|exact Wj]; apply resids_nth; assumption.
Qed.
Definition last_pass (P : list (list Q)) (b w : list Q) : Prop := w = ones (length P) \/ exists c0, drops_largest P b c0 w.
Lemma loop_weights wfit P b k : length b = length P -> forall w c0 c w',
  subset_weights w (length P) -> last_pass P b w -> wls_loop wfit k P b w c0 = Ok (c, w') ->
  (k = O /\ c0 = Some c) \/ (exists wf, subset_weights wf (length P) /\ last_pass P b wf /\ wfit wf P b = Ok c).
Proof.
  intros Hb. induction k as [|k IH]; intros w c0 c w' Hw Hl E; cbn [wls_loop] in E.
  - left. split; [reflexivity|]. destruct c0; [congruence|discriminate].
  - right. unfold wls_pass in E. destruct (wfit w P b) as [c1|] eqn:F; [|discriminate]. cbn [bind] in E. fold (resids P b c1) in E.
    apply IH in E; [|apply trimmed_subset; rewrite resids_length by exact Hb; exact Hb|right; exists c1; apply trimmed_drops, Hb].
    destruct E as [[-> E]|E]; [|exact E].
    exists w. split; [exact Hw|]. split; [exact Hl|]. rewrite F. congruence.
Qed.
Lemma c77_subset wfit n_iter P b c : length b = length P -> wls_coef wfit n_iter P b = Ok c ->
  exists w, subset_weights w (length P) /\ wfit w P b = Ok c /\ (w = repeat 1 (length P) \/ exists c0, drops_largest P b c0 w).
Proof.
  intros Hb E. unfold wls_coef in E. fold (ones (length b)) in E. destruct (wls_loop wfit n_iter P b (ones (length b)) None) as [[c1 w1]|] eqn:L; [|discriminate].
  cbn [bind] in E. assert (c1 = c) as -> by congruence. apply loop_weights in L; [|exact Hb|rewrite Hb; apply ones_subset|left; rewrite Hb; reflexivity].
  destruct L as [[_ K]|(w & H1 & H2 & H3)]; [discriminate|]. exists w. split; [exact H1|]. split; [exact H3|exact H2].
Qed.

(** ** elimination meets the contracts *)
Lemma ncols_ok P n : (forall row, In row P -> length row = n) -> P <> [] -> ncols P = n.
Proof. destruct P; [congruence|]. intros H _. apply H. left. reflexivity. Qed.

(** ** scaling *)
Lemma times_c_length c a b : times_c c a b -> length a = length b.
Proof. induction 1; cbn; congruence. Qed.
Lemma times_c_nth c a b i : times_c c a b -> nth i b 0 == c * nth i a 0.
Proof. intros H. revert i. induction H as [|x y a b E H IH]; intros [|i]; cbn; [lra|lra|exact E|apply IH]. Qed.
Lemma qle_scale c x y x' y' : 0 < c -> x' == c * x -> y' == c * y -> Qle_bool x' y' = Qle_bool x y.
Proof.
  intros Hc Hx Hy. destruct (Qle_bool x y) eqn:E.
  - apply Qle_bool_iff in E. apply Qle_bool_iff. rewrite Hx, Hy. nra.
  - destruct (Qle_bool x' y') eqn:F; [|reflexivity]. exfalso. apply Qle_bool_iff in F. rewrite Hx, Hy in F.
    assert (x <= y) by (apply (Qmult_lt_0_le_reg_r _ _ c Hc); lra). apply Qle_bool_iff in H. congruence.
Qed.
Lemma insert_scale c x x' l l' : 0 < c -> x' == c * x -> times_c c l l' -> times_c c (insert_sorted x l) (insert_sorted x' l').
Proof.
  intros Hc Hx H. induction H as [|y y' l l' E H IH]; cbn [insert_sorted]; [constructor; [exact Hx|constructor]|].
  rewrite (qle_scale c x y x' y' Hc Hx E). destruct (Qle_bool x y); constructor; try assumption. constructor; assumption.
Qed.
Lemma qsort_scale c l l' : 0 < c -> times_c c l l' -> times_c c (qsort l) (qsort l').
Proof. intros Hc H. unfold qsort. induction H as [|y y' l l' E H IH]; cbn [fold_right]; [constructor|]. apply insert_scale; assumption. Qed.
Lemma quantile_scale c q l l' : 0 < c -> times_c c l l' -> quantile q l' == c * quantile q l.
Proof.
  intros Hc H. pose proof (qsort_scale c l l' Hc H) as S. unfold quantile. rewrite <- (times_c_length _ _ _ H).
  rewrite (times_c_nth c _ _ _ S), (times_c_nth c _ _ (Nat.min _ _) S). ring.
Qed.
Definition spread (r : list Q) : Q := quantile (3 # 4) r - quantile (1 # 4) r.
Lemma weights_scale c r r' : 0 < c -> times_c c r r' -> (c == 1 \/ ~ spread r == 0) -> trimmed_mean 2 (robust_scale r') = trimmed_mean 2 (robust_scale r).
Proof.
  intros Hc H Hs. unfold trimmed_mean, robust_scale. rewrite !map_map.
  pose proof (quantile_scale c (1 # 2) r r' Hc H) as M. pose proof (quantile_scale c (3 # 4) r r' Hc H) as U. pose proof (quantile_scale c (1 # 4) r r' Hc H) as L.
  unfold spread in Hs. set (m := quantile (1 # 2) r) in *. set (u := quantile (3 # 4) r) in *. set (d := quantile (1 # 4) r) in *.
  set (m' := quantile (1 # 2) r') in *. set (u' := quantile (3 # 4) r') in *. set (d' := quantile (1 # 4) r') in *. clearbody m u d m' u' d'.
  assert (Z : Qeq_bool (u' - d') 0 = Qeq_bool (u - d) 0).
  { destruct (Qeq_bool (u - d) 0) eqn:E.
    - apply Qeq_bool_iff in E. apply Qeq_bool_iff. rewrite U, L. setoid_replace (c * u - c * d) with (c * (u - d)) by ring. rewrite E. ring.
    - destruct (Qeq_bool (u' - d') 0) eqn:F; [|reflexivity]. exfalso. apply Qeq_bool_neq in E. apply Qeq_bool_iff in F. apply E.
      rewrite U, L in F. setoid_replace (c * u - c * d) with (c * (u - d)) in F by ring. destruct (Qmult_integral _ _ F) as [K|K]; [lra|exact K]. }
  rewrite Z. destruct (Qeq_bool (u - d) 0) eqn:E.
  - apply Qeq_bool_iff in E. destruct Hs as [Hs|Hs]; [|contradiction]. induction H as [|x x' r r' Ex H IH]; [reflexivity|]. cbn [map]. rewrite IH. f_equal.
    assert (K : (x' - m') / 1 == (x - m) / 1) by (rewrite Ex, M, Hs; field). rewrite K. reflexivity.
  - apply Qeq_bool_neq in E. induction H as [|x x' r r' Ex H IH]; [reflexivity|]. cbn [map]. rewrite IH. f_equal.
    assert (K : (x' - m') / (u' - d') == (x - m) / (u - d)).
    { rewrite Ex, M, U, L. field. split; [exact E|]. intros X. apply E. setoid_replace (c * u - c * d) with (c * (u - d)) in X by ring. destruct (Qmult_integral _ _ X) as [Y|Y]; [lra|exact Y]. }
    rewrite K. reflexivity.
Qed.
Lemma dot_scale c row x x' : times_c c x x' -> dot row x' == c * dot row x.
Proof. intros H. revert row. induction H as [|y y' x x' E H IH]; intros [|a row]; cbn [dot]; try lra. rewrite IH, E. ring. Qed.
Lemma resids_scale c P b b' x x' : 0 < c -> times_c c b b' -> times_c c x x' -> times_c c (resids P b x) (resids P b' x').
Proof.
  intros Hc Hb Hx. unfold resids, predict. revert P. induction Hb as [|y y' b b' E Hb IH]; intros [|row P]; cbn [map combine]; [constructor|constructor|constructor|].
  constructor; [|apply IH]. cbn [fst snd]. rewrite !row_dot_dot, (dot_scale c row x x' Hx), E. setoid_replace (c * y - c * dot row x) with (c * (y - dot row x)) by ring.
  rewrite Qabs_Qmult, (Qabs_pos c) by lra. reflexivity.
Qed.
Lemma loop_scale wfit c P b b' k : equivariant wfit -> 0 < c -> times_c c b b' ->
  forall w x0 x0' x wl, 
    (forall i w' x', (S i < k)%nat -> wls_weights wfit i P b w = Ok w' -> wfit w' P b = Ok x' -> ~ spread (resids P b x') == 0) ->
    (k <> O \/ (exists y y', x0 = Some y /\ x0' = Some y' /\ times_c c y y')) ->
    wls_loop wfit k P b w x0 = Ok (x, wl) -> exists x' wl', wls_loop wfit k P b' w x0' = Ok (x', wl') /\ times_c c x x'.
Proof.
  intros Eq Hc Hb. induction k as [|k IH]; intros w x0 x0' x wl Hs H0 E; cbn [wls_loop] in *.
  - destruct H0 as [H0|(y & y' & -> & -> & H0)]; [congruence|]. exists y', w. split; [reflexivity|]. assert (y = x) as <- by congruence. exact H0.
  - unfold wls_pass in *. destruct (wfit w P b) as [x1|] eqn:F; [|discriminate]. cbn [bind] in E.
    destruct (Eq c w P b b' x1 Hc Hb F) as (x1' & F' & T). rewrite F'. cbn [bind]. fold (resids P b x1) in E. fold (resids P b' x1').
    destruct k as [|k].
    + cbn [wls_loop] in *. exists x1'. eexists. split; [reflexivity|]. assert (x1 = x) as <- by congruence. exact T.
    + assert (W : trimmed_mean 2 (robust_scale (resids P b' x1')) = trimmed_mean 2 (robust_scale (resids P b x1))).
      { apply (weights_scale c); [exact Hc|apply resids_scale; assumption|]. right. apply (Hs O w x1); [lia|reflexivity|exact F]. }
      rewrite W. eapply IH; [| |exact E].
      * intros i w' x' Hi Hw Hx'. apply (Hs (S i) w' x'); [lia| |exact Hx']. cbn [wls_weights]. unfold wls_pass. rewrite F. cbn [bind]. exact Hw.
      * left. discriminate.
Qed.
Lemma resids_spec P b x : map (fun xy : Q * Q => Qabs (snd xy - fst xy)) (combine (map (fun row => dot row x) P) b) = resids P b x.
Proof.
  unfold resids, predict. revert b. induction P as [|row P IH]; intros [|y b]; cbn [map combine]; try reflexivity. cbn [fst snd]. rewrite IH. reflexivity.
Qed.
Lemma c78_scale wfit c P b b' n_iter x : equivariant wfit -> 0 < c -> times_c c b b' ->
  (forall i r, (S i < n_iter)%nat -> pass_of wfit P b i r -> ~ quantile (3 # 4) r == quantile (1 # 4) r) ->
  wls_coef wfit n_iter P b = Ok x -> exists x', wls_coef wfit n_iter P b' = Ok x' /\ times_c c x x'.
Proof.
  intros Eq Hc Hb Hs E. unfold wls_coef in *. rewrite <- (times_c_length _ _ _ Hb).
  destruct (wls_loop wfit n_iter P b (repeat 1 (length b)) None) as [[x1 w1]|] eqn:L; [|discriminate]. cbn [bind] in E. assert (x1 = x) as -> by congruence.
  destruct n_iter as [|n]; [discriminate|].
  destruct (loop_scale wfit c P b b' (S n) Eq Hc Hb (repeat 1 (length b)) None None x w1) as (x' & w' & E' & T); [| |exact L|].
  - intros i w' x' Hi Hw Hx K. apply (Hs i (resids P b x') Hi).
    + exists w', x'. split; [exact Hw|]. split; [exact Hx|]. symmetry. apply resids_spec.
    + unfold spread in K. lra.
  - left. discriminate.
  - rewrite E'. cbn [bind]. exists x'. split; [reflexivity|exact T].
Qed.
