(** Sorting, quantiles and the iterations of the weighted solver. *)
From Coq Require Import String Permutation Sorted.
From Verif Require Import Base.Prelude Base.ListUtil Base.Cplx Model.Time Model.Regression Model.Solvers Spec.Regression Spec.Solvers.
From Verif Require Import Proofs.TimeMeta.
Open Scope list_scope. Open Scope Q_scope.

(** ** sorting *)
Lemma insert_length x l : length (insert_sorted x l) = S (length l).
Proof. induction l as [|y l IH]; cbn; [reflexivity|]. destruct (Qle_bool x y); cbn; [reflexivity|]. rewrite IH. reflexivity. Qed.
Lemma qsort_length l : length (qsort l) = length l.
Proof. unfold qsort. induction l as [|x l IH]; cbn [fold_right length]; [reflexivity|]. rewrite insert_length, IH. reflexivity. Qed.
Lemma insert_perm x l : Permutation (x :: l) (insert_sorted x l).
Proof.
  induction l as [|y l IH]; cbn; [apply Permutation_refl|]. destruct (Qle_bool x y); [apply Permutation_refl|].
  eapply perm_trans; [apply perm_swap|]. apply perm_skip. exact IH.
Qed.
Lemma qsort_perm l : Permutation l (qsort l).
Proof. unfold qsort. induction l as [|x l IH]; cbn [fold_right]; [apply perm_nil|]. eapply perm_trans; [apply perm_skip, IH|apply insert_perm]. Qed.
Lemma insert_sorted_ok x l : StronglySorted Qle l -> StronglySorted Qle (insert_sorted x l).
Proof.
  induction l as [|y l IH]; intros H; cbn; [constructor; constructor|]. destruct (Qle_bool x y) eqn:E.
  - apply Qle_bool_iff in E. constructor; [exact H|]. constructor; [exact E|]. inversion H as [|? ? H1 H2]; subst.
    eapply Forall_impl; [|exact H2]. intros z Hz. cbn in Hz. lra.
  - assert (E' : y <= x) by (destruct (Qlt_le_dec y x) as [K|K]; [lra|apply Qle_bool_iff in K; congruence]).
    inversion H as [|? ? H1 H2]; subst. constructor; [apply IH, H1|].
    apply Forall_forall. intros z Hz. apply (Permutation_in z (Permutation_sym (insert_perm x l))) in Hz. destruct Hz as [<-|Hz]; [exact E'|].
    rewrite Forall_forall in H2. apply H2, Hz.
Qed.
Lemma qsort_sorted l : StronglySorted Qle (qsort l).
Proof. unfold qsort. induction l as [|x l IH]; cbn [fold_right]; [constructor|]. apply insert_sorted_ok, IH. Qed.
Lemma sorted_nth l : StronglySorted Qle l -> forall i j, (i <= j)%nat -> (j < length l)%nat -> nth i l 0 <= nth j l 0.
Proof.
  induction l as [|x l IH]; intros H i j Hij Hj; cbn in Hj; [lia|]. inversion H as [|? ? H1 H2]; subst. destruct i, j; cbn [nth]; try lia; try lra.
  - rewrite Forall_forall in H2. apply H2. apply nth_In. lia.
  - apply IH; [exact H1|lia|lia].
Qed.

(** ** quantiles *)
Definition qpos (q : Q) (l : list Q) : Q := q * inject_Z (Z.of_nat (length l) - 1).
Lemma pos_bounds q l : 0 <= q -> q <= 1 -> (1 <= length l)%nat -> let p := qpos q l in
  0 <= p /\ (0 <= qfloor p)%Z /\ (Z.to_nat (qfloor p) <= length l - 1)%nat /\
  inject_Z (Z.of_nat (Z.to_nat (qfloor p))) <= p /\ p < inject_Z (Z.of_nat (Z.to_nat (qfloor p))) + 1.
Proof.
  intros H0 H1 Hl p. assert (Hn : 0 <= inject_Z (Z.of_nat (length l) - 1)) by (change 0 with (inject_Z 0); rewrite <- Zle_Qle; lia).
  assert (Hp : 0 <= p) by (unfold p, qpos; nra).
  assert (Hu : p <= inject_Z (Z.of_nat (length l) - 1)) by (unfold p, qpos; nra).
  destruct (qfloor_spec p) as [F1 F2].
  assert (F0 : (0 <= qfloor p)%Z). { assert (inject_Z (-1) < inject_Z (qfloor p)). { change (inject_Z (-1)) with (-(1)). lra. } rewrite <- Zlt_Qlt in H. lia. }
  assert (F3 : (qfloor p <= Z.of_nat (length l) - 1)%Z). { rewrite Zle_Qle. lra. }
  split; [exact Hp|]. split; [exact F0|]. split; [lia|]. rewrite Z2Nat.id by exact F0. split; lra.
Qed.
(** between the value of the lower rank and that of the next *)
Lemma quantile_between q l : 0 <= q -> q <= 1 -> (1 <= length l)%nat ->
  let lo := Z.to_nat (qfloor (qpos q l)) in
  nth lo (qsort l) 0 <= quantile q l /\ quantile q l <= nth (Nat.min (S lo) (length l - 1)) (qsort l) 0.
Proof.
  intros H0 H1 Hl lo. destruct (pos_bounds q l H0 H1 Hl) as (P1 & P2 & P3 & P4 & P5). fold lo in P3, P4, P5.
  unfold quantile. fold (qpos q l). fold lo.
  assert (M : nth lo (qsort l) 0 <= nth (Nat.min (S lo) (length l - 1)) (qsort l) 0).
  { apply sorted_nth; [apply qsort_sorted|lia|rewrite qsort_length; lia]. }
  set (a := nth lo (qsort l) 0) in *. set (b := nth (Nat.min (S lo) (length l - 1)) (qsort l) 0) in *.
  set (f := qpos q l - inject_Z (Z.of_nat lo)). assert (0 <= f <= 1) by (unfold f; lra). split; nra.
Qed.
Lemma quantile_mono q1 q2 l : 0 <= q1 -> q1 <= q2 -> q2 <= 1 -> (1 <= length l)%nat -> quantile q1 l <= quantile q2 l.
Proof.
  intros H0 H12 H1 Hl.
  destruct (quantile_between q1 l H0 ltac:(lra) Hl) as [_ U1]. destruct (quantile_between q2 l ltac:(lra) H1 Hl) as [L2 _].
  destruct (pos_bounds q1 l H0 ltac:(lra) Hl) as (A1 & A2 & A3 & A4 & A5). destruct (pos_bounds q2 l ltac:(lra) H1 Hl) as (B1 & B2 & B3 & B4 & B5).
  set (lo1 := Z.to_nat (qfloor (qpos q1 l))) in *. set (lo2 := Z.to_nat (qfloor (qpos q2 l))) in *.
  assert (Hn : 0 <= inject_Z (Z.of_nat (length l) - 1)) by (change 0 with (inject_Z 0); rewrite <- Zle_Qle; lia).
  assert (Hp : qpos q1 l <= qpos q2 l) by (unfold qpos; nra).
  assert (Hlo : (lo1 <= lo2)%nat).
  { assert (inject_Z (Z.of_nat lo1) < inject_Z (Z.of_nat lo2 + 1)) by (rewrite inject_Z_plus; change (inject_Z 1) with 1; lra). rewrite <- Zlt_Qlt in H. lia. }
  destruct (Nat.eq_dec lo1 lo2) as [E|E].
  - unfold quantile. fold (qpos q1 l) (qpos q2 l). fold lo1 lo2. rewrite <- E.
    assert (M : nth lo1 (qsort l) 0 <= nth (Nat.min (S lo1) (length l - 1)) (qsort l) 0).
    { apply sorted_nth; [apply qsort_sorted|lia|rewrite qsort_length; lia]. }
    nra.
  - assert (M : nth (Nat.min (S lo1) (length l - 1)) (qsort l) 0 <= nth lo2 (qsort l) 0).
    { apply sorted_nth; [apply qsort_sorted|lia|rewrite qsort_length; lia]. }
    lra.
Qed.

(** ** counting *)
Lemma filter_perm_length {A} (f : A -> bool) a b : Permutation a b -> length (filter f a) = length (filter f b).
Proof.
  induction 1; cbn; try reflexivity; try congruence.
  - destruct (f x); cbn; congruence.
  - destruct (f x), (f y); reflexivity.
Qed.
Lemma filter_prefix {A} (f : A -> bool) l k : (k <= length l)%nat -> (forall i x, (i < k)%nat -> nth_error l i = Some x -> f x = true) ->
  (k <= length (filter f l))%nat.
Proof.
  revert k. induction l as [|x l IH]; intros k Hk H; cbn in *; [lia|]. destruct k as [|k]; [lia|].
  rewrite (H O x ltac:(lia) eq_refl). cbn. assert (k <= length (filter f l))%nat; [|lia]. apply IH; [lia|]. intros i y Hi Hy. apply (H (S i)); [lia|exact Hy].
Qed.
Lemma filter_map_length {A B} (f : B -> bool) (g : A -> B) l : length (filter f (map g l)) = length (filter (fun x => f (g x)) l).
Proof. induction l as [|x l IH]; cbn; [reflexivity|]. destruct (f (g x)); cbn; congruence. Qed.
Lemma filter_le_length {A} (f g : A -> bool) l : (forall x, In x l -> f x = true -> g x = true) -> (length (filter f l) <= length (filter g l))%nat.
Proof.
  induction l as [|x l IH]; intros H; cbn; [lia|]. assert (IH' : (length (filter f l) <= length (filter g l))%nat) by (apply IH; intros y Hy; apply H; right; exact Hy).
  destruct (f x) eqn:E; [rewrite (H x (or_introl eq_refl) E); cbn; lia|]. destruct (g x); cbn; lia.
Qed.

(** everything up to the third quartile is kept *)
Lemma scaled_small r x : (1 <= length r)%nat -> x <= quantile (3 # 4) r ->
  (x - quantile (1 # 2) r) / (if Qeq_bool (quantile (3 # 4) r - quantile (1 # 4) r) 0 then 1 else quantile (3 # 4) r - quantile (1 # 4) r) <= 2.
Proof.
  intros Hl Hx. pose proof (quantile_mono (1 # 4) (1 # 2) r ltac:(lra) ltac:(lra) ltac:(lra) Hl) as M1.
  pose proof (quantile_mono (1 # 2) (3 # 4) r ltac:(lra) ltac:(lra) ltac:(lra) Hl) as M2.
  set (a := quantile (1 # 4) r) in *. set (m := quantile (1 # 2) r) in *. set (b := quantile (3 # 4) r) in *.
  destruct (Qeq_bool (b - a) 0) eqn:E.
  - apply Qeq_bool_iff in E. setoid_replace ((x - m) / 1) with (x - m) by field. lra.
  - apply Qeq_bool_neq in E. assert (0 < b - a) by (destruct (Qlt_le_dec 0 (b - a)); [assumption|exfalso; apply E; lra]).
    apply Qle_shift_div_r; [exact H|]. lra.
Qed.
Lemma kept_count r : (1 <= length r)%nat -> (3 * (Z.of_nat (length r) - 1) < 4 * Z.of_nat (kept (trimmed_mean 2 (robust_scale r))))%Z.
Proof.
  intros Hl. unfold kept, trimmed_mean, robust_scale. rewrite map_map, filter_map_length.
  set (k := S (Z.to_nat (qfloor (qpos (3 # 4) r)))).
  destruct (pos_bounds (3 # 4) r ltac:(lra) ltac:(lra) Hl) as (P1 & P2 & P3 & P4 & P5).
  assert (Kk : (k <= length (filter (fun x => Qle_bool x (quantile (3 # 4) r)) r))%nat).
  { rewrite (filter_perm_length _ _ _ (qsort_perm r)). apply filter_prefix; [rewrite qsort_length; unfold k; lia|].
    intros i x Hi Hx. apply Qle_bool_iff. destruct (quantile_between (3 # 4) r ltac:(lra) ltac:(lra) Hl) as [L _].
    eapply Qle_trans; [|exact L]. apply (nth_error_nth _ _ 0) in Hx. rewrite <- Hx. apply sorted_nth; [apply qsort_sorted|unfold k in Hi; lia|rewrite qsort_length; lia]. }
  assert (Kf : (length (filter (fun x => Qle_bool x (quantile (3 # 4) r)) r) <=
     length (filter (fun x => Qeq_bool (if Qle_bool ((x - quantile (1 # 2) r) / (if Qeq_bool (quantile (3 # 4) r - quantile (1 # 4) r) 0 then 1 else quantile (3 # 4) r - quantile (1 # 4) r)) 2 then 1 else 0) 1) r))%nat).
  { apply filter_le_length. intros x _ Hx. apply Qle_bool_iff in Hx. pose proof (scaled_small r x Hl Hx) as S. apply Qle_bool_iff in S. rewrite S. reflexivity. }
  match goal with |- (_ < 4 * Z.of_nat ?F)%Z => assert (Kg : (k <= F)%nat) by (eapply Nat.le_trans; [exact Kk|exact Kf]); set (F0 := F) in * end.
  clearbody F0.
  assert (B : (3 * (Z.of_nat (length r) - 1) < 4 * (qfloor (qpos (3 # 4) r) + 1))%Z).
  { rewrite Zlt_Qlt, !inject_Z_mult, (inject_Z_plus (qfloor _)). unfold qpos in *. rewrite Z2Nat.id in P5 by exact P2. change (inject_Z 3) with 3. change (inject_Z 4) with 4. change (inject_Z 1) with 1. lra. }
  unfold k in Kg. lia.
Qed.
