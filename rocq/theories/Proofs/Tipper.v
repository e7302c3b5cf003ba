(** C84: length and angles of the tipper. *)
From Coq Require Import String Reals List.
From Verif Require Import Base.Prelude Base.ListUtil Base.FileSys Model.Tipper Spec.Tipper.
From Coq Require Import Lra Lia Psatz.
Import ListNotations.
Open Scope list_scope.
Open Scope R_scope.

Lemma radians_of x : radians (x * 180 / PI) = x.
Proof. unfold radians. field. apply PI_neq0. Qed.

Lemma sqrt_sum a b : 0 <= a ^ 2 + b ^ 2.
Proof. pose proof (pow2_ge_0 a). pose proof (pow2_ge_0 b). lra. Qed.
Lemma len_sq a b : sqrt (a ^ 2 + b ^ 2) * sqrt (a ^ 2 + b ^ 2) = a ^ 2 + b ^ 2.
Proof. apply sqrt_sqrt, sqrt_sum. Qed.
Lemma len_nonneg a b : 0 <= sqrt (a ^ 2 + b ^ 2).
Proof. apply sqrt_pos. Qed.

(** cosine and sine of arctangents *)
Lemma cos_atan_pos x : 0 < cos (atan x).
Proof. destruct (atan_bound x). apply cos_gt_0; lra. Qed.
Lemma sin_atan_eq x : sin (atan x) = x * cos (atan x).
Proof.
  pose proof (cos_atan_pos x) as P. pose proof (tan_atan x) as T. unfold tan in T.
  replace (sin (atan x)) with (sin (atan x) / cos (atan x) * cos (atan x)) by (field; lra). rewrite T. reflexivity.
Qed.

Lemma len_cos a b : a <> 0 -> sqrt (a ^ 2 + b ^ 2) * cos (atan (b / a)) = Rabs a.
Proof.
  intros N. set (c := cos (atan (b / a))). set (L := sqrt (a ^ 2 + b ^ 2)).
  pose proof (cos_atan_pos (b / a)) as P. fold c in P.
  pose proof (sin_atan_eq (b / a)) as S. fold c in S.
  pose proof (sin2_cos2 (atan (b / a))) as E. fold c in E. unfold Rsqr in E. rewrite S in E. fold c in E.
  pose proof (len_sq a b) as Q. fold L in Q. pose proof (len_nonneg a b) as PL. fold L in PL.
  assert (K : (L * c) * (L * c) = a ^ 2).
  { replace (L * c * (L * c)) with (L * L * (c * c)) by ring. rewrite Q.
    replace ((a ^ 2 + b ^ 2) * (c * c)) with (a ^ 2 * (b / a * c * (b / a * c) + c * c)) by (field; exact N). rewrite E. ring. }
  assert (0 <= L * c) by (apply Rmult_le_pos; lra).
  rewrite <- (sqrt_Rsqr (L * c)) by assumption. unfold Rsqr. rewrite K.
  replace (a ^ 2) with (Rsqr a) by (unfold Rsqr; ring). apply sqrt_Rsqr_abs.
Qed.

Lemma angle_pos a b : 0 < a -> polar (sqrt (a ^ 2 + b ^ 2)) (atan (b / a) * 180 / PI) a b.
Proof.
  intros P. pose proof (len_cos a b ltac:(lra)) as E. rewrite Rabs_pos_eq in E by lra.
  split; [apply len_nonneg|]. rewrite radians_of. split; [lra|]. rewrite sin_atan_eq.
  replace (sqrt (a ^ 2 + b ^ 2) * (b / a * cos (atan (b / a)))) with (b / a * (sqrt (a ^ 2 + b ^ 2) * cos (atan (b / a)))) by ring.
  rewrite E. field. lra.
Qed.
Lemma angle_neg a b : a < 0 -> polar (sqrt (a ^ 2 + b ^ 2)) (atan (b / a) * 180 / PI) (- a) (- b).
Proof.
  intros P. pose proof (angle_pos (- a) (- b) ltac:(lra)) as H.
  replace ((- a) ^ 2 + (- b) ^ 2) with (a ^ 2 + b ^ 2) in H by ring.
  replace (- b / - a) with (b / a) in H by (field; lra). exact H.
Qed.
Lemma half_turn : radians (PI / 2 * 180 / PI) = PI / 2.
Proof. apply radians_of. Qed.
Lemma angle_zero b : 0 < b -> polar (sqrt (0 ^ 2 + b ^ 2)) (PI / 2 * 180 / PI) 0 b.
Proof.
  intros P. replace (0 ^ 2 + b ^ 2) with (Rsqr b) by (unfold Rsqr; ring). rewrite sqrt_Rsqr by lra.
  split; [lra|]. rewrite half_turn, cos_PI2, sin_PI2. lra.
Qed.
Lemma angle_zero_neg b : b < 0 -> polar (sqrt (0 ^ 2 + b ^ 2)) (- (PI / 2) * 180 / PI) 0 b.
Proof.
  intros P. replace (0 ^ 2 + b ^ 2) with (Rsqr (- b)) by (unfold Rsqr; ring). rewrite sqrt_Rsqr by lra.
  split; [lra|]. rewrite radians_of, cos_neg, sin_neg, cos_PI2, sin_PI2. lra.
Qed.

Lemma degrees_right a b : 0 <= a -> a <> 0 \/ b <> 0 -> exists d, degrees_of_ratio a b = Some d /\ polar (sqrt (a ^ 2 + b ^ 2)) d a b.
Proof.
  intros P N. unfold degrees_of_ratio. destruct (Req_EM_T a 0) as [->|E].
  - destruct (Rlt_dec 0 b); [eexists; split; [reflexivity|]; apply angle_zero; assumption|].
    destruct (Rlt_dec b 0); [eexists; split; [reflexivity|]; apply angle_zero_neg; assumption|]. lra.
  - eexists. split; [reflexivity|]. apply angle_pos. lra.
Qed.
Lemma degrees_left a b : a < 0 -> exists d, degrees_of_ratio a b = Some d /\ polar (sqrt (a ^ 2 + b ^ 2)) d (- a) (- b).
Proof.
  intros P. unfold degrees_of_ratio. destruct (Req_EM_T a 0) as [->|E]; [lra|].
  eexists. split; [reflexivity|]. apply angle_neg. assumption.
Qed.
Lemma degrees_none a b : degrees_of_ratio a b = None <-> a = 0 /\ b = 0.
Proof.
  unfold degrees_of_ratio. destruct (Req_EM_T a 0) as [->|E].
  - destruct (Rlt_dec 0 b); [split; [discriminate|lra]|]. destruct (Rlt_dec b 0); [split; [discriminate|lra]|].
    split; [intros _; split; lra|reflexivity].
  - split; [discriminate|tauto].
Qed.
Lemma degrees_range a b d : degrees_of_ratio a b = Some d -> -90 <= d <= 90.
Proof.
  pose proof PI_RGT_0 as PP. unfold degrees_of_ratio. destruct (Req_EM_T a 0) as [->|E].
  - destruct (Rlt_dec 0 b); [|destruct (Rlt_dec b 0); [|discriminate]]; intros [= <-].
    + replace (PI / 2 * 180 / PI) with 90 by (field; lra). lra.
    + replace (- (PI / 2) * 180 / PI) with (-90) by (field; lra). lra.
  - intros [= <-]. destruct (atan_bound (b / a)) as [L U].
    replace (-90) with (- PI / 2 * 180 * / PI) by (field; lra). replace 90 with (PI / 2 * 180 * / PI) by (field; lra).
    assert (0 < / PI) by (apply Rinv_0_lt_compat; lra). unfold Rdiv at 3. nra.
Qed.
Lemma degrees_opposite a b : a <> 0 -> degrees_of_ratio (- a) (- b) = degrees_of_ratio a b.
Proof.
  intros N. unfold degrees_of_ratio. destruct (Req_EM_T (- a) 0); [lra|]. destruct (Req_EM_T a 0); [lra|].
  replace (- b / - a) with (b / a) by (field; lra). reflexivity.
Qed.

Lemma len_zero a b : sqrt (a ^ 2 + b ^ 2) = 0 <-> a = 0 /\ b = 0.
Proof.
  split.
  - intros H. apply sqrt_eq_0 in H; [|apply sqrt_sum].
    pose proof (pow2_ge_0 a). pose proof (pow2_ge_0 b).
    split; apply Rsqr_0_uniq; unfold Rsqr; lra.
  - intros [-> ->]. replace (0 ^ 2 + 0 ^ 2) with 0 by ring. apply sqrt_0.
Qed.
Lemma len_turned d x y x' y' : turned d x y x' y' -> sqrt (x' ^ 2 + y' ^ 2) = sqrt (x ^ 2 + y ^ 2).
Proof.
  intros [-> ->]. f_equal. pose proof (sin2_cos2 (radians d)) as E. unfold Rsqr in E.
  set (c := cos (radians d)) in *. set (s := sin (radians d)) in *.
  replace ((x * c + y * s) ^ 2 + (y * c - x * s) ^ 2) with ((x ^ 2 + y ^ 2) * (s * s + c * c)) by ring. rewrite E. ring.
Qed.

(** ** the arrays *)
Lemma broadcast_same {B} (f : R -> R -> B) x y : length x = length y -> broadcast f x y = Ok (map (fun p => f (fst p) (snd p)) (combine x y)).
Proof. intros E. unfold broadcast. rewrite E, Nat.eqb_refl. reflexivity. Qed.
Lemma map_combine_nth {B} (f : R -> R -> B) : forall x y i a b, nth_error x i = Some a -> nth_error y i = Some b ->
  nth_error (map (fun p => f (fst p) (snd p)) (combine x y)) i = Some (f a b).
Proof.
  induction x as [|u x IH]; intros [|v y] [|i] a b; cbn; try discriminate; [intros [= <-] [= <-]; reflexivity|apply IH].
Qed.
Lemma map_combine_len {B} (f : R -> R -> B) x y : length x = length y -> length (map (fun p => f (fst p) (snd p)) (combine x y)) = length x.
Proof. intros E. rewrite map_length, combine_length, E. apply Nat.min_id. Qed.

Section Arrays.
  Variables (cs : components) (tx ty : rcomponent).
  Hypothesis HX : component_of "HzHx" cs = Ok tx.
  Hypothesis HY : component_of "HzHy" cs = Ok ty.

  Lemma c84_length : length (c_real tx) = length (c_real ty) ->
    exists ls, get_length cs = Ok ls /\ length ls = length (c_real tx) /\
      forall i a b, nth_error (c_real tx) i = Some a -> nth_error (c_real ty) i = Some b -> nth_error ls i = Some (sqrt (a ^ 2 + b ^ 2)).
  Proof.
    intros E. unfold get_length. rewrite HX, HY. cbn [bind]. rewrite (broadcast_same _ _ _ E).
    eexists. split; [reflexivity|]. split; [apply (map_combine_len (fun a b => sqrt (a ^ 2 + b ^ 2))); exact E|]. intros. apply (map_combine_nth (fun a b => sqrt (a ^ 2 + b ^ 2))); assumption.
  Qed.
  Lemma c84_real : length (c_real tx) = length (c_real ty) ->
    exists ds, get_real_angle cs = Ok ds /\ length ds = length (c_real tx) /\
      forall i a b, nth_error (c_real tx) i = Some a -> nth_error (c_real ty) i = Some b -> nth_error ds i = Some (degrees_of_ratio a b).
  Proof.
    intros E. unfold get_real_angle. rewrite HX, HY. cbn [bind]. rewrite (broadcast_same _ _ _ E).
    eexists. split; [reflexivity|]. split; [apply map_combine_len; exact E|]. intros. apply map_combine_nth; assumption.
  Qed.
  Lemma c84_imag : length (c_imag tx) = length (c_imag ty) ->
    exists ds, get_imag_angle cs = Ok ds /\ length ds = length (c_imag tx) /\
      forall i a b, nth_error (c_imag tx) i = Some a -> nth_error (c_imag ty) i = Some b -> nth_error ds i = Some (degrees_of_ratio a b).
  Proof.
    intros E. unfold get_imag_angle. rewrite HX, HY. cbn [bind]. rewrite (broadcast_same _ _ _ E).
    eexists. split; [reflexivity|]. split; [apply map_combine_len; exact E|]. intros. apply map_combine_nth; assumption.
  Qed.
End Arrays.
Lemma c84_missing : forall cs e, component_of "HzHx" cs = Err e \/ component_of "HzHy" cs = Err e ->
  get_length cs = Err KeyError /\ get_real_angle cs = Err KeyError /\ get_imag_angle cs = Err KeyError.
Proof.
  intros cs e H. unfold get_length, get_real_angle, get_imag_angle, component_of in *.
  destruct (assoc "HzHx" cs), (assoc "HzHy" cs), H as [H|H]; try discriminate H; repeat split.
Qed.
Lemma nth_error_both {A B} (x : list A) (y : list B) i a : length x = length y -> nth_error x i = Some a -> exists b, nth_error y i = Some b.
Proof.
  intros E H. destruct (nth_error y i) eqn:K; [eauto|]. apply nth_error_None in K.
  assert (i < length x)%nat by (apply nth_error_Some; congruence). lia.
Qed.
Lemma c84_axes : forall d cs cs' tx ty tx' ty' ls ls',
  component_of "HzHx" cs = Ok tx -> component_of "HzHy" cs = Ok ty -> length (c_real tx) = length (c_real ty) ->
  component_of "HzHx" cs' = Ok tx' -> component_of "HzHy" cs' = Ok ty' -> length (c_real tx') = length (c_real ty') -> length (c_real tx) = length (c_real tx') ->
  (forall i x y x' y', nth_error (c_real tx) i = Some x -> nth_error (c_real ty) i = Some y -> nth_error (c_real tx') i = Some x' -> nth_error (c_real ty') i = Some y' ->
     turned d x y x' y') ->
  get_length cs = Ok ls -> get_length cs' = Ok ls' -> ls = ls'.
Proof.
  intros d cs cs' tx ty tx' ty' ls ls' X Y E X' Y' E' EE T L L'.
  destruct (c84_length cs tx ty X Y E) as [l [K1 [K2 K3]]]. destruct (c84_length cs' tx' ty' X' Y' E') as [l' [K1' [K2' K3']]].
  assert (l = ls) by congruence. assert (l' = ls') by congruence. subst l l'.
  apply nth_error_ext'. intros i. destruct (nth_error (c_real tx) i) as [x|] eqn:Hx.
  - destruct (nth_error_both _ _ _ _ E Hx) as [y Hy]. destruct (nth_error_both _ _ _ _ EE Hx) as [x' Hx']. destruct (nth_error_both _ _ _ _ E' Hx') as [y' Hy'].
    rewrite (K3 i x y Hx Hy), (K3' i x' y' Hx' Hy'). f_equal. symmetry. eapply len_turned. eapply T; eassumption.
  - apply nth_error_None in Hx. rewrite (proj2 (nth_error_None ls i)) by lia. symmetry. apply nth_error_None. lia.
Qed.

Lemma found key cs c : assoc key cs = Some c -> component_of key cs = Ok c.
Proof. intros H. unfold component_of. rewrite H. reflexivity. Qed.
Lemma broadcast_one {B} (f : R -> R -> B) a l : broadcast f [a] l = broadcast f (repeat a (length l)) l.
Proof.
  unfold broadcast at 2. rewrite repeat_length, Nat.eqb_refl. assert (E : map (fun b => f a b) l = map (fun p => f (fst p) (snd p)) (combine (repeat a (length l)) l)).
  { induction l as [|b l IH]; [reflexivity|]. cbn. rewrite IH. reflexivity. }
  unfold broadcast. destruct l as [|b [|c l]]; [reflexivity| |]; cbn [length Nat.eqb]; [reflexivity|]. rewrite E. reflexivity.
Qed.
Lemma broadcast_one' {B} (f : R -> R -> B) a l : broadcast f l [a] = broadcast f l (repeat a (length l)).
Proof.
  unfold broadcast at 2. rewrite repeat_length, Nat.eqb_refl. assert (E : map (fun b => f b a) l = map (fun p => f (fst p) (snd p)) (combine l (repeat a (length l)))).
  { induction l as [|b l IH]; [reflexivity|]. cbn. rewrite IH. reflexivity. }
  unfold broadcast. destruct l as [|b [|c l]]; [reflexivity| |]; cbn [length Nat.eqb]; [reflexivity|]. rewrite E. reflexivity.
Qed.
Lemma c84_one_value : forall tx ty u v n (a : R) l, length l = n ->
  let at_all := fun x y => [("HzHx", mkRComp x u); ("HzHy", mkRComp y v)]%string in
  tx = repeat a n -> ty = l ->
  get_length (at_all [a] l) = get_length (at_all tx ty) /\ get_real_angle (at_all [a] l) = get_real_angle (at_all tx ty) /\
  get_length (at_all l [a]) = get_length (at_all ty tx) /\ get_real_angle (at_all l [a]) = get_real_angle (at_all ty tx).
Proof.
  intros tx ty u v n a l <- at_all -> ->.
  assert (L : forall x y, get_length (at_all x y) = broadcast (fun a b => sqrt (a ^ 2 + b ^ 2)) x y) by reflexivity.
  assert (A : forall x y, get_real_angle (at_all x y) = broadcast degrees_of_ratio x y) by reflexivity.
  rewrite !L, !A, <- !broadcast_one, <- !broadcast_one'. auto.
Qed.
