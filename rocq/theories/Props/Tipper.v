(** Property C84: length and angle of the tipper, over the real numbers. The four axioms that
    Print Assumptions lists are those of the standard library's Reals. *)
From Coq Require Import String Reals List.
From Verif Require Import Base.Prelude Base.FileSys Model.Tipper Spec.Tipper Proofs.Tipper.
From Coq Require Import Lra.
Import ListNotations.
Open Scope list_scope.
Open Scope R_scope.

(** ** C84: for a vector to the north (Tx >= 0) length and real angle are its polar coordinates;
    for Tx < 0 the angle is that of the opposite vector *)
Theorem C84_polar_partial : forall cs tx ty,
  assoc "HzHx"%string cs = Some tx -> assoc "HzHy"%string cs = Some ty -> length (c_real tx) = length (c_real ty) ->
  exists ls ds, get_length cs = Ok ls /\ get_real_angle cs = Ok ds /\ length ls = length (c_real tx) /\ length ds = length (c_real tx) /\
    forall i x y, nth_error (c_real tx) i = Some x -> nth_error (c_real ty) i = Some y ->
      exists r od, nth_error ls i = Some r /\ nth_error ds i = Some od /\
        (od = None <-> x = 0 /\ y = 0) /\ (r = 0 <-> x = 0 /\ y = 0) /\ r * r = x * x + y * y /\ 0 <= r /\
        forall d, od = Some d -> -90 <= d <= 90 /\ (0 <= x -> polar r d x y) /\ (x < 0 -> polar r d (- x) (- y)).
Proof.
  intros cs tx ty HX HY E. assert (HX' := found _ _ _ HX). assert (HY' := found _ _ _ HY). clear HX HY. rename HX' into HX, HY' into HY.
  destruct (c84_length cs tx ty HX HY E) as [ls [L1 [L2 L3]]]. destruct (c84_real cs tx ty HX HY E) as [ds [D1 [D2 D3]]].
  exists ls, ds. repeat split; try assumption. intros i x y Hx Hy.
  exists (sqrt (x ^ 2 + y ^ 2)), (degrees_of_ratio x y). split; [apply L3; assumption|]. split; [apply D3; assumption|].
  split; [apply degrees_none|]. split; [apply len_zero|]. split; [rewrite len_sq; ring|]. split; [apply len_nonneg|].
  intros d Hd. split; [eapply degrees_range; exact Hd|]. split.
  - intros P. destruct (degrees_right x y P) as [d' [K H]]; [|congruence].
    destruct (Req_EM_T x 0) as [X|X]; [|left; exact X]. destruct (Req_EM_T y 0) as [Y|Y]; [|right; exact Y].
    rewrite (proj2 (degrees_none x y) (conj X Y)) in Hd. discriminate.
  - intros P. destruct (degrees_left x y P) as [d' [K H]]. congruence.
Qed.
Print Assumptions C84_polar_partial.
(** the imaginary angle is the same function of the imaginary parts *)
Theorem C84_imaginary : forall cs tx ty,
  assoc "HzHx"%string cs = Some tx -> assoc "HzHy"%string cs = Some ty -> length (c_imag tx) = length (c_imag ty) ->
  exists ds, get_imag_angle cs = Ok ds /\ length ds = length (c_imag tx) /\
    forall i x y, nth_error (c_imag tx) i = Some x -> nth_error (c_imag ty) i = Some y -> 0 <= x -> x <> 0 \/ y <> 0 ->
      exists d, nth_error ds i = Some (Some d) /\ -90 <= d <= 90 /\ exists r, polar r d x y.
Proof.
  intros cs tx ty HX HY E. assert (HX' := found _ _ _ HX). assert (HY' := found _ _ _ HY). clear HX HY. rename HX' into HX, HY' into HY. destruct (c84_imag cs tx ty HX HY E) as [ds [D1 [D2 D3]]]. exists ds. split; [exact D1|]. split; [exact D2|].
  intros i x y Hx Hy P N. destruct (degrees_right x y P N) as [d [K H]]. exists d. rewrite (D3 i x y Hx Hy), K.
  split; [reflexivity|]. split; [eapply degrees_range; exact K|]. eexists. exact H.
Qed.
Print Assumptions C84_imaginary.
(** the length does not depend on the axes *)
Theorem C84_axes : forall d cs cs' tx ty tx' ty' ls ls',
  assoc "HzHx"%string cs = Some tx -> assoc "HzHy"%string cs = Some ty -> length (c_real tx) = length (c_real ty) ->
  assoc "HzHx"%string cs' = Some tx' -> assoc "HzHy"%string cs' = Some ty' -> length (c_real tx') = length (c_real ty') -> length (c_real tx) = length (c_real tx') ->
  (forall i x y x' y', nth_error (c_real tx) i = Some x -> nth_error (c_real ty) i = Some y -> nth_error (c_real tx') i = Some x' -> nth_error (c_real ty') i = Some y' ->
     turned d x y x' y') ->
  get_length cs = Ok ls -> get_length cs' = Ok ls' -> ls = ls'.
Proof.
  intros d cs cs' tx ty tx' ty' ls ls' H1 H2 H3 H4 H5. apply found in H1, H2, H4, H5. revert H3. exact (fun H3 => c84_axes d cs cs' tx ty tx' ty' ls ls' H1 H2 H3 H4 H5).
Qed.
Print Assumptions C84_axes.
(** a vector and its opposite have the same angle: the angle alone does not give the direction *)
Theorem C84_direction_refuted : forall x y u v, x <> 0 ->
  get_real_angle [("HzHx", mkRComp [x] u); ("HzHy", mkRComp [y] v)]%string = get_real_angle [("HzHx", mkRComp [- x] u); ("HzHy", mkRComp [- y] v)]%string.
Proof. intros x y u v N. cbn. rewrite (degrees_opposite x y N). reflexivity. Qed.
Print Assumptions C84_direction_refuted.
(** a missing component is a KeyError *)
Theorem C84_missing : forall cs, (assoc "HzHx"%string cs = None \/ assoc "HzHy"%string cs = None) ->
  get_length cs = Err KeyError /\ get_real_angle cs = Err KeyError /\ get_imag_angle cs = Err KeyError.
Proof. intros cs H. apply (c84_missing cs KeyError). unfold component_of. destruct H as [-> | ->]; auto. Qed.
Print Assumptions C84_missing.
(** a component with one value counts as that value at every frequency *)
Theorem C84_one_value : forall tx ty u v n (a : R) l, length l = n ->
  let at_all := fun x y => [("HzHx", mkRComp x u); ("HzHy", mkRComp y v)]%string in
  tx = repeat a n -> ty = l ->
  get_length (at_all [a] l) = get_length (at_all tx ty) /\ get_real_angle (at_all [a] l) = get_real_angle (at_all tx ty) /\
  get_length (at_all l [a]) = get_length (at_all ty tx) /\ get_real_angle (at_all l [a]) = get_real_angle (at_all ty tx).
Proof. exact c84_one_value. Qed.
Print Assumptions C84_one_value.

(** *** an instance: Tx = 1, Ty = -1 has angle -45 degrees *)
Example C84_ex : exists ls, get_length [("HzHx", mkRComp [1; 3] [0; 0]); ("HzHy", mkRComp [-1; 4] [0; 0])]%string = Ok ls /\ nth_error ls 1 = Some 5 /\
  exists ds, get_real_angle [("HzHx", mkRComp [1; 3] [0; 0]); ("HzHy", mkRComp [-1; 4] [0; 0])]%string = Ok ds /\ nth_error ds 0 = Some (Some (-45)).
Proof.
  eexists. split; [reflexivity|]. split.
  - cbn. f_equal. replace (3 * (3 * 1) + 4 * (4 * 1)) with (5 * 5) by ring. apply sqrt_square. lra.
  - eexists. split; [reflexivity|]. cbn. f_equal. unfold degrees_of_ratio. destruct (Req_EM_T 1 0); [lra|]. f_equal.
    replace (-1 / 1) with (- (1)) by field. rewrite atan_opp, atan_1. field. apply PI_neq0.
Qed.
