(** Numpy arrays of arbitrary rank as nested lists, with the indexing operations the
    code uses. Arrays are rectangular when they come from the constructors below;
    dtype and memory sharing are not modelled here. *)
From Verif Require Import Base.Prelude Base.ListUtil.

Inductive nd (A : Type) := Sc (x : A) | Ax (l : list (nd A)).
Arguments Sc {A} _.
Arguments Ax {A} _.

(** np.squeeze: drop every axis of length one *)
Fixpoint squeeze {A} (a : nd A) : nd A :=
  match a with
  | Sc x => Sc x
  | Ax l => match map squeeze l with [x] => x | l' => Ax l' end
  end.

(** a[i] for a non-negative i *)
Definition nd_nth {A} (a : nd A) (i : nat) : option (nd A) :=
  match a with Sc _ => None | Ax l => nth_error l i end.
(** a[i, j, ...] *)
Fixpoint nd_at {A} (a : nd A) (idx : list nat) : option (nd A) :=
  match idx with
  | [] => Some a
  | i :: r => match nd_nth a i with Some x => nd_at x r | None => None end
  end.
(** shape[0]; a 0-d array has no axis *)
Definition nd_len {A} (a : nd A) : res Z :=
  match a with Sc _ => Err IndexError | Ax l => Ok (Z.of_nat (length l)) end.
(** np.ndim along the first path *)
Fixpoint nd_rank {A} (a : nd A) : nat :=
  match a with Sc _ => 0 | Ax [] => 1 | Ax (x :: _) => S (nd_rank x) end%nat.

(** python list/array index: negative indices count from the end *)
Definition py_nth {A} (l : list A) (i : Z) : option A :=
  let i := if (i <? 0)%Z then (i + Z.of_nat (length l))%Z else i in
  if (i <? 0)%Z then None else nth_error l (Z.to_nat i).

(** l[start:stop:step] *)
Definition py_slice {A} (start stop step : Z) (l : list A) : res (list A) :=
  let n := Z.of_nat (length l) in
  if (step =? 0)%Z then Err ValueError
  else
    let lo := if (0 <? step)%Z then 0%Z else (-1)%Z in
    let hi := if (0 <? step)%Z then n else (n - 1)%Z in
    let norm i := if (i <? 0)%Z then Z.max lo (i + n)%Z else Z.min hi i in
    let a := norm start in let b := norm stop in
    let count := if (0 <? step)%Z then ((b - a + step - 1) / step)%Z else ((a - b - step - 1) / (- step))%Z in
    Ok (flat_map (fun k => match nth_error l (Z.to_nat (a + Z.of_nat k * step)) with
                           | Some x => [x] | None => [] end) (seq 0 (Z.to_nat count))).

(** a[..., i, :] : second axis from the end *)
Fixpoint nd_pick {A} (i : nat) (a : nd A) : res (nd A) :=
  match a with
  | Sc _ => Err IndexError
  | Ax l => if Nat.leb 3 (nd_rank a)
            then r <- (fix go (l : list (nd A)) : res (list (nd A)) :=
                         match l with
                         | [] => Ok []
                         | x :: t => y <- nd_pick i x ;; ys <- go t ;; Ok (y :: ys)
                         end) l ;; Ok (Ax r)
            else if Nat.eqb 2 (nd_rank a)
                 then match nth_error l i with Some x => Ok x | None => Err IndexError end
                 else Err IndexError
  end.

(** the vector stored in a last axis: every entry is a number *)
Fixpoint scalars {A} (l : list (nd A)) : option (list A) :=
  match l with
  | [] => Some []
  | Sc x :: t => option_map (cons x) (scalars t)
  | Ax _ :: _ => None
  end.
(** a[idx, :] where idx addresses all axes but the last *)
Definition nd_vec {A} (a : nd A) (idx : list nat) : option (list A) :=
  match nd_at a idx with Some (Ax l) => scalars l | _ => None end.
(** an operation along axis -1. An axis without entries counts as the last one. *)
Fixpoint nd_last {A B} (f : list A -> res (list B)) (a : nd A) : res (nd B) :=
  match a with
  | Sc _ => Err ValueError
  | Ax l => match scalars l with
            | Some v => r <- f v ;; Ok (Ax (map Sc r))
            | None => r <- (fix go (l : list (nd A)) : res (list (nd B)) :=
                              match l with
                              | [] => Ok []
                              | x :: t => y <- nd_last f x ;; ys <- go t ;; Ok (y :: ys)
                              end) l ;; Ok (Ax r)
            end
  end.
(** a[..., i]: index on the last axis *)
Fixpoint nd_last_at {A} (i : Z) (a : nd A) : res (nd A) :=
  match a with
  | Sc _ => Err IndexError
  | Ax l => match scalars l with
            | Some v => match py_nth v i with Some x => Ok (Sc x) | None => Err IndexError end
            | None => r <- (fix go (l : list (nd A)) : res (list (nd A)) :=
                              match l with
                              | [] => Ok []
                              | x :: t => y <- nd_last_at i x ;; ys <- go t ;; Ok (y :: ys)
                              end) l ;; Ok (Ax r)
            end
  end.
(** a[..., indices, :]: several positions of the second axis from the end. An array
    without entries is taken to have at least three axes. *)
Fixpoint nd_picks {A} (is : list nat) (a : nd A) : res (nd A) :=
  match a with
  | Sc _ => Err IndexError
  | Ax [] => Ok (Ax [])
  | Ax l => if Nat.leb 3 (nd_rank a)
            then r <- (fix go (l : list (nd A)) : res (list (nd A)) :=
                         match l with
                         | [] => Ok []
                         | x :: t => y <- nd_picks is x ;; ys <- go t ;; Ok (y :: ys)
                         end) l ;; Ok (Ax r)
            else if Nat.eqb 2 (nd_rank a)
                 then r <- mapM (fun i => match nth_error l i with Some x => Ok x | None => Err IndexError end) is ;;
                      Ok (Ax r)
                 else Err IndexError
  end.

(** a three dimensional array *)
Definition nd1 {A} (v : list A) : nd A := Ax (map Sc v).
Definition nd2 {A} (m : list (list A)) : nd A := Ax (map nd1 m).
Definition nd3 {A} (d : list (list (list A))) : nd A := Ax (map nd2 d).

Lemma scalars_map {A} (v : list A) : scalars (map Sc v) = Some v.
Proof. induction v as [|x t IH]; [reflexivity|]. cbn. rewrite IH. reflexivity. Qed.
Lemma scalars_some {A} (l : list (nd A)) v : scalars l = Some v -> l = map Sc v.
Proof.
  revert v. induction l as [|[x|l'] t IH]; intros v H; cbn in H; [injection H as <-; reflexivity| |discriminate].
  destruct (scalars t) as [w|]; [|discriminate]. injection H as <-. cbn. f_equal. apply IH. reflexivity.
Qed.

Lemma nd_last_inv {A B} (f : list A -> res (list B)) (l : list (nd A)) b : nd_last f (Ax l) = Ok b ->
  (exists v w, scalars l = Some v /\ f v = Ok w /\ b = Ax (map Sc w)) \/
  (scalars l = None /\ exists r, mapM (nd_last f) l = Ok r /\ b = Ax r).
Proof.
  cbn [nd_last]. destruct (scalars l) as [v|] eqn:E.
  - intros H. destruct (f v) as [w|] eqn:F; cbn in H; [|discriminate]. injection H as <-. left. eauto.
  - match goal with |- context [?g l] => match type of g with list (nd A) -> _ => 
      assert (Hg : forall l', g l' = mapM (nd_last f) l') end end.
    { clear. induction l' as [|x t IH]; [reflexivity|]. cbn [mapM]. rewrite <- IH. reflexivity. }
    rewrite Hg. destruct (mapM (nd_last f) l) as [r|] eqn:M; cbn; [|discriminate].
    intros H. injection H as <-. right. eauto.
Qed.

(** every last axis vector is transformed, nothing else appears *)
Lemma nd_last_vec {A B} (f : list A -> res (list B)) idx : forall a b v, nd_last f a = Ok b -> nd_vec a idx = Some v ->
  exists w, f v = Ok w /\ nd_vec b idx = Some w.
Proof.
  unfold nd_vec. induction idx as [|i idx IH]; intros a b v H E.
  - cbn in E. destruct a as [x|l]; [discriminate|]. destruct (nd_last_inv _ _ _ H) as [(v' & w & E1 & F & ->)|[E1 _]].
    + rewrite E in E1. injection E1 as <-. exists w. split; [exact F|]. cbn. apply scalars_map.
    + congruence.
  - destruct a as [x|l]; [discriminate|]. cbn [nd_at nd_nth] in E.
    destruct (nth_error l i) as [x|] eqn:N; [|discriminate].
    destruct (nd_last_inv _ _ _ H) as [(v' & w & E1 & F & ->)|[E1 (r & M & ->)]].
    + apply scalars_some in E1. subst l. rewrite nth_error_map in N. destruct (nth_error v' i); [|discriminate].
      cbn in N. injection N as <-. destruct idx; cbn in E; discriminate.
    + apply mapM_ok in M. destruct (Forall2_nth_error _ _ _ _ _ M N) as (y & Ny & Fy).
      cbn [nd_at nd_nth]. rewrite Ny. apply (IH x y v Fy E).
Qed.
Lemma nd_last_vec_r {A B} (f : list A -> res (list B)) idx : forall a b w, nd_last f a = Ok b -> nd_vec b idx = Some w ->
  exists v, f v = Ok w /\ nd_vec a idx = Some v.
Proof.
  unfold nd_vec. induction idx as [|i idx IH]; intros a b w H E.
  - destruct a as [x|l]; [discriminate|]. destruct (nd_last_inv _ _ _ H) as [(v' & w' & E1 & F & ->)|[E1 (r & M & ->)]].
    + cbn in E. rewrite scalars_map in E. injection E as <-. exists v'. split; [exact F|]. cbn. exact E1.
    + cbn in E. exfalso. apply mapM_ok in M. clear H. assert (l <> []) by (intros ->; discriminate E1).
      destruct M as [|x y l' r' Hx _]; [congruence|]. destruct x as [q|lx]; [discriminate|].
      destruct (nd_last_inv _ _ _ Hx) as [(? & ? & _ & _ & ->)|(_ & ? & _ & ->)]; discriminate E.
  - destruct a as [x|l]; [discriminate|].
    destruct (nd_last_inv _ _ _ H) as [(v' & w' & E1 & F & ->)|[E1 (r & M & ->)]]; cbn [nd_at nd_nth] in E.
    + rewrite nth_error_map in E. destruct (nth_error w' i); cbn in E; [|discriminate]. destruct idx; discriminate.
    + destruct (nth_error r i) as [y|] eqn:N; [|discriminate]. apply mapM_ok in M.
      destruct (Forall2_nth_error_r _ _ _ _ _ M N) as (x & Nx & Fx). destruct (IH x y w Fx E) as (v & F & V).
      exists v. split; [exact F|]. cbn [nd_at nd_nth]. rewrite Nx. exact V.
Qed.

Lemma nd_vec_nd3 {A} (d : list (list (list A))) w c : nd_vec (nd3 d) [w; c] =
  match nth_error d w with Some m => nth_error m c | None => None end.
Proof.
  unfold nd_vec. cbn [nd_at nd_nth nd3]. rewrite nth_error_map. destruct (nth_error d w) as [m|]; [|reflexivity].
  cbn [option_map nd2 nd_nth]. rewrite nth_error_map. destruct (nth_error m c) as [v|]; [|reflexivity].
  cbn [option_map nd1]. apply scalars_map.
Qed.
