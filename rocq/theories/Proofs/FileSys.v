(** Lemmas on the tree file system. *)
From Coq Require Import String Ascii.
From Verif Require Import Base.Prelude Base.FileSys.
Open Scope list_scope.

Definition path_dec : forall p q : path, {p = q} + {p <> q} := list_eq_dec string_dec.
Definition leaf (v : node) : Prop := v = Dir [] \/ exists c, v = File c.

Lemma assoc_set_same {A} k (v : A) l : assoc k (set_assoc k v l) = Some v.
Proof.
  induction l as [|[x w] l IH]; cbn; [rewrite String.eqb_refl; reflexivity|].
  destruct (String.eqb x k) eqn:E; cbn; rewrite E; [reflexivity|exact IH].
Qed.
Lemma assoc_set_other {A} k j (v : A) l : j <> k -> assoc j (set_assoc k v l) = assoc j l.
Proof.
  intros H. induction l as [|[x w] l IH]; cbn.
  - destruct (String.eqb_spec k j); [congruence|reflexivity].
  - destruct (String.eqb_spec x k) as [->|E]; cbn.
    + destruct (String.eqb_spec k j); [congruence|reflexivity].
    + destruct (String.eqb x j); [reflexivity|exact IH].
Qed.
Lemma assoc_In {A} k (v : A) l : assoc k l = Some v -> In (k, v) l.
Proof.
  induction l as [|[x w] l IH]; cbn; [discriminate|]. destruct (String.eqb_spec x k) as [->|E].
  - intros H. injection H as ->. left. reflexivity.
  - intros H. right. exact (IH H).
Qed.
Lemma In_assoc {A} k (v : A) l : NoDup (map fst l) -> In (k, v) l -> assoc k l = Some v.
Proof.
  induction l as [|[x w] l IH]; cbn; [intros _ []|]. intros N H. apply NoDup_cons_iff in N. destruct N as [N1 N2].
  destruct H as [H|H].
  - injection H as -> ->. rewrite String.eqb_refl. reflexivity.
  - destruct (String.eqb_spec x k) as [->|E]; [|exact (IH N2 H)]. exfalso. apply N1. apply in_map_iff. exists (k, v). split; [reflexivity|exact H].
Qed.
Lemma assoc_none {A} k (l : list (string * A)) : assoc k l = None <-> ~ In k (map fst l).
Proof.
  induction l as [|[x w] l IH]; cbn; [tauto|]. destruct (String.eqb_spec x k) as [->|E].
  - split; [discriminate|]. intros H. exfalso. apply H. left. reflexivity.
  - rewrite IH. intuition congruence.
Qed.
Lemma set_assoc_new {A} k (v : A) l : assoc k l = None -> set_assoc k v l = l ++ [(k, v)].
Proof.
  induction l as [|[x w] l IH]; cbn; [reflexivity|]. destruct (String.eqb x k) eqn:E; [discriminate|]. intros H. rewrite (IH H). reflexivity.
Qed.

Lemma look_app n p q : look n (p ++ q) = match look n p with Some m => look m q | None => None end.
Proof.
  revert n. induction p as [|x p IH]; intros n; cbn [app look]; [reflexivity|].
  destruct n as [c|es]; [reflexivity|]. destruct (assoc x es) as [m|]; [apply IH|reflexivity].
Qed.
Lemma look_put_at s d es x v q : look s d = Some (Dir es) -> look (put s (d ++ [x]) v) ((d ++ [x]) ++ q) = look v q.
Proof.
  revert s. induction d as [|y d IH]; intros s H; cbn [app].
  - cbn [look] in H. injection H as ->. cbn [put]. destruct (assoc x es) as [m|]; cbn [look]; rewrite assoc_set_same; reflexivity.
  - cbn [look] in H. destruct s as [c|ds]; [discriminate|]. cbn [put]. destruct (assoc y ds) as [m|] eqn:E; [|discriminate].
    cbn [look]. rewrite assoc_set_same. apply IH. exact H.
Qed.
Lemma look_put_self s d es x v : look s d = Some (Dir es) -> look (put s (d ++ [x]) v) (d ++ [x]) = Some v.
Proof. intros H. pose proof (look_put_at s d es x v [] H) as K. rewrite app_nil_r in K. exact K. Qed.
(** a path that is neither above nor below keeps its whole sub-tree *)
Lemma look_put_beside d x y s v q e : x <> y -> look (put s (d ++ x :: e) v) (d ++ y :: q) = look s (d ++ y :: q).
Proof.
  intros N. revert s. induction d as [|z d IH]; intros s; cbn [app].
  - cbn [put]. destruct s as [c|ds]; [reflexivity|]. destruct (assoc x ds) as [m|] eqn:E.
    + cbn [look]. rewrite assoc_set_other by congruence. reflexivity.
    + destruct e; [|reflexivity]. cbn [look]. rewrite assoc_set_other by congruence. reflexivity.
  - cbn [put]. destruct s as [c|ds]; [reflexivity|]. destruct (assoc z ds) as [m|] eqn:E.
    + cbn [look]. rewrite assoc_set_same, E. apply IH.
    + destruct d; reflexivity.
Qed.
(** writing a file or an empty directory changes nothing but that path *)
Lemma kind_put s d es x v q : look s d = Some (Dir es) -> leaf v ->
  kind_at s (d ++ [x]) <> Some KDir ->
  kind_at (put s (d ++ [x]) v) q = if path_dec q (d ++ [x]) then Some (kind_of v) else kind_at s q.
Proof.
  intros H Hv Hk. destruct (path_dec q (d ++ [x])) as [->|Nq].
  { unfold kind_at. rewrite (look_put_self s d es x v H). reflexivity. }
  revert s q H Hk Nq. induction d as [|y d IH]; intros s q H Hk Nq; cbn [app] in *.
  - cbn [look] in H. injection H as ->. unfold kind_at in *. cbn [put]. destruct q as [|z q].
    { destruct (assoc x es); reflexivity. }
    destruct (string_dec z x) as [->|Nz].
    + destruct q as [|w q]; [congruence|]. cbn [look] in *.
      assert (L : forall m, leaf m -> look m (w :: q) = None) by (intros m [->|[c ->]]; reflexivity).
      destruct (assoc x es) as [m|] eqn:E; cbn [look option_map] in *; rewrite assoc_set_same.
      * rewrite (L v Hv). destruct m as [c|es']; [reflexivity|]. exfalso. apply Hk. reflexivity.
      * rewrite (L v Hv). reflexivity.
    + destruct (assoc x es) as [m|]; cbn [look]; rewrite assoc_set_other by congruence; reflexivity.
  - cbn [look] in H. destruct s as [c|ds]; [discriminate|]. destruct (assoc y ds) as [m|] eqn:E; [|discriminate].
    unfold kind_at in *. cbn [put]. rewrite E. destruct q as [|z q]; [reflexivity|]. cbn [look] in *. rewrite E in Hk.
    destruct (string_dec z y) as [->|Nz].
    + rewrite assoc_set_same, E. apply IH; [exact H|exact Hk|congruence].
    + rewrite assoc_set_other by congruence. reflexivity.
Qed.
Lemma kind_dir s p : kind_at s p = Some KDir <-> exists es, look s p = Some (Dir es).
Proof.
  unfold kind_at. destruct (look s p) as [[c|es]|]; cbn; split; intros H; try discriminate; try (destruct H; discriminate).
  - exists es. reflexivity.
  - reflexivity.
Qed.
Lemma kind_put' s p v q : p <> [] -> kind_at s (removelast p) = Some KDir -> leaf v -> kind_at s p <> Some KDir ->
  kind_at (put s p v) q = if path_dec q p then Some (kind_of v) else kind_at s q.
Proof.
  intros Hp Hd Hv Hk. apply kind_dir in Hd. destruct Hd as [es Hd]. rewrite (app_removelast_last ""%string Hp) in *.
  rewrite removelast_last in Hd. eapply kind_put; eassumption.
Qed.
Lemma exists_kind s p : exists_ s p = match kind_at s p with Some _ => true | None => false end.
Proof. unfold exists_, kind_at. destruct (look s p) as [[c|es]|]; reflexivity. Qed.
Lemma is_dir_kind s p : is_dir_ s p = match kind_at s p with Some KDir => true | _ => false end.
Proof. unfold is_dir_, kind_at. destruct (look s p) as [[c|es]|]; reflexivity. Qed.
Lemma is_file_kind s p : is_file_ s p = match kind_at s p with Some (KFile _) => true | _ => false end.
Proof. unfold is_file_, kind_at. destruct (look s p) as [[c|es]|]; reflexivity. Qed.
Lemma read_file_kind s p : read_file s p = match kind_at s p with Some (KFile c) => Ok c | Some KDir => Err OSError | None => Err FileNotFoundError end.
Proof. unfold read_file, kind_at. destruct (look s p) as [[c|es]|]; reflexivity. Qed.

(** ** programs *)
Lemma pbind_eq {A B} (p : prog A) (f : A -> prog B) s :
  pbind p f s = match snd (snd (p s)) with
                | Ok a => (fst (p s) ++ fst (f a (fst (snd (p s)))), snd (f a (fst (snd (p s)))))
                | Err e => (fst (p s), (fst (snd (p s)), Err e))
                end.
Proof. unfold pbind. destruct (p s) as [t [s1 [a|e]]]; cbn; [destruct (f a s1); reflexivity|reflexivity]. Qed.
Lemma psteps_eq l s : l <> [] -> psteps l s = (l, (last l s, Ok tt)).
Proof.
  revert s. induction l as [|x l IH]; intros s H; [congruence|]. cbn [psteps]. rewrite pbind_eq. cbn [pstep fst snd].
  destruct l as [|y l]; [reflexivity|]. rewrite (IH x) by discriminate. cbn [fst snd app last].
  f_equal. f_equal. clear. revert y. induction l as [|z l IH]; intros y; [reflexivity|]. cbn [last] in *. apply IH.
Qed.
Lemma write_file_ok p inter c s : p <> [] -> kind_at s (removelast p) = Some KDir -> kind_at s p <> Some KDir ->
  write_file p inter c s = (map (fun c => put s p (File c)) (""%string :: inter ++ [c]), (put s p (File c), Ok tt)).
Proof.
  intros Hp Hd Hk. apply kind_dir in Hd. destruct Hd as [es Hd]. unfold write_file. rewrite Hd.
  assert (E : psteps (map (fun c => put s p (File c)) (""%string :: inter ++ [c])) s =
    (map (fun c => put s p (File c)) (""%string :: inter ++ [c]), (put s p (File c), Ok tt))).
  { rewrite psteps_eq by discriminate. f_equal. f_equal. rewrite map_cons, map_app. cbn [map]. 
    change (put s p (File ""%string) :: map (fun c0 => put s p (File c0)) inter ++ [put s p (File c)]) with
      ((put s p (File ""%string) :: map (fun c0 => put s p (File c0)) inter) ++ [put s p (File c)]). apply last_last. }
  unfold kind_at in Hk. destruct (look s p) as [[c0|es0]|] eqn:L; [exact E|exfalso; apply Hk; reflexivity|exact E].
Qed.
(** mkdir(parents=True) below an existing directory: directories appear, nothing else changes *)
Lemma mkdir_parents_spec rest : forall done s, rest <> [] -> kind_at s done = Some KDir ->
  (forall q, (exists r, rest = q ++ r /\ r <> []) -> forall c, kind_at s (done ++ q) <> Some (KFile c)) ->
  kind_at s (done ++ rest) = None ->
  snd (snd (mkdir_parents_from done rest s)) = Ok tt /\
  kind_at (fst (snd (mkdir_parents_from done rest s))) (done ++ rest) = Some KDir /\
  fst (snd (mkdir_parents_from done rest s)) = last (fst (mkdir_parents_from done rest s)) s /\
  fst (mkdir_parents_from done rest s) <> [] /\
  look (fst (snd (mkdir_parents_from done rest s))) (done ++ rest) = Some (Dir []) /\
  (forall s', In s' (fst (mkdir_parents_from done rest s)) ->
     forall q, kind_at s' q = kind_at s q \/
               (kind_at s q = None /\ kind_at s' q = Some KDir /\ exists a b, rest = a ++ b /\ a <> [] /\ q = done ++ a)).
Proof.
  induction rest as [|x rest IH]; intros done s Hne Hd Hf Hn; [congruence|]. cbn [mkdir_parents_from].
  assert (A : done ++ x :: rest = (done ++ [x]) ++ rest) by (rewrite <- app_assoc; reflexivity).
  pose proof Hd as Hd'. apply kind_dir in Hd'. destruct Hd' as [es Hes].
  destruct rest as [|y rest].
  - unfold kind_at in Hn. destruct (look s (done ++ [x])) as [m|] eqn:L; [discriminate|]. cbn [pstep fst snd last].
    assert (Lf : leaf (Dir [])) by (left; reflexivity).
    assert (Kn : kind_at s (done ++ [x]) <> Some KDir) by (unfold kind_at; rewrite L; discriminate).
    split; [reflexivity|]. split; [rewrite (kind_put s done es x (Dir []) _ Hes Lf Kn); destruct (path_dec (done ++ [x]) (done ++ [x])); [reflexivity|congruence]|].
    split; [reflexivity|]. split; [discriminate|]. split; [exact (look_put_self _ _ _ _ _ Hes)|].
    intros s' [<-|[]] q. rewrite (kind_put s done es x (Dir []) q Hes Lf Kn). destruct (path_dec q (done ++ [x])) as [->|Nq].
    + right. split; [unfold kind_at; rewrite L; reflexivity|]. split; [reflexivity|]. exists [x], []. split; [reflexivity|]. split; [discriminate|reflexivity].
    + left. reflexivity.
  - destruct (look s (done ++ [x])) as [[c|es']|] eqn:L.
    + exfalso. apply (Hf [x] ltac:(exists (y :: rest); split; [reflexivity|discriminate]) c). unfold kind_at. rewrite L. reflexivity.
    + assert (Hd1 : kind_at s (done ++ [x]) = Some KDir) by (unfold kind_at; rewrite L; reflexivity).
      rewrite A in Hn. destruct (IH (done ++ [x]) s ltac:(discriminate) Hd1) as (I1 & I2 & I3 & I4 & I4' & I5).
      { intros q (r & Er & Nr) c. rewrite <- app_assoc. apply Hf. exists r. split; [rewrite Er; reflexivity|exact Nr]. }
      { exact Hn. }
      rewrite A. split; [exact I1|]. split; [exact I2|]. split; [exact I3|]. split; [exact I4|]. split; [exact I4'|].
      intros s' Hs' q. destruct (I5 s' Hs' q) as [E|(E1 & E2 & a & b & E3 & E4 & E5)]; [left; exact E|right].
      split; [exact E1|]. split; [exact E2|]. exists (x :: a), b. split; [rewrite E3; reflexivity|]. split; [discriminate|]. rewrite E5, <- app_assoc. reflexivity.
    + rewrite pbind_eq. cbn [pstep fst snd]. set (s1 := put s (done ++ [x]) (Dir [])).
      assert (Lf : leaf (Dir [])) by (left; reflexivity).
      assert (Kn : kind_at s (done ++ [x]) <> Some KDir) by (unfold kind_at; rewrite L; discriminate).
      assert (K1 : forall q, kind_at s1 q = if path_dec q (done ++ [x]) then Some KDir else kind_at s q) by (intros q; exact (kind_put s done es x (Dir []) q Hes Lf Kn)).
      assert (Hd1 : kind_at s1 (done ++ [x]) = Some KDir) by (rewrite K1; destruct (path_dec (done ++ [x]) (done ++ [x])); [reflexivity|congruence]).
      assert (Below : forall r, r <> [] -> kind_at s1 ((done ++ [x]) ++ r) = None).
      { intros r Nr. unfold kind_at, s1. rewrite (look_put_at s done es x (Dir []) r Hes). destruct r; [congruence|reflexivity]. }
      destruct (IH (done ++ [x]) s1 ltac:(discriminate) Hd1) as (I1 & I2 & I3 & I4 & I4' & I5).
      { intros q (r & Er & Nr) c. destruct q as [|z q]; [rewrite app_nil_r, Hd1; discriminate|]. rewrite Below by discriminate. discriminate. }
      { apply Below. discriminate. }
      rewrite A. split; [exact I1|]. split; [exact I2|]. split.
      { cbn [app]. rewrite I3. destruct (fst (mkdir_parents_from (done ++ [x]) (y :: rest) s1)) as [|z l]; [congruence|]. cbn [last].
        clear. revert z. induction l as [|w l IHl]; intros z; [reflexivity|]. apply IHl. }
      split; [discriminate|]. split; [exact I4'|]. intros s' Hs' q.
      assert (Base : kind_at s1 q = kind_at s q \/ (kind_at s q = None /\ kind_at s1 q = Some KDir /\ exists a b, x :: y :: rest = a ++ b /\ a <> [] /\ q = done ++ a)).
      { rewrite K1. destruct (path_dec q (done ++ [x])) as [->|Nq]; [right|left; reflexivity]. split; [unfold kind_at; rewrite L; reflexivity|]. split; [reflexivity|].
        exists [x], (y :: rest). split; [reflexivity|]. split; [discriminate|reflexivity]. }
      destruct Hs' as [<-|Hs']; [exact Base|]. destruct (I5 s' Hs' q) as [E|(E1 & E2 & a & b & E3 & E4 & E5)].
      * rewrite E. exact Base.
      * right. split.
        { destruct Base as [E|(E0 & E0' & _)]; [rewrite <- E; exact E1|exact E0]. }
        split; [exact E2|]. exists (x :: a), b. split; [rewrite E3; reflexivity|]. split; [discriminate|]. rewrite E5, <- app_assoc. reflexivity.
Qed.
