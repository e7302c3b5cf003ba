(** Sites, sampling frequencies and concurrency. *)
From Coq Require Import String Ascii Sorted.
From Verif Require Import Base.Prelude Base.FileSys Model.Project Model.Letsgo Spec.Project Proofs.FileSys Proofs.ProjectFs Proofs.ProjectLoad.
Open Scope list_scope.
Open Scope Q_scope.

Lemma insert_q_In x l y : In y (insert_q x l) -> y = x \/ In y l.
Proof.
  induction l as [|z l IH]; cbn; [intros [<-|[]]; left; reflexivity|]. destruct (Qltb x z); [intros [<-|H]; [left; reflexivity|right; exact H]|].
  destruct (Qltb z x); [|intros H; right; exact H]. intros [<-|H]; [right; left; reflexivity|]. destruct (IH H) as [E|E]; [left; exact E|right; right; exact E].
Qed.
Lemma insert_q_has x l : exists y, In y (insert_q x l) /\ y == x.
Proof.
  induction l as [|z l IH]; cbn; [exists x; split; [left; reflexivity|reflexivity]|]. destruct (Qltb x z) eqn:E1; [exists x; split; [left; reflexivity|reflexivity]|].
  destruct (Qltb z x) eqn:E2; [destruct IH as (y & H & E); exists y; split; [right; exact H|exact E]|].
  apply Qltb_false in E1, E2. exists z. split; [left; reflexivity|lra].
Qed.
Lemma insert_q_keeps x l y : In y l -> In y (insert_q x l).
Proof.
  induction l as [|z l IH]; cbn; [tauto|]. intros H. destruct (Qltb x z); [right; exact H|]. destruct (Qltb z x); [|exact H].
  destruct H as [->|H]; [left; reflexivity|right; exact (IH H)].
Qed.
Lemma insert_q_sorted x l : StronglySorted Qlt l -> StronglySorted Qlt (insert_q x l).
Proof.
  induction l as [|z l IH]; intros S; cbn; [constructor; constructor|]. inversion S as [|z' l' S1 S2]; subst. destruct (Qltb x z) eqn:E1.
  - apply Qltb_true in E1. constructor; [exact S|]. constructor; [exact E1|]. rewrite Forall_forall in *. intros y H. pose proof (S2 y H). lra.
  - destruct (Qltb z x) eqn:E2; [|exact S]. apply Qltb_true in E2. constructor; [exact (IH S1)|]. rewrite Forall_forall in *. intros y H.
    destruct (insert_q_In x l y H) as [->|K]; [exact E2|exact (S2 y K)].
Qed.
Lemma sorted_q_spec l : distinct_increasing l (sorted_q l).
Proof.
  unfold sorted_q. induction l as [|x l [S H]]; cbn [fold_right].
  - split; [constructor|]. intros x. reflexivity.
  - split; [apply insert_q_sorted; exact S|]. intros y. split.
    + intros (z & Hz & E). destruct (insert_q_In _ _ _ Hz) as [->|K]; [exists x; split; [left; reflexivity|exact E]|].
      destruct (proj1 (H y)) as (w & Hw & Ew); [exists z; split; assumption|]. exists w. split; [right; exact Hw|exact Ew].
    + intros (z & [<-|Hz] & E).
      * destruct (insert_q_has x (fold_right insert_q [] l)) as (w & Hw & Ew). exists w. split; [exact Hw|lra].
      * destruct (proj2 (H y)) as (w & Hw & Ew); [exists z; split; assumption|]. exists w. split; [apply insert_q_keeps; exact Hw|exact Ew].
Qed.
(** a strictly increasing list holds each value once *)
Lemma sorted_unique l x y : StronglySorted Qlt l -> In x l -> In y l -> x == y -> x = y.
Proof.
  induction l as [|z l IH]; intros S; [intros []|]. inversion S as [|z' l' S1 S2]; subst. rewrite Forall_forall in S2. intros [<-|Hx] [<-|Hy] E.
  - reflexivity.
  - pose proof (S2 y Hy). lra.
  - pose proof (S2 x Hx). lra.
  - exact (IH S1 Hx Hy E).
Qed.
Lemma in_q_true x l : in_q x l = true <-> exists y, In y l /\ y == x.
Proof.
  unfold in_q. rewrite existsb_exists. split; intros (y & H & E); exists y; (split; [exact H|]).
  - apply Qeq_bool_iff in E. symmetry. exact E.
  - apply Qeq_bool_iff. symmetry. exact E.
Qed.
Definition meas_fs (x : string * meas) : Q := mm_fs (me_md (snd x)).
Lemma site_fs_spec s : distinct_increasing (map meas_fs (st_meas s)) (site_fs s).
Proof. apply sorted_q_spec. Qed.
(** the measurements are partitioned by the frequencies of the site *)
Lemma partition_spec s x : In x (st_meas s) ->
  exists f, In f (site_fs s) /\ In x (get_measurements s (Some f)) /\
    forall g, In g (site_fs s) -> In x (get_measurements s (Some g)) -> g = f.
Proof.
  intros H. destruct (site_fs_spec s) as [S E]. destruct (proj2 (E (meas_fs x))) as (f & Hf & Ef).
  { exists (meas_fs x). split; [apply in_map; exact H|reflexivity]. }
  exists f. split; [exact Hf|]. split.
  - cbn [get_measurements]. apply filter_In. split; [exact H|]. apply Qeq_bool_iff. symmetry. exact Ef.
  - intros g Hg K. cbn [get_measurements] in K. apply filter_In in K. destruct K as [_ K]. apply Qeq_bool_iff in K.
    apply (sorted_unique (site_fs s)); [exact S|exact Hg|exact Hf|]. unfold meas_fs in Ef. rewrite Ef. symmetry. exact K.
Qed.
Lemma get_measurements_spec s f x : In x (get_measurements s (Some f)) <-> In x (st_meas s) /\ meas_fs x == f.
Proof. cbn [get_measurements]. rewrite filter_In, Qeq_bool_iff. reflexivity. Qed.
Section P.
  Context {M : Type}.
  Lemma proj_fs_spec (p : pproject M) : distinct_increasing (flat_map (fun x => map meas_fs (st_meas (snd x))) (pr_sites p)) (proj_fs p).
  Proof.
    unfold proj_fs. destruct (sorted_q_spec (flat_map (fun x => site_fs (snd x)) (pr_sites p))) as [S E]. split; [exact S|]. intros x. rewrite (E x).
    split; intros (y & Hy & Ey); apply in_flat_map in Hy; destruct Hy as (st & Hs & Hy); destruct (site_fs_spec (snd st)) as [_ F].
    - destruct (proj1 (F x)) as (z & Hz & Ez); [exists y; split; assumption|]. exists z. split; [|exact Ez]. apply in_flat_map. exists st. split; assumption.
    - destruct (proj2 (F x)) as (z & Hz & Ez); [exists y; split; assumption|]. exists z. split; [|exact Ez]. apply in_flat_map. exists st. split; assumption.
  Qed.
  Lemma get_sites_spec (p : pproject M) f x : In x (get_sites p (Some f)) <-> In x (pr_sites p) /\ exists m, In m (st_meas (snd x)) /\ meas_fs m == f.
  Proof.
    cbn [get_sites]. rewrite filter_In, in_q_true. destruct (site_fs_spec (snd x)) as [_ F]. rewrite (F f). split; intros [H (y & Hy & E)]; (split; [exact H|]).
    - apply in_map_iff in Hy. destruct Hy as (m & <- & Hm). exists m. split; assumption.
    - exists (meas_fs y). split; [apply in_map; exact Hy|exact E].
  Qed.

  (** ** concurrency *)
  Lemma overlap_iff a b : st_begin a <= st_end a -> st_begin b <= st_end b -> (overlap a b <-> st_begin a <= st_end b /\ st_begin b <= st_end a).
  Proof.
    intros Ha Hb. split.
    - intros (t & H1 & H2). lra.
    - intros [H1 H2]. destruct (Qlt_le_dec (st_begin a) (st_begin b)) as [L|L].
      + exists (st_begin b). lra.
      + exists (st_begin a). lra.
  Qed.
  Lemma overlap_sym a b : overlap a b -> overlap b a.
  Proof. intros (t & H1 & H2). exists t. split; assumption. Qed.
  Lemma concurrent_ok (p : pproject M) name s : named p -> In (name, s) (pr_sites p) ->
    exists l, get_concurrent p name = Ok l /\ forall o, In o l <-> exists other, other <> name /\ In (other, o) (pr_sites p) /\ overlap s o.
  Proof.
    intros [N Hn] H. unfold get_concurrent. rewrite (In_assoc name s (pr_sites p) N H). eexists. split; [reflexivity|].
    intros o. rewrite filter_In, in_map_iff. destruct (Hn name s H) as [E1 E2]. split.
    - intros [([k o'] & E & K) B]. cbn in E. subst o'. destruct (Hn k o K) as [F1 F2]. exists k.
      apply andb_true_iff in B. destruct B as [B B3]. apply andb_true_iff in B. destruct B as [B1 B2].
      apply negb_true_iff in B1, B2, B3. apply Qltb_false in B2, B3. apply String.eqb_neq in B1. split; [congruence|]. split; [exact K|].
      apply overlap_iff; [exact E2|exact F2|]. split; [exact B2|exact B3].
    - intros (k & Nk & K & O). destruct (Hn k o K) as [F1 F2]. split; [exists (k, o); split; [reflexivity|exact K]|].
      apply overlap_iff in O; [|exact E2|exact F2]. destruct O as [O1 O2]. rewrite F1.
      apply andb_true_iff. split; [apply andb_true_iff; split|]; apply negb_true_iff; [apply String.eqb_neq; exact Nk|apply Qltb_false; exact O1|apply Qltb_false; exact O2].
  Qed.
  Lemma concurrent_sym (p : pproject M) a b sa sb la lb : named p -> In (a, sa) (pr_sites p) -> In (b, sb) (pr_sites p) ->
    get_concurrent p a = Ok la -> get_concurrent p b = Ok lb -> a <> b -> (In sb la <-> In sa lb).
  Proof.
    intros N Ha Hb Ea Eb Nab. destruct (concurrent_ok p a sa N Ha) as (la' & Ea' & Sa). destruct (concurrent_ok p b sb N Hb) as (lb' & Eb' & Sb).
    assert (la' = la) by congruence. assert (lb' = lb) by congruence. subst la' lb'.
    assert (U : forall n1 n2 s, In (n1, s) (pr_sites p) -> In (n2, s) (pr_sites p) -> n1 = n2).
    { intros n1 n2 s K1 K2. destruct N as [_ N]. destruct (N n1 s K1) as [F1 _]. destruct (N n2 s K2) as [F2 _]. congruence. }
    rewrite Sa, Sb. split; intros (k & Nk & K & O).
    - exists a. split; [exact Nab|]. split; [exact Ha|]. apply overlap_sym. exact O.
    - exists b. split; [congruence|]. split; [exact Hb|]. apply overlap_sym. exact O.
  Qed.
  Lemma concurrent_missing (p : pproject M) name : ~ In name (map fst (pr_sites p)) -> get_concurrent p name = Err KeyError.
  Proof. intros H. unfold get_concurrent. apply assoc_none in H. rewrite H. reflexivity. Qed.
  (** loaded projects are named *)
  Lemma loaded_named {D} now s (readers : list (reader D)) p m (pr : pproject M) : project_of now s readers p m pr ->
    (forall q, fst (now q) <= snd (now q)) -> (forall r d md, In r readers -> rd_md r s d = Ok md -> mm_first md <= mm_last md) -> named pr.
  Proof.
    intros (_ & _ & N & H & _) Hnow Hr. split; [exact N|]. intros name st K. destruct (H name st K) as (Hd & _ & Hm & Ht). split.
    - unfold st_name. rewrite Hd. change (p ++ ["time"%string; name]) with (p ++ ["time"%string] ++ [name]). rewrite app_assoc. apply path_name_snoc.
    - destruct (st_meas st) as [|x l] eqn:E.
      + pose proof (Hnow (p ++ ["time"%string; name])) as B. rewrite <- Ht in B. exact B.
      + destruct Ht as [[_ B1] [_ B2]]. cbn [map] in B1, B2. pose proof (B1 _ (or_introl eq_refl)) as C1. pose proof (B2 _ (or_introl eq_refl)) as C2.
        destruct x as [k mm]. destruct (proj1 (Hm k mm) (or_introl eq_refl)) as (_ & r & md & (i & Hi & Hmd & _) & ->).
        cbn [snd me_md] in *. pose proof (Hr r _ md (nth_error_In _ _ Hi) Hmd). lra.
  Qed.
End P.
