(** Readers at work while other processes write. *)
From Coq Require Import String Ascii NArith.
From Verif Require Import Spec.Project.
From Verif Require Import Base.Prelude Base.PyString Base.FileSys Base.ListUtil Spec.Persist Model.Project Model.Persist Model.Parallel Model.ParallelRead Spec.Parallel
  Proofs.FileSys Proofs.PersistFs Proofs.Persist Proofs.Parallel Proofs.ParallelJobs.
Open Scope list_scope.

Lemma run_length q : forall pool s, List.length (fst (run_schedule q pool s)) = List.length pool.
Proof.
  induction q as [|j q IH]; intros pool s; cbn [run_schedule]; [reflexivity|]. destruct (nth_error pool j) as [[r|f]|]; try apply IH.
  destruct (f s) as [s1 t1]. rewrite IH. apply set_proc_length.
Qed.
(** [track Inv R b t s]: whatever the others do within [R], [Inv] holds after every action of [t], with a mark [b] that once set stays *)
Section Track.
  Variables (Inv : bool -> node -> Prop) (R : node -> node -> Prop).
  Inductive track : bool -> io -> node -> Prop :=
  | track_ret b r s : Inv b s -> track b (Ret r) s
  | track_act b f s : Inv b s -> (forall s', R s s' -> exists b', (b = true -> b' = true) /\ track b' (snd (f s')) (fst (f s'))) -> track b (Act f) s.
  Hypothesis R_refl : forall s, R s s.
  Hypothesis R_trans : forall s1 s2 s3, R s1 s2 -> R s2 s3 -> R s1 s3.
  Hypothesis R_inv : forall b s s', Inv b s -> R s s' -> Inv b s'.
  Lemma track_inv b t s : track b t s -> Inv b s.
  Proof. intros H. inversion H; assumption. Qed.
  Lemma track_rely b t s s' : track b t s -> R s s' -> track b t s'.
  Proof.
    intros H Hr. inversion H as [b0 r s0 K|b0 f s0 K1 K2]; subst.
    - apply track_ret. eapply R_inv; eassumption.
    - apply track_act; [eapply R_inv; eassumption|]. intros s'' H2. apply K2. eapply R_trans; eassumption.
  Qed.

  Variable n : nat.
  Variables (Rs Gs : nat -> node -> node -> Prop) (Qs : nat -> res unit -> node -> Prop) (i : nat).
  Hypothesis Rs_refl : forall i s, Rs i s s.
  Hypothesis Rs_trans : forall i s1 s2 s3, Rs i s1 s2 -> Rs i s2 s3 -> Rs i s1 s3.
  Hypothesis GR : forall i j s s', (i < n)%nat -> (j < n)%nat -> i <> j -> Gs i s s' -> Rs j s s'.
  Hypothesis GRi : forall j s s', (j < n)%nat -> j <> i -> Gs j s s' -> R s s'.
  Lemma pool_track sched : forall pool s b t, List.length pool = n ->
    (forall j t, nth_error pool j = Some t -> ok (Rs j) (Gs j) (Qs j) t s) -> nth_error pool i = Some t -> track b t s ->
    let '(pool', s') := run_schedule sched pool s in
    List.length pool' = n /\ (forall j t, nth_error pool' j = Some t -> ok (Rs j) (Gs j) (Qs j) t s') /\
    exists b' t', nth_error pool' i = Some t' /\ (b = true -> b' = true) /\ track b' t' s'.
  Proof.
    induction sched as [|j rest IH]; intros pool s b t Hn H Hi Ht; cbn [run_schedule]; [split; [exact Hn|split; [exact H|exists b, t; auto]]|].
    destruct (nth_error pool j) as [[r|f]|] eqn:E; try (eapply IH; eassumption).
    assert (Lj : (j < n)%nat) by (rewrite <- Hn; apply nth_error_Some; congruence).
    pose proof (pool_ok n Rs Gs Qs (fun _ => True) Rs_refl Rs_trans GR (fun _ _ _ _ _ _ => I) [j] pool s Hn H I) as P.
    cbn [run_schedule] in P. rewrite E in P.
    pose proof (H j _ E) as K. inversion K as [|f0 s0 K0]; subst f0 s0. destruct (K0 s (Rs_refl j s)) as [Kg _]. clear K K0.
    destruct (f s) as [s1 t1] eqn:F. cbn [fst snd] in *. destruct P as (P1 & _ & P2).
    destruct (Nat.eq_dec j i) as [->|Nij].
    - assert (t = Act f) by congruence. subst t. inversion Ht as [|b0 f0 s0 K1 K2]; subst. destruct (K2 s (R_refl s)) as (b' & Hb & Kt). rewrite F in Kt. cbn [fst snd] in Kt.
      pose proof (IH _ s1 b' t1 P1 P2 (nth_set_proc_same i t1 pool Lj) Kt) as X.
      destruct (run_schedule rest (set_proc i t1 pool) s1) as [pool' s']. destruct X as (X1 & X2 & b2 & t2 & Y1 & Y2 & Y3). split; [exact X1|]. split; [exact X2|].
      exists b2, t2. auto.
    - apply (IH (set_proc j t1 pool) s1 b t P1 P2); [rewrite nth_set_proc_other by exact Nij; exact Hi|]. eapply track_rely; [exact Ht|]. exact (GRi j _ _ Lj Nij Kg).
  Qed.
End Track.

Section Writer.
  Variables (d : path) (mine : list string).
  (** the others leave the directory and these files in it alone *)
  Definition below (s s' : node) : Prop := (kind_at s d = Some KDir -> kind_at s' d = Some KDir) /\ forall f, In f mine -> kind_at s' (d ++ [f]) = kind_at s (d ++ [f]).
  Lemma below_refl s : below s s. Proof. split; auto. Qed.
  Lemma below_trans s1 s2 s3 : below s1 s2 -> below s2 s3 -> below s1 s3.
  Proof. intros [A1 A2] [B1 B2]. split; [auto|]. intros f Hf. rewrite (B2 f Hf). exact (A2 f Hf). Qed.
  Lemma rely_below s s' : rely d s s' -> below s s'. Proof. intros (H0 & H & _). split; [intros K; apply H0, K|]. intros f _. apply H. Qed.

  (** an invariant about files of the directory only *)
  Variable Inv : bool -> node -> Prop.
  Hypothesis Files : forall b s s', (forall f, In f mine -> kind_at s' (d ++ [f]) = kind_at s (d ++ [f])) -> Inv b s -> Inv b s'.
  Notation tr := (track Inv below).
  Lemma below_inv b s s' : Inv b s -> below s s' -> Inv b s'.
  Proof. intros H Hb. apply (Files b s s'); [apply Hb|exact H]. Qed.
  Lemma mkdir_files s p r s' f : d = p ++ r -> os_mkdir s p = Ok s' -> kind_at s' (d ++ [f]) = kind_at s (d ++ [f]).
  Proof.
    intros E H. unfold os_mkdir in H. destruct (exists_ s p) eqn:X; [discriminate|]. destruct (look s (removelast p)) as [[c|es]|] eqn:L; try discriminate. injection H as <-.
    rewrite exists_kind in X. assert (P : p <> []). { intros ->. cbn in X. discriminate. }
    assert (KN : kind_at s p = None) by (destruct (kind_at s p); [discriminate|reflexivity]).
    rewrite kind_put'; [|exact P|unfold kind_at; rewrite L; reflexivity|left; reflexivity|congruence].
    destruct (path_dec (d ++ [f]) p) as [Ep|_]; [|reflexivity]. exfalso. rewrite E in Ep. apply (f_equal (@length _)) in Ep. rewrite !app_length in Ep. cbn in Ep. lia.
  Qed.
  Lemma track_exists p eo e k s : Inv false s -> (forall r s', Inv false s' -> tr false (k r) s') -> tr false (mkdir_exists p eo e k) s.
  Proof.
    intros HI K. unfold mkdir_exists. destruct eo; [|apply K, HI]. apply track_act; [exact HI|]. intros s' Hs. exists false. split; [auto|]. cbn [fst snd]. apply K. exact (below_inv _ _ _ HI Hs).
  Qed.
  Lemma track_one p r eo k s : d = p ++ r -> Inv false s -> (forall r s', Inv false s' -> tr false (k r) s') -> tr false (mkdir_one p eo k) s.
  Proof.
    intros E HI K. unfold mkdir_one. apply track_act; [exact HI|]. intros s' Hs. pose proof (below_inv _ _ _ HI Hs) as HI'. exists false. split; [auto|].
    destruct (os_mkdir s' p) as [s2|e] eqn:M.
    - cbn [fst snd]. apply K. apply (Files false s' s2); [intros f _; exact (mkdir_files s' p r s2 f E M)|exact HI'].
    - assert (X : tr false (mkdir_exists p eo e k) s') by (apply track_exists; assumption). destruct e; cbn [fst snd]; try exact X. apply K, HI'.
  Qed.
  Lemma track_all rp : forall r eo k s, d = rev rp ++ r -> Inv false s -> (forall r s', Inv false s' -> tr false (k r) s') -> tr false (mkdir_all rp eo k) s.
  Proof.
    induction rp as [|x rp IH]; intros r eo k s E HI K.
    - cbn [mkdir_all]. apply track_act; [exact HI|]. intros s' Hs. pose proof (below_inv _ _ _ HI Hs) as HI'. exists false. split; [auto|].
      destruct (os_mkdir s' (rev [])) as [s2|e] eqn:M.
      + cbn [fst snd]. apply K. apply (Files false s' s2); [intros f _; exact (mkdir_files s' (rev []) r s2 f E M)|exact HI'].
      + assert (X : tr false (mkdir_exists (rev []) eo e k) s') by (apply track_exists; assumption). destruct e; cbn [fst snd]; try exact X. apply K, HI'.
    - cbn [mkdir_all]. apply track_act; [exact HI|]. intros s' Hs. pose proof (below_inv _ _ _ HI Hs) as HI'. exists false. split; [auto|].
      destruct (os_mkdir s' (rev (x :: rp))) as [s2|e] eqn:M.
      + cbn [fst snd]. apply K. apply (Files false s' s2); [intros f _; exact (mkdir_files s' (rev (x :: rp)) r s2 f E M)|exact HI'].
      + assert (X : tr false (mkdir_exists (rev (x :: rp)) eo e k) s') by (apply track_exists; assumption). destruct e; cbn [fst snd]; try exact X.
        apply (IH ([x] ++ r)); [rewrite E; cbn [rev]; rewrite <- app_assoc; reflexivity|exact HI'|]. intros [u|e] s2 HI2; [|apply K, HI2].
        apply (track_one _ r); [exact E|exact HI2|exact K].
  Qed.
  (** one file: every content on the way is allowed with the mark [b], the last with [b'] *)
  Definition there (f : string) (s : node) : Prop := kind_at s d = Some KDir /\ exists c, kind_at s (d ++ [f]) = Some (KFile c).
  Lemma there_below f s s' : In f mine -> there f s -> below s s' -> there f s'.
  Proof. intros F [H1 [c H2]] [B1 B2]. split; [apply B1, H1|]. exists c. rewrite (B2 f F). exact H2. Qed.
  Lemma put_in f c s : kind_at s d = Some KDir -> kind_at s (d ++ [f]) <> Some KDir -> let s' := put s (d ++ [f]) (File c) in
    there f s' /\ kind_at s' (d ++ [f]) = Some (KFile c) /\ forall g, g <> f -> kind_at s' (d ++ [g]) = kind_at s (d ++ [g]).
  Proof.
    intros H1 H2 s'. assert (K : forall q, kind_at s' q = if path_dec q (d ++ [f]) then Some (KFile c) else kind_at s q) by (intros q; exact (kind_put_here s d f c q H1 H2)).
    assert (K0 : kind_at s' (d ++ [f]) = Some (KFile c)) by (rewrite K; destruct (path_dec (d ++ [f]) (d ++ [f])); [reflexivity|congruence]).
    split; [split; [|exists c; exact K0]|split; [exact K0|]].
    - rewrite K. destruct (path_dec d (d ++ [f])) as [E|_]; [exfalso; exact (below_neq _ _ E)|exact H1].
    - intros g N. rewrite K. destruct (path_dec (d ++ [g]) (d ++ [f])) as [E|_]; [exfalso; apply N; exact (below_inj _ _ _ E)|reflexivity].
  Qed.
  Lemma track_contents f b b' c k : In f mine -> (b = true -> b' = true) -> (forall s, there f s -> Inv b' s -> tr b' k s) -> forall cs s,
    (forall x s s', In x cs -> Inv b s -> kind_at s' (d ++ [f]) = Some (KFile x) -> (forall g, g <> f -> kind_at s' (d ++ [g]) = kind_at s (d ++ [g])) -> Inv b s') ->
    (forall s s', Inv b s -> kind_at s' (d ++ [f]) = Some (KFile c) -> (forall g, g <> f -> kind_at s' (d ++ [g]) = kind_at s (d ++ [g])) -> Inv b' s') ->
    there f s -> Inv b s -> tr b (put_contents (d ++ [f]) (cs ++ [c]) k) s.
  Proof.
    intros F Hb K. induction cs as [|x cs IH]; intros s Hx Hc T HI; cbn [app put_contents]; (apply track_act; [exact HI|]; intros s' Hs; pose proof (below_inv _ _ _ HI Hs) as HI';
      destruct (there_below _ _ _ F T Hs) as [T1 [c0 T2]]; cbn [fst snd]).
    - destruct (put_in f c s' T1 ltac:(congruence)) as (P1 & P2 & P3). exists b'. split; [exact Hb|]. apply K; [exact P1|]. exact (Hc s' _ HI' P2 P3).
    - destruct (put_in f x s' T1 ltac:(congruence)) as (P1 & P2 & P3). exists b. split; [auto|]. apply IH; [| exact Hc|exact P1|exact (Hx x s' _ (or_introl eq_refl) HI' P2 P3)].
      intros y s2 s3 Hy. apply Hx. right. exact Hy.
  Qed.
  Lemma track_file f inter b b' c k s : In f mine -> (b = true -> b' = true) -> (forall s, Inv b' s -> tr b' (k (Ok tt)) s) -> (forall e s, Inv b s -> tr b (k (Err e)) s) ->
    (forall x s s', In x (""%string :: inter) -> Inv b s -> kind_at s' (d ++ [f]) = Some (KFile x) -> (forall g, g <> f -> kind_at s' (d ++ [g]) = kind_at s (d ++ [g])) -> Inv b s') ->
    (forall s s', Inv b s -> kind_at s' (d ++ [f]) = Some (KFile c) -> (forall g, g <> f -> kind_at s' (d ++ [g]) = kind_at s (d ++ [g])) -> Inv b' s') ->
    Inv b s -> tr b (par_write_file (d ++ [f]) inter c k) s.
  Proof.
    intros Fm Hb K1 K2 Hx Hc HI. unfold par_write_file. apply track_act; [exact HI|]. intros s' Hs. pose proof (below_inv _ _ _ HI Hs) as HI'. rewrite removelast_last.
    assert (F : forall e, tr b (snd (s', k (Err e))) (fst (s', k (Err e)))) by (intros e; cbn [fst snd]; apply K2; exact HI').
    destruct (look s' (d ++ [f])) as [[c0|es]|] eqn:L1.
    2: exists b; split; [auto|apply F].
    all: destruct (look s' d) as [[c1|es1]|] eqn:L2; [exists b; split; [auto|apply F]| |exists b; split; [auto|apply F]].
    all: exists b; split; [auto|]; cbn [fst snd]; destruct (put_in f ""%string s') as (P1 & P2 & P3); [unfold kind_at; rewrite L2; reflexivity|unfold kind_at; rewrite L1; discriminate|].
    all: apply (track_contents f b b'); [exact Fm|exact Hb|intros s2 _ H2; exact (K1 s2 H2)| |exact Hc|exact P1|exact (Hx _ s' _ (or_introl eq_refl) HI' P2 P3)].
    all: intros x s2 s3 Hin; apply Hx; right; exact Hin.
  Qed.
  Lemma track_check ov k s : Inv false s -> (forall r s', Inv false s' -> tr false (k r) s') -> tr false (par_check_dir ov d k) s.
  Proof.
    intros HI K. unfold par_check_dir. apply track_act; [exact HI|]. intros s1 H1. pose proof (below_inv _ _ _ HI H1) as HI1. exists false. split; [auto|]. cbn [fst snd].
    destruct (exists_ s1 d && negb ov); [apply K, HI1|]. apply track_act; [exact HI1|]. intros s2 H2. pose proof (below_inv _ _ _ HI1 H2) as HI2. exists false. split; [auto|]. cbn [fst snd].
    apply track_act; [exact HI2|]. intros s3 H3. pose proof (below_inv _ _ _ HI2 H3) as HI3. exists false. split; [auto|]. cbn [fst snd].
    destruct (exists_ s3 d); [apply K, HI3|]. apply (track_all _ []); [rewrite rev_involutive, app_nil_r; reflexivity|exact HI3|]. intros [u|e] s4 HI4; apply K, HI4.
  Qed.
End Writer.

(** ** a writer of level data and a reader of the same directory *)
Section LevelInv.
  Variables (d : path) (s0 : node) (ni mi : list string) (na ma : string).
  Definition lev_inv (b : bool) (s : node) : Prop :=
    (kind_at s (d ++ [NPZ_FILE]) = kind_at s0 (d ++ [NPZ_FILE]) \/ exists c, In c (""%string :: ni ++ [na]) /\ kind_at s (d ++ [NPZ_FILE]) = Some (KFile c)) /\
    (kind_at s (d ++ [META_FILE]) = kind_at s0 (d ++ [META_FILE]) \/ exists c, In c (""%string :: mi ++ [ma]) /\ kind_at s (d ++ [META_FILE]) = Some (KFile c)) /\
    (if b then kind_at s (d ++ [NPZ_FILE]) = Some (KFile na) else kind_at s (d ++ [META_FILE]) = kind_at s0 (d ++ [META_FILE])).
  Lemma lev_files b s s' : (forall f, In f LEVEL_FILES -> kind_at s' (d ++ [f]) = kind_at s (d ++ [f])) -> lev_inv b s -> lev_inv b s'.
  Proof. intros E. unfold lev_inv. rewrite (E NPZ_FILE (or_introl eq_refl)), (E META_FILE (or_intror (or_introl eq_refl))). auto. Qed.
  Lemma lev_track ov s : lev_inv false s -> track lev_inv (below d LEVEL_FILES) false
    (par_check_dir ov d (fun r => match r with Err e => Ret (Err e) | Ok false => Ret (Err WriteError)
       | Ok true => par_write_files d [(NPZ_FILE, (ni, na)); (META_FILE, (mi, ma))] Ret end)) s.
  Proof.
    intros HI. apply (track_check d LEVEL_FILES); [exact lev_files|exact HI|]. intros [[|]|e] s1 H1; [|apply track_ret, H1|apply track_ret, H1]. cbn [par_write_files].
    assert (NM : NPZ_FILE <> META_FILE) by discriminate. assert (MN : META_FILE <> NPZ_FILE) by discriminate.
    apply (track_file d LEVEL_FILES lev_inv lev_files) with (b' := true); [left; reflexivity|auto| |intros e s2 H2; apply track_ret, H2| | |exact H1].
    - intros s2 H2. apply (track_file d LEVEL_FILES lev_inv lev_files) with (b' := true); [right; left; reflexivity|auto|intros s3 H3; apply track_ret, H3|intros e s3 H3; apply track_ret, H3| | |exact H2].
      + intros x s3 s4 Hx (A1 & A2 & A3) K O. rewrite <- (O NPZ_FILE NM) in A1, A3. split; [exact A1|]. split; [|exact A3]. right. exists x. split; [|exact K].
        destruct Hx as [<-|Hx]; [left; reflexivity|right; apply in_or_app; left; exact Hx].
      + intros s3 s4 (A1 & A2 & A3) K O. rewrite <- (O NPZ_FILE NM) in A1, A3. split; [exact A1|]. split; [|exact A3]. right. exists ma. split; [|exact K].
        right. apply in_or_app. right. left. reflexivity.
    - intros x s3 s4 Hx (A1 & A2 & A3) K O. rewrite <- (O META_FILE MN) in A2, A3. split; [|split; [exact A2|exact A3]]. right. exists x. split; [|exact K].
      destruct Hx as [<-|Hx]; [left; reflexivity|right; apply in_or_app; left; exact Hx].
    - intros s3 s4 (A1 & A2 & A3) K O. rewrite <- (O META_FILE MN) in A2, A3. split; [|split; [exact A2|exact K]]. right. exists na. split; [|exact K].
      right. apply in_or_app. right. left. reflexivity.
  Qed.
End LevelInv.

Section LevelsRead.
  Context {B A : Type}.
  Variables (mser : pmeta B -> string) (mparse : string -> res (pmeta B)) (zser : list (string * A) -> string) (zparse : string -> res (list (string * A))) (inter : string -> list string).
  Let proc (b : wjob B A) : io := par_write_levels mser zser inter (w_who b) (w_now b) (w_ov b) (w_dir b) (w_meta b) (w_data b).
  Let good (s : node) (b : wjob B A) : Prop :=
    levels_distinct (w_data b) /\ writable s (w_dir b) LEVEL_FILES /\ (w_ov b = true \/ kind_at s (w_dir b) = None).
  Lemma c95_levels jobs i b s q1 q2 q3 pool1 s1 pool2 s2 pool3 s3 who r :
    apart (map w_dir jobs) -> (forall b, In b jobs -> good s b) -> nth_error jobs i = Some b ->
    faithful mser mparse inter (written (w_who b) (w_now b) (w_meta b)) -> faithful zser zparse inter (archive (w_data b)) ->
    run_schedule q1 (map proc jobs) s = (pool1, s1) -> run_schedule q2 pool1 s1 = (pool2, s2) -> run_schedule q3 pool2 s2 = (pool3, s3) ->
    par_read_levels mparse zparse who (w_dir b) s1 s2 s3 = Ok r ->
    r = (seen who (written (w_who b) (w_now b) (w_meta b)), w_data b) \/
    exists old, read_levels_md mparse (w_dir b) s = Ok old /\ (r = (seen who old, w_data b) \/ read_levels mparse zparse who (w_dir b) s = Ok r).
  Proof.
    intros HA HG Hi [Fm Fm'] [Fz Fz'] E1 E2 E3 Hr. destruct (HG b (nth_error_In _ _ Hi)) as (Lb & Wb & _).
    set (d := w_dir b) in *. set (na := zser (archive (w_data b))) in *. set (ma := mser (written (w_who b) (w_now b) (w_meta b))) in *.
    set (ni := inter na) in *. set (mi := inter ma) in *.
    set (D j := w_dir (nth j jobs b)). set (out b := [("data.npz"%string, zser (archive (w_data b))); ("metadata.json"%string, mser (written (w_who b) (w_now b) (w_meta b)))]).
    set (F j := out (nth j jobs b)).
    assert (GR : forall i j s1 s2, (i < List.length jobs)%nat -> (j < List.length jobs)%nat -> i <> j -> guar (D i) LEVEL_FILES s1 s2 -> rely (D j) s1 s2).
    { intros i0 j t1 t2 Hi0 Hj Nij.
      assert (Ei : nth_error (map w_dir jobs) i0 = Some (D i0)) by (unfold D; rewrite nth_error_map, (nth_error_nth' jobs b Hi0); reflexivity).
      assert (Ej : nth_error (map w_dir jobs) j = Some (D j)) by (unfold D; rewrite nth_error_map, (nth_error_nth' jobs b Hj); reflexivity).
      apply guar_rely; [exact (HA i0 j _ _ Nij Ei Ej)|exact (HA j i0 _ _ (not_eq_sym Nij) Ej Ei)]. }
    assert (Li : (i < List.length jobs)%nat) by (apply nth_error_Some; congruence).
    assert (Di : D i = d) by (unfold D; rewrite (nth_error_nth _ _ b Hi); reflexivity).
    assert (GRi : forall j t1 t2, (j < List.length jobs)%nat -> j <> i -> guar (D j) LEVEL_FILES t1 t2 -> below d LEVEL_FILES t1 t2).
    { intros j t1 t2 Hj N G. apply rely_below. rewrite <- Di. exact (GR j i t1 t2 Hj Li N G). }
    pose proof (pool_track (lev_inv d s ni mi na ma) (below d LEVEL_FILES) (below_refl d LEVEL_FILES) (below_trans d LEVEL_FILES) (below_inv d LEVEL_FILES _ (lev_files d s ni mi na ma)) (List.length jobs)
      (fun j => rely (D j)) (fun j => guar (D j) LEVEL_FILES) (fun j => done_ok (D j) (F j)) i (fun j => rely_refl (D j)) (fun j => rely_trans (D j)) GR GRi) as P.
    assert (Hp : nth_error (map proc jobs) i = Some (proc b)) by (rewrite nth_error_map, Hi; reflexivity).
    assert (T0 : track (lev_inv d s ni mi na ma) (below d LEVEL_FILES) false (proc b) s).
    { unfold proc, par_write_levels. rewrite (str_keys_archive _ Lb). cbv zeta. apply lev_track. split; [left; reflexivity|]. split; [left; reflexivity|reflexivity]. }
    assert (OK0 : forall j t, nth_error (map proc jobs) j = Some t -> ok (rely (D j)) (guar (D j) LEVEL_FILES) (done_ok (D j) (F j)) t s).
    { intros j t Hj. rewrite nth_error_map in Hj. destruct (nth_error jobs j) as [b0|] eqn:Eb; [|discriminate]. cbn [option_map] in Hj.
      unfold D, F. rewrite (nth_error_nth _ _ b Eb). replace t with (proc b0) by congruence. apply proc_ok. apply HG. eapply nth_error_In, Eb. }
    pose proof (P q1 _ s false _ (map_length _ _) OK0 Hp T0) as P1. rewrite E1 in P1. destruct P1 as (L1 & OK1 & b1 & t1 & N1 & _ & T1).
    pose proof (P q2 _ s1 b1 _ L1 OK1 N1 T1) as P2. rewrite E2 in P2. destruct P2 as (L2 & OK2 & b2 & t2 & N2 & _ & T2).
    pose proof (P q3 _ s2 b2 _ L2 OK2 N2 T2) as P3. rewrite E3 in P3. destruct P3 as (L3 & OK3 & b3 & t3 & N3 & B23 & T3).
    apply track_inv in T2. apply track_inv in T3. clear P T1 OK1 OK2 OK3 N1 N2 N3 L1 L2 L3 OK0 Hp T0.
    unfold par_read_levels in Hr. destruct (negb (exists_ s1 d)); [discriminate|]. rewrite !read_file_kind in Hr.
    assert (Z : forall k, (forall c, k = Some (KFile c) -> In c (""%string :: ni ++ [na])) -> forall (m : pmeta B) x,
      (z <- match k with Some (KFile c) => Ok c | Some KDir => Err OSError | None => Err FileNotFoundError end ;; arc <- zparse z ;; data <- int_keys arc [] ;; Ok (mkPMeta (pm_body m) (pm_hist m ++ [who]) (pm_info m), data)) = Ok x ->
      x = (seen who m, w_data b)).
    { intros k Hk m x Hx. destruct k as [[c|]|]; cbn [bind] in Hx; [|discriminate|discriminate]. destruct (Hk c eq_refl) as [<-|Hc].
      - exfalso. destruct (zparse ""%string) as [a|] eqn:Z; [exact (Fz' _ (or_introl eq_refl) a Z)|discriminate].
      - apply in_app_or in Hc. destruct Hc as [Hc|[<-|[]]].
        + exfalso. destruct (zparse c) as [a|] eqn:Z; [exact (Fz' _ (or_intror Hc) a Z)|discriminate].
        + rewrite Fz in Hx. cbn [bind] in Hx. rewrite <- (str_keys_archive _ Lb) in Hx. rewrite (keys_round _ Lb) in Hx. cbn [bind] in Hx. injection Hx as <-. reflexivity. }
    destruct T2 as (_ & M2 & C2). destruct T3 as (Z3 & _ & C3).
    destruct (kind_at s2 (d ++ [META_FILE])) as [[text|]|] eqn:Km; cbn [bind] in Hr; [|discriminate|discriminate].
    destruct (mparse text) as [m|e] eqn:Pm; cbn [bind] in Hr; [|discriminate].
    assert (Case : (kind_at s (d ++ [META_FILE]) = Some (KFile text)) \/ (b2 = true /\ text = ma)).
    { destruct b2; [|left; congruence]. destruct M2 as [M2|(c & Hc & M2)]; [left; congruence|]. right. split; [reflexivity|]. injection M2 as <-.
      destruct Hc as [<-|Hc]; [exfalso; exact (Fm' _ (or_introl eq_refl) m Pm)|]. apply in_app_or in Hc. destruct Hc as [Hc|[<-|[]]]; [exfalso; exact (Fm' _ (or_intror Hc) m Pm)|reflexivity]. }
    destruct Case as [Old|[-> ->]].
    - right. exists m. assert (Kd : kind_at s d = Some KDir) by (apply (kind_prefix_dir s d [META_FILE] _ Old); discriminate). split.
      + unfold read_levels_md. rewrite exists_kind, Kd. cbn [negb]. rewrite read_file_kind, Old. cbn [bind]. exact Pm.
      + destruct Z3 as [Z3|(c & Hc & Z3)].
        * right. unfold read_levels, read_levels_md. rewrite exists_kind, Kd. cbn [negb]. rewrite !read_file_kind, Old. cbn [bind]. rewrite Pm. cbn [bind]. rewrite <- Z3. exact Hr.
        * left. rewrite Z3 in Hr. refine (Z (Some (KFile c)) _ m r Hr). intros c' E. injection E as <-. exact Hc.
    - left. rewrite (B23 eq_refl) in C3. rewrite Fm in Pm. injection Pm as <-. rewrite C3 in Hr. refine (Z (Some (KFile na)) _ _ r Hr). intros c' E. injection E as <-. right. apply in_or_app. right. left. reflexivity.
  Qed.
  (** the metadata read before, the data after the writer was at work *)
  Lemma c95_mixture jobs i b s who old : apart (map w_dir jobs) -> (forall b, In b jobs -> good s b) -> nth_error jobs i = Some b ->
    zparse (zser (archive (w_data b))) = Ok (archive (w_data b)) -> read_levels_md mparse (w_dir b) s = Ok old ->
    exists q pool s', run_schedule q (map proc jobs) s = (pool, s') /\ par_read_levels mparse zparse who (w_dir b) s s s' = Ok (seen who old, w_data b).
  Proof.
    intros HA HG Hi Fz Ho. destruct (can_finish (map proc jobs) s) as (q & pool & s' & E & AE). exists q, pool, s'. split; [exact E|].
    destruct (HG b (nth_error_In _ _ Hi)) as (Lb & Wb & _).
    destruct (levels_pool mser zser inter jobs s q pool s' HA HG E) as (K & _ & _).
    assert (Hl : exists t, nth_error pool i = Some t).
    { destruct (nth_error pool i) as [t|] eqn:Et; [exists t; reflexivity|]. exfalso. apply nth_error_None in Et.
      pose proof (run_length q (map proc jobs) s) as L. rewrite E in L. cbn [fst] in L. rewrite map_length in L. assert (i < List.length jobs)%nat by (apply nth_error_Some; congruence). lia. }
    destruct Hl as [t Et]. destruct (AE i t Et) as [r ->]. destruct (K i b r Hi Et) as (_ & H). specialize (H "data.npz"%string _ (or_introl eq_refl)).
    unfold read_levels_md in Ho. unfold par_read_levels. destruct (negb (exists_ s (w_dir b))); [discriminate|]. destruct (read_file s (w_dir b ++ [META_FILE])) as [c|e]; cbn [bind] in *; [|discriminate].
    rewrite Ho. cbn [bind]. rewrite read_file_kind. change NPZ_FILE with "data.npz"%string. rewrite H. cbn [bind]. rewrite Fz. cbn [bind].
    rewrite <- (str_keys_archive _ Lb), (keys_round _ Lb). reflexivity.
  Qed.
End LevelsRead.

(** ** solutions *)
Section SolutionInv.
  Variables (d : path) (name : string) (s0 : node) (inter : list string) (text : string).
  Definition sol_inv (_ : bool) (s : node) : Prop :=
    kind_at s (d ++ [name]) = kind_at s0 (d ++ [name]) \/ exists c, In c (""%string :: inter ++ [text]) /\ kind_at s (d ++ [name]) = Some (KFile c).
  Lemma sol_files b s s' : (forall f, In f [name] -> kind_at s' (d ++ [f]) = kind_at s (d ++ [f])) -> sol_inv b s -> sol_inv b s'.
  Proof. intros E. unfold sol_inv. rewrite (E name (or_introl eq_refl)). auto. Qed.
  Lemma sol_track s : sol_inv false s -> track sol_inv (below d [name]) false (par_save_solution d name inter text) s.
  Proof.
    intros HI. unfold par_save_solution. cbv zeta. assert (W : forall s, sol_inv false s -> track sol_inv (below d [name]) false (par_write_files d [(name, (inter, text))] Ret) s).
    { intros s1 H1. cbn [par_write_files]. apply (track_file d [name] sol_inv sol_files) with (b' := false); [left; reflexivity|auto|intros s2 H2; apply track_ret, H2|intros e s2 H2; apply track_ret, H2| | |exact H1].
      - intros x s3 s4 Hx _ K _. right. exists x. split; [|exact K]. destruct Hx as [<-|Hx]; [left; reflexivity|right; apply in_or_app; left; exact Hx].
      - intros s3 s4 _ K _. right. exists text. split; [|exact K]. right. apply in_or_app. right. left. reflexivity. }
    apply track_act; [exact HI|]. intros s1 H1. pose proof (below_inv d [name] sol_inv sol_files _ _ _ HI H1) as HI1. exists false. split; [auto|]. cbn [fst snd].
    destruct (exists_ s1 d); [apply W, HI1|]. apply (track_all d [name] sol_inv sol_files _ []); [rewrite rev_involutive, app_nil_r; reflexivity|exact HI1|].
    intros [u|e] s2 H2; [apply W, H2|apply track_ret, H2].
  Qed.
  Lemma sol_seen {S} (sparse : string -> res S) s r b : (forall c, In c (""%string :: inter) -> forall y, sparse c <> Ok y) -> sol_inv b s ->
    (t <- read_file s (d ++ [name]) ;; sparse t) = Ok r -> sparse text = Ok r \/ (t <- read_file s0 (d ++ [name]) ;; sparse t) = Ok r.
  Proof.
    intros F [E|(c & Hc & E)] H; rewrite read_file_kind in *; rewrite E in H; [right; exact H|]. cbn [bind] in H. left.
    destruct Hc as [<-|Hc]; [exfalso; exact (F _ (or_introl eq_refl) r H)|]. apply in_app_or in Hc. destruct Hc as [Hc|[<-|[]]]; [exfalso; exact (F _ (or_intror Hc) r H)|exact H].
  Qed.
End SolutionInv.
Lemma c95_solutions_apart {S} (sparse : string -> res S) jobs i b s q1 pool s' r : apart (map s_dir jobs) -> (forall b, In b jobs -> writable s (s_dir b) [s_name b]) ->
  nth_error jobs i = Some b -> (forall c, In c (""%string :: s_inter b) -> forall y, sparse c <> Ok y) ->
  run_schedule q1 (map sproc jobs) s = (pool, s') ->
  (t <- read_file s' (s_dir b ++ [s_name b]) ;; sparse t) = Ok r ->
  sparse (s_text b) = Ok r \/ (t <- read_file s (s_dir b ++ [s_name b]) ;; sparse t) = Ok r.
Proof.
  intros HA HG Hi Fs E1 Hr. set (d := s_dir b) in *.
  set (D j := s_dir (nth j jobs b)). set (N j := [s_name (nth j jobs b)]). set (F j := [(s_name (nth j jobs b), s_text (nth j jobs b))]).
  assert (GR : forall i j s1 s2, (i < List.length jobs)%nat -> (j < List.length jobs)%nat -> i <> j -> guar (D i) (N i) s1 s2 -> rely (D j) s1 s2).
  { intros i0 j t1 t2 Hi0 Hj Nij.
    assert (Ei : nth_error (map s_dir jobs) i0 = Some (D i0)) by (unfold D; rewrite nth_error_map, (nth_error_nth' jobs b Hi0); reflexivity).
    assert (Ej : nth_error (map s_dir jobs) j = Some (D j)) by (unfold D; rewrite nth_error_map, (nth_error_nth' jobs b Hj); reflexivity).
    apply guar_rely; [exact (HA i0 j _ _ Nij Ei Ej)|exact (HA j i0 _ _ (not_eq_sym Nij) Ej Ei)]. }
  assert (Li : (i < List.length jobs)%nat) by (apply nth_error_Some; congruence).
  assert (Di : D i = d) by (unfold D; rewrite (nth_error_nth _ _ b Hi); reflexivity).
  assert (GRi : forall j t1 t2, (j < List.length jobs)%nat -> j <> i -> guar (D j) (N j) t1 t2 -> below d [s_name b] t1 t2).
  { intros j t1 t2 Hj Nj G. apply rely_below. rewrite <- Di. exact (GR j i t1 t2 Hj Li Nj G). }
  pose proof (pool_track (sol_inv d (s_name b) s (s_inter b) (s_text b)) (below d [s_name b]) (below_refl d _) (below_trans d _)
    (below_inv d _ _ (sol_files d (s_name b) s (s_inter b) (s_text b))) (List.length jobs)
    (fun j => rely (D j)) (fun j => guar (D j) (N j)) (fun j => done_ok (D j) (F j)) i (fun j => rely_refl (D j)) (fun j => rely_trans (D j)) GR GRi) as P.
  assert (OK0 : forall j t, nth_error (map sproc jobs) j = Some t -> ok (rely (D j)) (guar (D j) (N j)) (done_ok (D j) (F j)) t s).
  { intros j t Hj. rewrite nth_error_map in Hj. destruct (nth_error jobs j) as [b0|] eqn:Eb; [|discriminate]. cbn [option_map] in Hj.
    unfold D, N, F. rewrite (nth_error_nth _ _ b Eb). replace t with (sproc b0) by congruence. apply saver_ok. apply HG. eapply nth_error_In, Eb. }
  pose proof (P q1 _ s false (sproc b) (map_length _ _) OK0 ltac:(rewrite nth_error_map, Hi; reflexivity) (sol_track _ _ _ _ _ _ (or_introl eq_refl))) as P1.
  rewrite E1 in P1. destruct P1 as (_ & _ & b1 & t1 & _ & _ & T1). apply track_inv in T1.
  exact (sol_seen d (s_name b) s (s_inter b) (s_text b) sparse s' r b1 Fs T1 Hr).
Qed.
Lemma c95_solutions_same {S} (sparse : string -> res S) d jobs i b s q1 pool s' r : kind_at s d = Some KDir -> NoDup (map s_name jobs) ->
  (forall b, In b jobs -> s_dir b = d /\ kind_at s (d ++ [s_name b]) <> Some KDir) ->
  nth_error jobs i = Some b -> (forall c, In c (""%string :: s_inter b) -> forall y, sparse c <> Ok y) ->
  run_schedule q1 (map sproc jobs) s = (pool, s') ->
  (t <- read_file s' (d ++ [s_name b]) ;; sparse t) = Ok r ->
  sparse (s_text b) = Ok r \/ (t <- read_file s (d ++ [s_name b]) ;; sparse t) = Ok r.
Proof.
  intros Hd Hu HG Hi Fs E1 Hr.
  set (N j := s_name (nth j jobs b)). set (T j := s_text (nth j jobs b)).
  assert (R0 : forall (j : nat) s1, rely2 d (N j) s1 s1) by (intros j s1; split; [auto|reflexivity]).
  assert (R1 : forall j s1 s2 s3, rely2 d (N j) s1 s2 -> rely2 d (N j) s2 s3 -> rely2 d (N j) s1 s3).
  { intros j s1 s2 s3 [A1 A2] [B1 B2]. split; [intros p H; apply B1, A1, H|congruence]. }
  assert (GR : forall i j s1 s2, (i < List.length jobs)%nat -> (j < List.length jobs)%nat -> i <> j -> guar2 d (N i) s1 s2 -> rely2 d (N j) s1 s2).
  { intros i0 j s1 s2 Hi0 Hj Nij G. split.
    - intros p Hp. destruct (G p) as [E|(_ & E & _)]; congruence.
    - destruct (G (d ++ [N j])) as [E|(E & _)]; [exact E|]. exfalso. apply below_inj in E. apply Nij.
      assert (nth_error (map s_name jobs) i0 = Some (N i0)) by (unfold N; rewrite nth_error_map, (nth_error_nth' jobs b Hi0); reflexivity).
      assert (nth_error (map s_name jobs) j = Some (N j)) by (unfold N; rewrite nth_error_map, (nth_error_nth' jobs b Hj); reflexivity).
      eapply NoDup_nth_error; [exact Hu|rewrite map_length; exact Hi0|congruence]. }
  assert (Li : (i < List.length jobs)%nat) by (apply nth_error_Some; congruence).
  assert (Ni : N i = s_name b) by (unfold N; rewrite (nth_error_nth _ _ b Hi); reflexivity).
  assert (GRi : forall j t1 t2, (j < List.length jobs)%nat -> j <> i -> guar2 d (N j) t1 t2 -> below d [s_name b] t1 t2).
  { intros j t1 t2 Hj Nj G. destruct (GR j i t1 t2 Hj Li Nj G) as [X1 X2]. split; [apply X1|]. intros f [<-|[]]. rewrite <- Ni. exact X2. }
  pose proof (pool_track (sol_inv d (s_name b) s (s_inter b) (s_text b)) (below d [s_name b]) (below_refl d _) (below_trans d _)
    (below_inv d _ _ (sol_files d (s_name b) s (s_inter b) (s_text b))) (List.length jobs)
    (fun j => rely2 d (N j)) (fun j => guar2 d (N j)) (fun j r s => r = Ok tt /\ kind_at s (d ++ [N j]) = Some (KFile (T j))) i R0 R1 GR GRi) as P.
  assert (OK0 : forall j t, nth_error (map sproc jobs) j = Some t -> ok (rely2 d (N j)) (guar2 d (N j)) (fun r s => r = Ok tt /\ kind_at s (d ++ [N j]) = Some (KFile (T j))) t s).
  { intros j t Hj. rewrite nth_error_map in Hj. destruct (nth_error jobs j) as [b0|] eqn:Eb; [|discriminate]. cbn [option_map] in Hj.
    unfold N, T. rewrite (nth_error_nth _ _ b Eb). replace t with (sproc b0) by congruence. destruct (HG b0 (nth_error_In _ _ Eb)) as [G1 G2].
    unfold sproc. rewrite G1. apply save2_ok. split; assumption. }
  assert (Sb : sproc b = par_save_solution d (s_name b) (s_inter b) (s_text b)) by (unfold sproc; rewrite (proj1 (HG b (nth_error_In _ _ Hi))); reflexivity).
  assert (T0 : track (sol_inv d (s_name b) s (s_inter b) (s_text b)) (below d [s_name b]) false (sproc b) s) by (rewrite Sb; apply sol_track; left; reflexivity).
  pose proof (P q1 _ s false (sproc b) (map_length _ _) OK0 ltac:(rewrite nth_error_map, Hi; reflexivity) T0) as P1.
  rewrite E1 in P1. destruct P1 as (_ & _ & b1 & t1 & _ & _ & T1). apply track_inv in T1.
  exact (sol_seen d (s_name b) s (s_inter b) (s_text b) sparse s' r b1 Fs T1 Hr).
Qed.
