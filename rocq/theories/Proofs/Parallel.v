(** Rely/guarantee reasoning for processes interleaved in any order. *)
From Coq Require Import String Ascii NArith.
From Verif Require Import Base.Prelude Base.PyString Base.FileSys Base.ListUtil Spec.Persist Model.Persist Model.Parallel Spec.Parallel
  Proofs.FileSys Proofs.PersistFs.
Open Scope list_scope.

(** [ok R G Q t s]: from [s], whatever the others do within [R], every action of [t] is
    within [G], and if [t] ends then [Q] holds of the result, and keeps holding *)
Inductive ok (R G : node -> node -> Prop) (Q : res unit -> node -> Prop) : io -> node -> Prop :=
| ok_ret r s : (forall s', R s s' -> Q r s') -> ok R G Q (Ret r) s
| ok_act f s : (forall s', R s s' -> G s' (fst (f s')) /\ ok R G Q (snd (f s')) (fst (f s'))) -> ok R G Q (Act f) s.

Section Pool.
  Variable n : nat.
  Variables (R G : nat -> node -> node -> Prop) (Q : nat -> res unit -> node -> Prop) (Inv : node -> Prop).
  Hypothesis R_refl : forall i s, R i s s.
  Hypothesis R_trans : forall i s1 s2 s3, R i s1 s2 -> R i s2 s3 -> R i s1 s3.
  Hypothesis GR : forall i j s s', (i < n)%nat -> (j < n)%nat -> i <> j -> G i s s' -> R j s s'.
  Hypothesis GInv : forall i s s', (i < n)%nat -> Inv s -> G i s s' -> Inv s'.

  Lemma ok_rely i t s s' : ok (R i) (G i) (Q i) t s -> R i s s' -> ok (R i) (G i) (Q i) t s'.
  Proof.
    intros H Hr. inversion H as [r s0 K|f s0 K]; subst.
    - apply ok_ret. intros s'' H2. apply K. eapply R_trans; eassumption.
    - apply ok_act. intros s'' H2. apply K. eapply R_trans; eassumption.
  Qed.
  Lemma nth_set_proc_same i t : forall l, (i < List.length l)%nat -> nth_error (set_proc i t l) i = Some t.
  Proof. induction i; intros [|x l] H; cbn in *; try lia; [reflexivity|]. apply IHi. lia. Qed.
  Lemma nth_set_proc_other i j t : i <> j -> forall l, nth_error (set_proc i t l) j = nth_error l j.
  Proof.
    intros N l. revert i j N. induction l as [|x l IH]; intros i j N; cbn [set_proc]; [destruct i; reflexivity|].
    destruct i, j; cbn [nth_error]; try reflexivity; try congruence. apply IH. congruence.
  Qed.
  Lemma set_proc_length i t : forall l, List.length (set_proc i t l) = List.length l.
  Proof. revert i. intros i l. revert i. induction l as [|x l IH]; intros [|i]; cbn; congruence. Qed.

  Lemma pool_ok sched : forall pool s, List.length pool = n ->
    (forall i t, nth_error pool i = Some t -> ok (R i) (G i) (Q i) t s) -> Inv s ->
    let '(pool', s') := run_schedule sched pool s in
    (List.length pool' = n) /\ Inv s' /\ forall i t, nth_error pool' i = Some t -> ok (R i) (G i) (Q i) t s'.
  Proof.
    induction sched as [|i rest IH]; intros pool s Hn H HI; cbn [run_schedule]; [repeat split; assumption|].
    destruct (nth_error pool i) as [[r|f]|] eqn:E; try (apply IH; assumption).
    assert (Li : (i < n)%nat) by (rewrite <- Hn; apply nth_error_Some; congruence).
    pose proof (H i _ E) as K. inversion K as [|f0 s0 K0]; subst f0 s0. destruct (K0 s (R_refl i s)) as [Kg Kt]. clear K K0.
    destruct (f s) as [s1 t1]. cbn [fst snd] in *. apply IH.
    - rewrite set_proc_length. exact Hn.
    - intros j t Hj. destruct (Nat.eq_dec i j) as [->|Nij].
      + rewrite nth_set_proc_same in Hj by (rewrite Hn; exact Li). congruence.
      + rewrite nth_set_proc_other in Hj by exact Nij. eapply ok_rely; [apply H; exact Hj|].
        apply (GR i j); try assumption. rewrite <- Hn. apply nth_error_Some. congruence.
    - eapply GInv; eassumption.
  Qed.
End Pool.

(** ** termination: whatever the state of the disk, a process left alone ends *)
Lemma io_ind' (P : io -> Prop) (HR : forall r, P (Ret r)) (HA : forall f, (forall s, P (snd (f s))) -> P (Act f)) : forall t, P t.
Proof. fix IH 1. intros [r|f]; [apply HR|apply HA; intros s; apply IH]. Qed.
Lemma set_set i t u : forall l, set_proc i t (set_proc i u l) = set_proc i t l.
Proof. intros l. revert i. induction l as [|x l IH]; intros [|i]; cbn; try reflexivity. rewrite IH. reflexivity. Qed.
Lemma set_same i t : forall l, nth_error l i = Some t -> set_proc i t l = l.
Proof. intros l. revert i. induction l as [|x l IH]; intros [|i] H; cbn in *; try congruence. rewrite IH by exact H. reflexivity. Qed.
Lemma run_app a b pool s : run_schedule (a ++ b) pool s = let '(p, s') := run_schedule a pool s in run_schedule b p s'.
Proof.
  revert pool s. induction a as [|i a IH]; intros pool s; cbn [app run_schedule]; [reflexivity|].
  destruct (nth_error pool i) as [[r|f]|]; try apply IH. destruct (f s). apply IH.
Qed.
Lemma finish_one t : forall i pool s, nth_error pool i = Some t ->
  exists k r s', run_schedule (repeat i k) pool s = (set_proc i (Ret r) pool, s').
Proof.
  induction t as [r|f IH] using io_ind'; intros i pool s H.
  - exists O, r, s. cbn. rewrite set_same by exact H. reflexivity.
  - assert (Li : (i < List.length pool)%nat) by (apply nth_error_Some; congruence).
    destruct (IH s i (set_proc i (snd (f s)) pool) (fst (f s)) (nth_set_proc_same i _ pool Li)) as (k & r & s' & K).
    exists (S k), r, s'. cbn [repeat run_schedule]. rewrite H. destruct (f s) as [s1 t1] eqn:E. cbn [fst snd] in K. rewrite K, set_set. reflexivity.
Qed.
Lemma finish_upto pool s m : (m <= List.length pool)%nat -> exists sched pool' s', run_schedule sched pool s = (pool', s') /\
  List.length pool' = List.length pool /\ forall i, (i < m)%nat -> exists r, nth_error pool' i = Some (Ret r).
Proof.
  induction m as [|m IH]; intros Hm.
  - exists [], pool, s. cbn. repeat split. intros i Hi. lia.
  - destruct IH as (sc & p & s' & E & L & K); [lia|]. destruct (nth_error p m) as [t|] eqn:Et.
    2:{ apply nth_error_None in Et. lia. }
    destruct (finish_one t m p s' Et) as (k & r & s2 & E2). exists (sc ++ repeat m k), (set_proc m (Ret r) p), s2.
    rewrite run_app, E, E2. rewrite set_proc_length. repeat split; [exact L|]. intros i Hi. destruct (Nat.eq_dec m i) as [->|N].
    + exists r. apply nth_set_proc_same. lia.
    + rewrite nth_set_proc_other by exact N. apply K. lia.
Qed.
Lemma can_finish pool s : exists sched pool' s', run_schedule sched pool s = (pool', s') /\ all_ended pool'.
Proof.
  destruct (finish_upto pool s (List.length pool) (le_n _)) as (sc & p & s' & E & L & K). exists sc, p, s'. split; [exact E|].
  intros i t Hi. destruct (K i) as [r Hr]; [rewrite <- L; apply nth_error_Some; congruence|]. exists r. congruence.
Qed.

(** ** one process that makes its directory and writes its files *)
Section Job.
  Variables (d : path) (names : list string).
  (** what the others may do: make directories elsewhere, on the way to [d] too *)
  Definition rely (s s' : node) : Prop :=
    (forall p, kind_at s p = Some KDir -> kind_at s' p = Some KDir) /\
    (forall x, kind_at s' (d ++ x) = kind_at s (d ++ x)) /\
    (forall p r c, d = p ++ r -> kind_at s' p = Some (KFile c) -> kind_at s p = Some (KFile c)).
  Definition guar (s s' : node) : Prop :=
    forall p, kind_at s' p = kind_at s p \/
      ((exists r, d = p ++ r) /\ kind_at s p = None /\ kind_at s' p = Some KDir) \/
      ((exists f, In f names /\ p = d ++ [f]) /\ kind_at s p <> Some KDir /\ exists c, kind_at s' p = Some (KFile c)).
  Lemma rely_refl s : rely s s. Proof. repeat split; auto. Qed.
  Lemma rely_trans s1 s2 s3 : rely s1 s2 -> rely s2 s3 -> rely s1 s3.
  Proof.
    intros (A1 & A2 & A3) (B1 & B2 & B3). repeat split.
    - intros p H. apply B1, A1, H.
    - intros x. rewrite B2. apply A2.
    - intros p r c Hd H. eapply A3; [exact Hd|]. eapply B3; [exact Hd|exact H].
  Qed.
  Lemma guar_refl s : guar s s. Proof. intros p. left. reflexivity. Qed.
  Lemma guar_same s s' : s' = s -> guar s s'. Proof. intros ->. apply guar_refl. Qed.

  Lemma rely_writable s s' : writable s d names -> rely s s' -> writable s' d names.
  Proof.
    intros (W1 & W2 & W3 & W4) (A1 & A2 & A3). repeat split.
    - exact W1.
    - apply A1, W2.
    - intros q r c Hd H. apply (W3 q r c Hd). eapply A3; eassumption.
    - intros f Hf. rewrite A2. apply W4, Hf.
  Qed.
  Lemma rely_d s s' : rely s s' -> kind_at s' d = kind_at s d.
  Proof. intros (_ & A & _). specialize (A []). rewrite app_nil_r in A. exact A. Qed.

  Variable Q : res unit -> node -> Prop.
  Notation ok' := (ok rely guar Q).

  (** making a proper ancestor or [d] itself *)
  Lemma writable_prefix s p r : writable s d names -> d = p ++ r -> kind_at s p = None \/ kind_at s p = Some KDir.
  Proof.
    intros (_ & _ & W & _) H. destruct (kind_at s p) as [[c|]|] eqn:E; [|right; reflexivity|left; reflexivity].
    exfalso. exact (W p r c H E).
  Qed.
  Lemma mk_step s p r : writable s d names -> d = p ++ r -> p <> [] -> kind_at s p = None -> kind_at s (removelast p) = Some KDir ->
    guar s (put s p (Dir [])) /\ writable (put s p (Dir [])) d names /\ kind_at (put s p (Dir [])) p = Some KDir /\
    (r <> [] -> kind_at (put s p (Dir [])) d = kind_at s d).
  Proof.
    intros W Hd Hp Hn Hu.
    assert (K : forall q, kind_at (put s p (Dir [])) q = if path_dec q p then Some KDir else kind_at s q).
    { intros q. rewrite (kind_put' s p (Dir []) q Hp Hu); [reflexivity|left; reflexivity|]. rewrite Hn. discriminate. }
    split; [|split; [|split]].
    - intros q. rewrite K. destruct (path_dec q p) as [->|N]; [|left; reflexivity]. right. left. split; [exists r; exact Hd|]. split; [exact Hn|reflexivity].
    - destruct W as (W1 & W2 & W3 & W4). repeat split.
      + exact W1.
      + rewrite K. destruct (path_dec [] p); [reflexivity|exact W2].
      + intros q r' c Hq. rewrite K. destruct (path_dec q p); [discriminate|]. apply (W3 q r' c Hq).
      + intros f Hf. rewrite K. destruct (path_dec (d ++ [f]) p) as [E|N]; [|apply W4, Hf]. exfalso.
        apply (f_equal (@List.length _)) in E. rewrite app_length in E. rewrite Hd, app_length in E. cbn in E. lia.
    - rewrite K. destruct (path_dec p p); congruence.
    - intros Hr. rewrite K. destruct (path_dec d p) as [E|N]; [|reflexivity]. exfalso.
      apply (f_equal (@List.length _)) in E. rewrite Hd, app_length in E. destruct r; [congruence|cbn in E; lia].
  Qed.
  Lemma os_mkdir_none s p : kind_at s p = None -> kind_at s (removelast p) = Some KDir -> os_mkdir s p = Ok (put s p (Dir [])).
  Proof. intros H1 H2. unfold os_mkdir. rewrite exists_kind, H1. apply kind_dir in H2. destruct H2 as [es ->]. reflexivity. Qed.
  Lemma os_mkdir_exists s p : kind_at s p = Some KDir -> os_mkdir s p = Err OSError.
  Proof. intros H. unfold os_mkdir. rewrite exists_kind, H. reflexivity. Qed.
  Lemma os_mkdir_orphan s p : kind_at s p = None -> kind_at s (removelast p) = None -> os_mkdir s p = Err FileNotFoundError.
  Proof.
    intros H1 H2. unfold os_mkdir. rewrite exists_kind, H1. unfold kind_at in H2. destruct (look s (removelast p)); [discriminate|reflexivity].
  Qed.

  (** the invariant while the directory is being made *)
  Definition making (s : node) : Prop := writable s d names /\ kind_at s d = None.
  Lemma rely_making s s' : making s -> rely s s' -> making s'.
  Proof. intros [W N] H. split; [eapply rely_writable; eassumption|]. rewrite (rely_d _ _ H). exact N. Qed.

  Lemma exists_ok p r k s : making s -> d = p ++ r -> kind_at s p = Some KDir ->
    (forall s', making s' -> kind_at s' p = Some KDir -> ok' (k (Ok tt)) s') -> ok' (mkdir_exists p true OSError k) s.
  Proof.
    intros M Hd Hp Hk. unfold mkdir_exists. apply ok_act. intros s' Hr. cbn [fst snd]. split; [apply guar_refl|].
    assert (Hp' : kind_at s' p = Some KDir) by (apply (proj1 Hr), Hp). rewrite is_dir_kind, Hp'. apply Hk; [eapply rely_making; eassumption|exact Hp'].
  Qed.
  Lemma one_ok p r k s : making s -> d = p ++ r -> r <> [] -> p <> [] -> kind_at s (removelast p) = Some KDir ->
    (forall s', making s' -> kind_at s' p = Some KDir -> ok' (k (Ok tt)) s') -> ok' (mkdir_one p true k) s.
  Proof.
    intros M Hd Hr Hp Hu Hk. unfold mkdir_one. apply ok_act. intros s' H.
    pose proof (rely_making _ _ M H) as M'. assert (Hu' : kind_at s' (removelast p) = Some KDir) by (apply (proj1 H), Hu).
    destruct (writable_prefix s' p r (proj1 M') Hd) as [E|E].
    - rewrite (os_mkdir_none _ _ E Hu'). cbn [fst snd].
      destruct (mk_step s' p r (proj1 M') Hd Hp E Hu') as (G1 & W1 & K1 & D1). split; [exact G1|]. apply Hk; [|exact K1].
      split; [exact W1|]. rewrite (D1 Hr). exact (proj2 M').
    - rewrite (os_mkdir_exists _ _ E). cbn [fst snd]. split; [apply guar_refl|]. eapply exists_ok; eassumption.
  Qed.
  Lemma all_ok rp : forall r k s, making s -> d = rev rp ++ r -> r <> [] ->
    (forall s', making s' -> kind_at s' (rev rp) = Some KDir -> ok' (k (Ok tt)) s') -> ok' (mkdir_all rp true k) s.
  Proof.
    induction rp as [|x up IH]; intros r k s M Hd Hr Hk; cbn [mkdir_all].
    - apply ok_act. intros s' H. pose proof (rely_making _ _ M H) as M'. assert (E : kind_at s' [] = Some KDir) by apply M'.
      cbn [rev]. rewrite (os_mkdir_exists _ _ E). cbn [fst snd]. split; [apply guar_refl|].
      eapply exists_ok; [exact M'|exact Hd|exact E|exact Hk].
    - apply ok_act. intros s' H. pose proof (rely_making _ _ M H) as M'.
      assert (Hx : rev (x :: up) <> []) by (cbn [rev]; destruct (rev up); discriminate).
      assert (Hl : removelast (rev (x :: up)) = rev up) by (cbn [rev]; apply removelast_last).
      assert (Hdu : d = rev up ++ ([x] ++ r)) by (rewrite Hd; cbn [rev]; rewrite <- app_assoc; reflexivity).
      destruct (writable_prefix s' _ r (proj1 M') Hd) as [E|E].
      + destruct (writable_prefix s' _ _ (proj1 M') Hdu) as [Eu|Eu].
        * rewrite (os_mkdir_orphan s' (rev (x :: up)) E) by (rewrite Hl; exact Eu). cbn [fst snd]. split; [apply guar_refl|].
          apply (IH ([x] ++ r)); [exact M'|exact Hdu|discriminate|]. intros s2 M2 K2.
          eapply one_ok; [exact M2|exact Hd|exact Hr|exact Hx|rewrite Hl; exact K2|exact Hk].
        * rewrite (os_mkdir_none s' (rev (x :: up)) E) by (rewrite Hl; exact Eu). cbn [fst snd].
          destruct (mk_step s' _ r (proj1 M') Hd Hx E) as (G1 & W1 & K1 & D1); [rewrite Hl; exact Eu|]. split; [exact G1|]. apply Hk; [|exact K1].
          split; [exact W1|]. rewrite (D1 Hr). exact (proj2 M').
      + rewrite (os_mkdir_exists _ _ E). cbn [fst snd]. split; [apply guar_refl|]. eapply exists_ok; eassumption.
  Qed.
  (** the directory itself, new *)
  Definition ready (s : node) : Prop := writable s d names /\ kind_at s d = Some KDir.
  Lemma rely_ready s s' : ready s -> rely s s' -> ready s'.
  Proof. intros [W N] H. split; [eapply rely_writable; eassumption|]. rewrite (rely_d _ _ H). exact N. Qed.
  Lemma make_ok k s : making s -> (forall s', ready s' -> ok' (k (Ok tt)) s') -> ok' (mkdir_all (rev d) false k) s.
  Proof.
    intros M Hk. assert (Hd0 : d <> []) by apply M.
    destruct (rev d) as [|x up] eqn:Er; [exfalso; apply Hd0; rewrite <- (rev_involutive d), Er; reflexivity|].
    assert (Hrd : rev (x :: up) = d) by (rewrite <- Er; apply rev_involutive).
    assert (Hdu : d = rev up ++ [x]) by (rewrite <- Hrd; reflexivity).
    assert (Hd1 : d = d ++ []) by (rewrite app_nil_r; reflexivity).
    assert (Hl : removelast d = rev up) by (rewrite Hdu; apply removelast_last).
    cbn [mkdir_all]. rewrite Hrd. apply ok_act. intros s' H. pose proof (rely_making _ _ M H) as M'.
    assert (mk : forall s2, making s2 -> kind_at s2 (rev up) = Some KDir ->
      guar s2 (put s2 d (Dir [])) /\ ready (put s2 d (Dir [])) /\ os_mkdir s2 d = Ok (put s2 d (Dir []))).
    { intros s2 [W2 N2] K2. rewrite <- Hl in K2. destruct (mk_step s2 d [] W2 Hd1 Hd0 N2 K2) as (G1 & W1 & K1 & _).
      split; [exact G1|]. split; [split; assumption|]. apply os_mkdir_none; assumption. }
    destruct (writable_prefix s' _ _ (proj1 M') Hdu) as [Eu|Eu].
    - rewrite (os_mkdir_orphan s' d (proj2 M')) by (rewrite Hl; exact Eu). cbn [fst snd]. split; [apply guar_refl|].
      apply (all_ok up [x]); [exact M'|exact Hdu|discriminate|]. intros s2 M2 K2.
      unfold mkdir_one. apply ok_act. intros s3 H3.
      destruct (mk s3 (rely_making _ _ M2 H3) (proj1 H3 _ K2)) as (G1 & R1 & E1). rewrite E1. cbn [fst snd]. split; [exact G1|]. apply Hk, R1.
    - destruct (mk s' M' Eu) as (G1 & R1 & E1). rewrite E1. cbn [fst snd]. split; [exact G1|]. apply Hk, R1.
  Qed.

  (** writing the files *)
  Lemma file_step s f c : ready s -> In f names -> guar s (put s (d ++ [f]) (File c)) /\ ready (put s (d ++ [f]) (File c)) /\
    forall q, kind_at (put s (d ++ [f]) (File c)) q = if path_dec q (d ++ [f]) then Some (KFile c) else kind_at s q.
  Proof.
    intros [(W1 & W2 & W3 & W4) D] Hf.
    assert (K : forall q, kind_at (put s (d ++ [f]) (File c)) q = if path_dec q (d ++ [f]) then Some (KFile c) else kind_at s q).
    { intros q. rewrite kind_put'; [reflexivity|destruct d; discriminate|rewrite removelast_last; exact D|right; exists c; reflexivity|apply W4, Hf]. }
    assert (Hpre : forall q r, d = q ++ r -> q <> d ++ [f]).
    { intros q r Hq E. apply (f_equal (@List.length _)) in E. rewrite Hq, !app_length in E. cbn in E. lia. }
    split; [|split]; [| |exact K].
    - intros q. rewrite K. destruct (path_dec q (d ++ [f])) as [->|N]; [|left; reflexivity]. right. right.
      split; [exists f; split; [exact Hf|reflexivity]|]. split; [apply W4, Hf|exists c; reflexivity].
    - split; [repeat split|].
      + exact W1.
      + rewrite K. destruct (path_dec [] (d ++ [f])) as [E|N]; [|exact W2]. destruct d; discriminate.
      + intros q r c' Hq. rewrite K. destruct (path_dec q (d ++ [f])) as [E|N]; [exfalso; exact (Hpre q r Hq E)|]. apply (W3 q r c' Hq).
      + intros g Hg. rewrite K. destruct (path_dec (d ++ [g]) (d ++ [f])); [discriminate|apply W4, Hg].
      + rewrite K. destruct (path_dec d (d ++ [f])) as [E|N]; [|exact D]. exfalso. exact (below_neq d f E).
  Qed.
  Lemma rely_holds s s' l : holds s d l -> rely s s' -> holds s' d l.
  Proof. intros H Hr f c Hi. rewrite (proj1 (proj2 Hr)). apply H, Hi. Qed.

  Lemma contents_ok f done cs k : forall s, In f names -> ~ In f (map fst done) -> ready s -> holds s d done ->
    (forall s', ready s' -> holds s' d done -> (cs = [] -> kind_at s' (d ++ [f]) = kind_at s (d ++ [f])) ->
       (cs <> [] -> kind_at s' (d ++ [f]) = Some (KFile (last cs ""%string))) -> ok' k s') ->
    ok' (put_contents (d ++ [f]) cs k) s.
  Proof.
    induction cs as [|c cs IH]; intros s Hf Hn Hs Hd Hk; cbn [put_contents].
    - apply Hk; [exact Hs|exact Hd|reflexivity|congruence].
    - apply ok_act. intros s' H. cbn [fst snd].
      destruct (file_step s' f c (rely_ready _ _ Hs H) Hf) as (G1 & R1 & K1). split; [exact G1|].
      assert (Hd1 : holds (put s' (d ++ [f]) (File c)) d done).
      { intros g b Hi. rewrite K1. destruct (path_dec (d ++ [g]) (d ++ [f])) as [E|N].
        - exfalso. apply below_inj in E. subst g. apply Hn. apply in_map_iff. exists (f, b). split; [reflexivity|exact Hi].
        - apply (rely_holds _ _ _ Hd H), Hi. }
      apply IH; [exact Hf|exact Hn|exact R1|exact Hd1|]. intros s2 R2 H2 E1 E2. apply Hk; [exact R2|exact H2|discriminate|].
      intros _. destruct cs as [|c2 cs].
      + rewrite (E1 eq_refl), K1. destruct (path_dec (d ++ [f]) (d ++ [f])); [reflexivity|congruence].
      + cbn [last]. cbn [last] in E2. rewrite E2 by discriminate. reflexivity.
  Qed.
  Lemma file_ok f done inter c k s : In f names -> ~ In f (map fst done) -> ready s -> holds s d done ->
    (forall s', ready s' -> holds s' d ((f, c) :: done) -> ok' (k (Ok tt)) s') -> ok' (par_write_file (d ++ [f]) inter c k) s.
  Proof.
    intros Hf Hn Hs Hd Hk. unfold par_write_file. apply ok_act. intros s' H. pose proof (rely_ready _ _ Hs H) as Hs'.
    assert (Hdir : exists es, look s' (removelast (d ++ [f])) = Some (Dir es)).
    { rewrite removelast_last. apply kind_dir, Hs'. }
    assert (Hnd : kind_at s' (d ++ [f]) <> Some KDir) by (destruct Hs' as [(_ & _ & _ & W4) _]; apply W4, Hf).
    assert (E : forall (X : node * io), match look s' (d ++ [f]), look s' (removelast (d ++ [f])) with
        | Some (Dir _), _ => (s', k (Err OSError)) | _, Some (Dir _) => X
        | _, Some (File _) => (s', k (Err OSError)) | _, None => (s', k (Err FileNotFoundError)) end = X).
    { intros X. destruct Hdir as [es ->]. unfold kind_at in Hnd. destruct (look s' (d ++ [f])) as [[c'|es']|]; [reflexivity|exfalso; apply Hnd; reflexivity|reflexivity]. }
    rewrite E. cbn [fst snd]. clear E. destruct (file_step s' f ""%string Hs' Hf) as (G1 & R1 & K1). split; [exact G1|].
    assert (Hd1 : holds (put s' (d ++ [f]) (File ""%string)) d done).
    { intros g b Hi. rewrite K1. destruct (path_dec (d ++ [g]) (d ++ [f])) as [E|N].
      - exfalso. apply below_inj in E. subst g. apply Hn. apply in_map_iff. exists (f, b). split; [reflexivity|exact Hi].
      - apply (rely_holds _ _ _ Hd H), Hi. }
    apply (contents_ok f done); [exact Hf|exact Hn|exact R1|exact Hd1|]. intros s2 R2 H2 _ E2. apply Hk; [exact R2|].
    intros g b [Hi|Hi]; [|apply H2, Hi]. injection Hi as <- <-.
    rewrite E2 by (destruct inter; discriminate). rewrite last_last. reflexivity.
  Qed.
  Definition finals (fl : list (string * (list string * string))) : list (string * string) := map (fun x => (fst x, snd (snd x))) fl.
  Lemma files_ok fl : forall done k s, (forall x, In x fl -> In (fst x) names) -> NoDup (map fst fl) ->
    (forall x, In x fl -> ~ In (fst x) (map fst done)) -> ready s -> holds s d done ->
    (forall s', ready s' -> holds s' d (finals fl) -> holds s' d done -> ok' (k (Ok tt)) s') -> ok' (par_write_files d fl k) s.
  Proof.
    induction fl as [|[f [inter c]] fl IH]; intros done k s Hn Hu Hf Hs Hd Hk; cbn [par_write_files].
    - apply Hk; [exact Hs|intros g b []|exact Hd].
    - cbn [map fst] in Hu. apply NoDup_cons_iff in Hu. destruct Hu as [U1 U2].
      apply (file_ok f done); [apply (Hn _ (or_introl eq_refl))|apply (Hf _ (or_introl eq_refl))|exact Hs|exact Hd|].
      intros s' R' H'. apply (IH ((f, c) :: done)); [intros x Hx; apply Hn; right; exact Hx|exact U2| |exact R'|exact H'|].
      + intros x Hx [E|Hi]; [|exact (Hf x (or_intror Hx) Hi)]. cbn [fst] in E. apply U1. rewrite E. apply in_map, Hx.
      + intros s2 R2 H2 D2. apply Hk; [exact R2| |intros g b Hi; apply D2; right; exact Hi].
        intros g b [Hi|Hi]; [injection Hi as <- <-; apply D2; left; reflexivity|apply H2, Hi].
  Qed.
End Job.

(** ** the writers *)
Definition done_ok (d : path) (files : list (string * string)) (r : res unit) (s : node) : Prop :=
  r = Ok tt /\ kind_at s d = Some KDir /\ holds s d files.

Lemma writer_ok d fl ov s : NoDup (map fst fl) -> writable s d (map fst fl) -> (ov = true \/ kind_at s d = None) ->
  ok (rely d) (guar d (map fst fl)) (done_ok d (finals fl))
    (par_check_dir ov d (fun r => match r with Err e => Ret (Err e) | Ok false => Ret (Err WriteError) | Ok true => par_write_files d fl Ret end)) s.
Proof.
  intros Hu W Hov. set (names := map fst fl) in *.
  assert (Hn : forall x, In x fl -> In (fst x) names) by (intros x Hx; apply in_map, Hx).
  assert (wr : forall s', ready d names s' -> ok (rely d) (guar d names) (done_ok d (finals fl)) (par_write_files d fl Ret) s').
  { intros s' R. apply (files_ok d names _ fl [] Ret s' Hn Hu); [intros x _ []|exact R|intros g b []|]. intros s2 R2 H2 _.
    apply ok_ret. intros s3 H3. split; [reflexivity|]. split; [rewrite (rely_d d _ _ H3); apply R2|].
    apply (rely_holds d _ _ _ H2 H3). }
  unfold par_check_dir. apply ok_act. intros s1 H1. cbn [fst snd]. split; [apply guar_refl|].
  pose proof (rely_writable d names _ _ W H1) as W1. assert (D1 := rely_d d _ _ H1).
  assert (C : exists_ s1 d && negb ov = false).
  { rewrite exists_kind, D1. destruct Hov as [->|E]; [apply andb_false_r|rewrite E; reflexivity]. }
  rewrite C. apply ok_act. intros s2 H2. cbn [fst snd]. split; [apply guar_refl|]. pose proof (rely_writable d names _ _ W1 H2) as W2.
  apply ok_act. intros s3 H3. cbn [fst snd]. split; [apply guar_refl|]. pose proof (rely_writable d names _ _ W2 H3) as W3.
  rewrite exists_kind. destruct (writable_prefix d names s3 d [] W3 (eq_sym (app_nil_r d))) as [E|E]; rewrite E.
  - apply (make_ok d names); [split; assumption|]. intros s4 R4. apply wr, R4.
  - apply wr. split; assumption.
Qed.
Lemma saver_ok d name inter c s : writable s d [name] ->
  ok (rely d) (guar d [name]) (done_ok d [(name, c)]) (par_save_solution d name inter c) s.
Proof.
  intros W.
  assert (wr : forall s', ready d [name] s' -> ok (rely d) (guar d [name]) (done_ok d [(name, c)]) (par_write_files d [(name, (inter, c))] Ret) s').
  { intros s' R. apply (files_ok d [name] _ _ [] Ret s'); [intros x [<-|[]]; left; reflexivity|constructor; [intros []|constructor]|intros x _ []|exact R|intros g b []|].
    intros s2 R2 H2 _.
    apply ok_ret. intros s3 H3. split; [reflexivity|]. split; [rewrite (rely_d d _ _ H3); apply R2|].
    apply (rely_holds d _ _ _ H2 H3). }
  unfold par_save_solution. cbv zeta. apply ok_act. intros s3 H3. cbn [fst snd]. split; [apply guar_refl|]. pose proof (rely_writable d [name] _ _ W H3) as W3.
  rewrite exists_kind. destruct (writable_prefix d [name] s3 d [] W3 (eq_sym (app_nil_r d))) as [E|E]; rewrite E.
  - apply (make_ok d [name]); [split; assumption|]. intros s4 R4. apply wr, R4.
  - apply wr. split; assumption.
Qed.

(** ** many of them, in directories apart from each other *)
Record pjob := mkPJob { pj_dir : path; pj_names : list string; pj_files : list (string * string); pj_proc : io }.
Definition dummy : pjob := mkPJob [] [] [] (Ret (Ok tt)).

Lemma guar_rely d1 n1 d2 s s' : (forall r, d2 <> d1 ++ r) -> (forall r, d1 <> d2 ++ r) -> guar d1 n1 s s' -> rely d2 s s'.
Proof.
  intros A1 A2 H. repeat split.
  - intros p Hp. destruct (H p) as [E|[(_ & E & _)|(_ & E & _)]]; congruence.
  - intros x. destruct (H (d2 ++ x)) as [E|[((r & E) & _)|((f & _ & E) & _)]]; [exact E| |]; exfalso.
    + rewrite <- app_assoc in E. exact (A2 _ E).
    + destruct (exists_last (l := d2 ++ x)) as (y & z & E2); [intros C; rewrite C in E; destruct d1; discriminate|].
      destruct x as [|x0 x] using rev_ind.
      * rewrite app_nil_r in E. exact (A1 _ E).
      * rewrite app_assoc in E. apply app_inj_tail in E. destruct E as [E _]. exact (A2 x (eq_sym E)).
  - intros p r c Hd Hp. destruct (H p) as [E|[(_ & _ & E)|((f & _ & ->) & _)]]; [congruence|congruence|].
    exfalso. rewrite <- app_assoc in Hd. exact (A1 _ Hd).
Qed.

(** what may have changed since the beginning *)
Definition changed_only (jobs : list pjob) (s0 s : node) : Prop :=
  forall q, kind_at s q = kind_at s0 q \/
    ((exists b, In b jobs /\ exists r, pj_dir b = q ++ r) /\ kind_at s0 q = None /\ kind_at s q = Some KDir) \/
    ((exists b f, In b jobs /\ In f (pj_names b) /\ q = pj_dir b ++ [f]) /\ kind_at s0 q <> Some KDir /\ exists c, kind_at s q = Some (KFile c)).
Lemma guar_changed jobs b s0 s s' : In b jobs -> changed_only jobs s0 s -> guar (pj_dir b) (pj_names b) s s' -> changed_only jobs s0 s'.
Proof.
  intros Hb H G q. destruct (G q) as [E|[(P & E1 & E2)|((f & Hf & E) & E1 & c & E2)]].
  - rewrite E. apply H.
  - right. left. split; [exists b; split; assumption|]. split; [|exact E2].
    destruct (H q) as [K|[(_ & _ & K)|(_ & _ & c & K)]]; congruence.
  - right. right. split; [exists b, f; repeat split; assumption|]. split; [|exists c; exact E2].
    destruct (H q) as [K|[(_ & K & _)|(_ & K & _)]]; [congruence|congruence|exact K].
Qed.

Lemma pool_jobs jobs sched s0 pool s :
  apart (map pj_dir jobs) ->
  (forall b, In b jobs -> ok (rely (pj_dir b)) (guar (pj_dir b) (pj_names b)) (done_ok (pj_dir b) (pj_files b)) (pj_proc b) s0) ->
  run_schedule sched (map pj_proc jobs) s0 = (pool, s) ->
  changed_only jobs s0 s /\ List.length pool = List.length jobs /\
  forall i b r, nth_error jobs i = Some b -> ended pool i r -> done_ok (pj_dir b) (pj_files b) r s.
Proof.
  intros A H E. set (D i := pj_dir (nth i jobs dummy)). set (N i := pj_names (nth i jobs dummy)). set (F i := pj_files (nth i jobs dummy)).
  assert (In_nth' : forall i, (i < List.length jobs)%nat -> In (nth i jobs dummy) jobs) by (intros i Hi; apply nth_In, Hi).
  assert (nth_of : forall i b, nth_error jobs i = Some b -> nth i jobs dummy = b) by (intros i b Hi; apply nth_error_nth, Hi).
  pose proof (pool_ok (List.length jobs) (fun i => rely (D i)) (fun i => guar (D i) (N i)) (fun i => done_ok (D i) (F i)) (changed_only jobs s0)
    (fun i => rely_refl (D i)) (fun i => rely_trans (D i))) as P.
  assert (P1 : forall i j s1 s2, (i < List.length jobs)%nat -> (j < List.length jobs)%nat -> i <> j -> guar (D i) (N i) s1 s2 -> rely (D j) s1 s2).
  { intros i j s1 s2 Hi Hj Nij. 
    assert (Ei : nth_error (map pj_dir jobs) i = Some (D i)) by (unfold D; rewrite nth_error_map, (nth_error_nth' jobs dummy Hi); reflexivity).
    assert (Ej : nth_error (map pj_dir jobs) j = Some (D j)) by (unfold D; rewrite nth_error_map, (nth_error_nth' jobs dummy Hj); reflexivity).
    apply guar_rely; [exact (A i j _ _ Nij Ei Ej)|exact (A j i _ _ (not_eq_sym Nij) Ej Ei)]. }
  assert (P2 : forall i s1 s2, (i < List.length jobs)%nat -> changed_only jobs s0 s1 -> guar (D i) (N i) s1 s2 -> changed_only jobs s0 s2).
  { intros i s1 s2 Hi HI G. exact (guar_changed jobs _ s0 s1 s2 (In_nth' i Hi) HI G). }
  specialize (P P1 P2 sched (map pj_proc jobs) s0). rewrite map_length in P. specialize (P eq_refl).
  assert (P3 : forall i t, nth_error (map pj_proc jobs) i = Some t -> ok (rely (D i)) (guar (D i) (N i)) (done_ok (D i) (F i)) t s0).
  { intros i t Hi. rewrite nth_error_map in Hi. destruct (nth_error jobs i) as [b|] eqn:Eb; [|discriminate]. cbn in Hi.
    unfold D, N, F. rewrite (nth_of _ _ Eb). replace t with (pj_proc b) by congruence. apply H. eapply nth_error_In, Eb. }
  specialize (P P3 (fun q => or_introl eq_refl)). rewrite E in P. destruct P as (L & HI & K). split; [exact HI|]. split; [exact L|].
  intros i b r Hb Hr. specialize (K i _ Hr). unfold D, F in K. rewrite (nth_of _ _ Hb) in K. inversion K as [r0 s1 K1|]; subst.
  apply K1, rely_refl.
Qed.

(** a path that is neither above a directory nor a file written *)
Lemma changed_elsewhere jobs s0 s q : changed_only jobs s0 s ->
  (forall b, In b jobs -> (forall r, pj_dir b <> q ++ r) /\ forall f, In f (pj_names b) -> q <> pj_dir b ++ [f]) -> kind_at s q = kind_at s0 q.
Proof.
  intros H K. destruct (H q) as [E|[((b & Hb & r & E) & _)|((b & f & Hb & Hf & E) & _)]]; [exact E| |]; exfalso.
  - exact (proj1 (K b Hb) r E).
  - exact (proj2 (K b Hb) f Hf E).
Qed.
(** once all have ended, what is at every path is known *)
Lemma all_done jobs s0 s q : changed_only jobs s0 s -> (forall b, In b jobs -> map fst (pj_files b) = pj_names b) ->
  (forall b, In b jobs -> kind_at s (pj_dir b) = Some KDir /\ holds s (pj_dir b) (pj_files b)) ->
  (exists b f c, In b jobs /\ In (f, c) (pj_files b) /\ q = pj_dir b ++ [f] /\ kind_at s q = Some (KFile c)) \/
  ((exists b r, In b jobs /\ pj_dir b = q ++ r) /\ kind_at s q = Some KDir) \/
  ((forall b, In b jobs -> (forall r, pj_dir b <> q ++ r) /\ forall f, In f (pj_names b) -> q <> pj_dir b ++ [f]) /\ kind_at s q = kind_at s0 q).
Proof.
  intros H Hf Hd.
  assert (dec : (exists b f c, In b jobs /\ In (f, c) (pj_files b) /\ q = pj_dir b ++ [f] /\ kind_at s q = Some (KFile c)) \/
                forall b, In b jobs -> forall f, In f (pj_names b) -> q <> pj_dir b ++ [f]).
  { clear H. induction jobs as [|b jobs IH]; [right; intros b []|].
    destruct IH as [(b' & f & c & Hb & Hfc & E)|K]; [intros b' Hb; apply Hf; right; exact Hb|intros b' Hb; apply Hd; right; exact Hb| |].
    { left. exists b', f, c. split; [right; exact Hb|]. split; assumption. }
    destruct (in_dec path_dec q (map (fun f => pj_dir b ++ [f]) (pj_names b))) as [Y|N].
    - left. apply in_map_iff in Y. destruct Y as (f & <- & Hi). rewrite <- (Hf b (or_introl eq_refl)) in Hi. apply in_map_iff in Hi.
      destruct Hi as ([f' c] & E & Hi). cbn in E. subst f'. exists b, f, c. split; [left; reflexivity|]. split; [exact Hi|]. split; [reflexivity|].
      apply (proj2 (Hd b (or_introl eq_refl))), Hi.
    - right. intros b' [<-|Hb] f Hi; [|apply K; assumption]. intros E. apply N. apply in_map_iff. exists f. split; [congruence|exact Hi]. }
  destruct dec as [Y|N1]; [left; exact Y|right].
  assert (dec2 : (exists b r, In b jobs /\ pj_dir b = q ++ r) \/ forall b, In b jobs -> forall r, pj_dir b <> q ++ r).
  { clear. induction jobs as [|b jobs IH]; [right; intros b []|]. destruct IH as [(b' & r & Hb & E)|K].
    { left. exists b', r. split; [right; exact Hb|exact E]. }
    destruct (path_dec (firstn (List.length q) (pj_dir b)) q) as [E|N].
    - left. exists b, (skipn (List.length q) (pj_dir b)). split; [left; reflexivity|].
      transitivity (firstn (List.length q) (pj_dir b) ++ skipn (List.length q) (pj_dir b)); [symmetry; apply firstn_skipn|].
      f_equal. exact E.
    - right. intros b' [<-|Hb] r; [|apply K; exact Hb]. intros C. apply N. rewrite C. rewrite firstn_app, firstn_all, Nat.sub_diag.
      cbn. apply app_nil_r. }
  destruct dec2 as [(b & r & Hb & E)|N2].
  - left. split; [exists b, r; split; assumption|]. destruct (Hd b Hb) as [K _]. destruct r as [|x r].
    + rewrite app_nil_r in E. congruence.
    + rewrite E in K. exact (kind_prefix_dir s q (x :: r) KDir K ltac:(discriminate)).
  - right. split; [intros b Hb; split; [apply N2, Hb|apply N1, Hb]|]. apply (changed_elsewhere jobs s0); [exact H|].
    intros b Hb. split; [apply N2, Hb|apply N1, Hb].
Qed.

(** ** one after another *)
Lemma apart_cons d ds : apart (d :: ds) -> apart ds /\ forall d', In d' ds -> (forall r, d' <> d ++ r) /\ (forall r, d <> d' ++ r).
Proof.
  intros H. split.
  - intros i j di dj N Hi Hj. apply (H (S i) (S j)); [congruence|exact Hi|exact Hj].
  - intros d' Hd. apply In_nth_error in Hd. destruct Hd as [i Hi]. split.
    + apply (H O (S i)); [discriminate|reflexivity|exact Hi].
    + apply (H (S i) O); [discriminate|exact Hi|reflexivity].
Qed.
Section Seq.
  Context {J : Type}.
  Variables (dir : J -> path) (files : J -> list (string * string)) (may : J -> node -> Prop) (exec : J -> node -> node).
  Hypothesis may_mono : forall b s s', may b s -> kind_at s' (dir b) = kind_at s (dir b) -> may b s'.
  Hypothesis exec_stored : forall b s, writable s (dir b) (map fst (files b)) -> may b s -> stored s (dir b) (files b) (exec b s).
  Lemma seq_done jobs : forall s, apart (map dir jobs) ->
    (forall b, In b jobs -> writable s (dir b) (map fst (files b)) /\ may b s) ->
    let s' := fold_left (fun s b => exec b s) jobs s in
    (forall b, In b jobs -> kind_at s' (dir b) = Some KDir /\ holds s' (dir b) (files b)) /\
    (forall q, (forall b, In b jobs -> (forall r, dir b <> q ++ r) /\ forall f, In f (map fst (files b)) -> q <> dir b ++ [f]) -> kind_at s' q = kind_at s q).
  Proof.
    induction jobs as [|b jobs IH]; intros s A H; cbn [fold_left].
    { split; [intros b []|reflexivity]. }
    cbn [map] in A. apply apart_cons in A. destruct A as [A1 A2].
    destruct (H b (or_introl eq_refl)) as [Wb Mb]. destruct (exec_stored b s Wb Mb) as (S1 & S2 & S3). set (s1 := exec b s) in *.
    assert (A3 : forall b', In b' jobs -> (forall r, dir b' <> dir b ++ r) /\ (forall r, dir b <> dir b' ++ r)) by (intros b' Hb'; apply A2, in_map, Hb').
    assert (U : forall b' x, In b' jobs -> kind_at s1 (dir b' ++ x) = kind_at s (dir b' ++ x)).
    { intros b' x Hb'. destruct (A3 b' Hb') as [B1 B2]. apply S3.
      - intros f c _ E. destruct x as [|x0 x _] using rev_ind.
        + rewrite app_nil_r in E. exact (B1 _ E).
        + rewrite app_assoc in E. apply app_inj_tail in E. destruct E as [E _]. exact (B2 x (eq_sym E)).
      - intros r E. rewrite <- app_assoc in E. exact (B2 _ E). }
    assert (H1 : forall b', In b' jobs -> writable s1 (dir b') (map fst (files b')) /\ may b' s1).
    { intros b' Hb'. destruct (A3 b' Hb') as [B1 B2]. destruct (H b' (or_intror Hb')) as [(W1 & W2 & W3 & W4) M]. split; [repeat split|].
      - exact W1.
      - apply (S2 [] (dir b)). reflexivity.
      - intros q r c Hq E.
        destruct (in_dec path_dec q (map (fun x => dir b ++ [fst x]) (files b))) as [Y|N].
        { apply in_map_iff in Y. destruct Y as ([f c'] & <- & _). cbn [fst] in Hq. rewrite <- app_assoc in Hq. exact (B1 _ Hq). }
        destruct (path_dec (firstn (List.length q) (dir b)) q) as [P|P].
        { assert (dir b = q ++ skipn (List.length q) (dir b)) as Hp.
          { transitivity (firstn (List.length q) (dir b) ++ skipn (List.length q) (dir b)); [symmetry; apply firstn_skipn|]. f_equal. exact P. }
          rewrite (S2 _ _ Hp) in E. discriminate. }
        rewrite S3 in E; [exact (W3 q r c Hq E)| |].
        + intros f c' Hi Ef. apply N. apply in_map_iff. exists (f, c'). split; [symmetry; exact Ef|exact Hi].
        + intros r' Er. apply P. rewrite Er, firstn_app, firstn_all, Nat.sub_diag. cbn. apply app_nil_r.
      - intros f Hf. rewrite U by exact Hb'. apply W4, Hf.
      - apply (may_mono b' s); [exact M|]. specialize (U b' [] Hb'). rewrite app_nil_r in U. exact U. }
    destruct (IH s1 A1 H1) as [K1 K2]. set (s' := fold_left (fun s b => exec b s) jobs s1) in *. split.
    - intros b' [<-|Hb']; [|apply K1, Hb']. split.
      + rewrite K2.
        * apply (S2 _ []). symmetry. apply app_nil_r.
        * intros b' Hb'. destruct (A3 b' Hb') as [B1 B2]. split; [exact B1|]. intros f _. exact (B2 _).
      + intros f c Hi. rewrite K2; [apply S1, Hi|]. intros b' Hb'. destruct (A3 b' Hb') as [B1 B2]. split.
        * intros r E. rewrite <- app_assoc in E. exact (B1 _ E).
        * intros g _ E. apply app_inj_tail in E. destruct E as [E _]. apply (B2 []). rewrite app_nil_r. exact E.
    - intros q Hq. rewrite K2 by (intros b' Hb'; apply Hq; right; exact Hb'). destruct (Hq b (or_introl eq_refl)) as [Q1 Q2]. apply S3; [|exact Q1].
      intros f c Hi. apply Q2. apply in_map_iff. exists (f, c). split; [reflexivity|exact Hi].
  Qed.
End Seq.
