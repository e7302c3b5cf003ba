(** Creating and loading projects. *)
From Coq Require Import String Ascii.
From Verif Require Import Base.Prelude Base.FileSys Model.Project Model.Letsgo Spec.Project Proofs.FileSys.
Open Scope list_scope.

Lemma proj_file_eq p : pjoin p PROJ_FILE = proj_file p.
Proof. reflexivity. Qed.
Lemma sub_dirs_eq : map snd PROJ_DIRS = sub_names.
Proof. reflexivity. Qed.
Lemma sub_join p d : In d sub_names -> pjoin p d = sub_dir p d.
Proof. intros H. cbn in H. repeat (destruct H as [<-|H]; [reflexivity|]). destruct H. Qed.
Lemma sub_not_file p d : In d sub_names -> sub_dir p d <> proj_file p.
Proof. intros H E. unfold sub_dir, proj_file in E. apply app_inv_head in E. cbn in H. injection E as E. repeat (destruct H as [H|H]; [congruence|]). destruct H. Qed.
Lemma sub_removelast p d : removelast (sub_dir p d) = p.
Proof. apply removelast_last. Qed.
Lemma longer_not_prefix (p : path) x r : p <> (p ++ [x]) ++ r.
Proof. intros E. apply (f_equal (@length string)) in E. rewrite !app_length in E. cbn in E. lia. Qed.
Lemma snoc_inj (p : path) x y : p ++ [x] = p ++ [y] -> x = y.
Proof. intros E. apply app_inv_head in E. congruence. Qed.

(** directories that may appear before the project file is written *)
Definition target (p q : path) : Prop := (exists r, p = q ++ r) \/ exists d, In d sub_names /\ q = sub_dir p d.
Definition grown (p : path) (s s' : node) : Prop :=
  forall q, kind_at s' q = kind_at s q \/ (kind_at s q = None /\ kind_at s' q = Some KDir /\ target p q).
Lemma grown_refl p s : grown p s s.
Proof. intros q. left. reflexivity. Qed.
Lemma grown_trans p s1 s2 s3 : grown p s1 s2 -> grown p s2 s3 -> grown p s1 s3.
Proof.
  intros H1 H2 q. destruct (H1 q) as [E1|(E1 & E2 & T)]; destruct (H2 q) as [F1|(F1 & F2 & T')].
  - left. congruence.
  - right. rewrite <- E1. split; [exact F1|]. split; [exact F2|exact T'].
  - right. split; [exact E1|]. split; [congruence|exact T].
  - congruence.
Qed.
Lemma file_not_target p : ~ target p (proj_file p).
Proof.
  intros [[r E]|(d & H & E)].
  - exact (longer_not_prefix p _ _ E).
  - exact (sub_not_file p d H (eq_sym E)).
Qed.
Lemma grown_creatable p s s' : creatable s p -> grown p s s' -> creatable s' p.
Proof.
  intros (C1 & C2 & C3 & C4 & C5) G. split; [exact C1|]. split; [|split; [|split]].
  - destruct (G []) as [E|(E & _)]; congruence.
  - intros q r c E. destruct (G q) as [E1|(_ & E1 & _)]; rewrite E1; [eapply C3; exact E|discriminate].
  - destruct (G (proj_file p)) as [E|(_ & _ & T)]; [congruence|]. destruct (file_not_target p T).
  - intros d c H. destruct (G (sub_dir p d)) as [E1|(_ & E1 & _)]; rewrite E1; [apply C5; exact H|discriminate].
Qed.

(** one step: mkdir of a sub-directory *)
Lemma mkdir_sub p s d : kind_at s p = Some KDir -> kind_at s (sub_dir p d) = None -> In d sub_names ->
  exists s1, mkdir (sub_dir p d) s = ([s1], (s1, Ok tt)) /\ grown p s s1 /\ kind_at s1 (sub_dir p d) = Some KDir.
Proof.
  intros Hp Hn Hd. unfold mkdir. rewrite exists_kind, Hn, sub_removelast. pose proof Hp as Hp'. apply kind_dir in Hp'. destruct Hp' as [es Hes]. rewrite Hes.
  exists (put s (sub_dir p d) (Dir [])). split; [reflexivity|].
  assert (Lf : leaf (Dir [])) by (left; reflexivity).
  assert (Kn : kind_at s (p ++ [d]) <> Some KDir) by (unfold sub_dir in Hn; rewrite Hn; discriminate).
  split.
  - intros q. unfold sub_dir. rewrite (kind_put s p es d (Dir []) q Hes Lf Kn). destruct (path_dec q (p ++ [d])) as [->|N]; [right|left; reflexivity].
    split; [exact Hn|]. split; [reflexivity|]. right. exists d. split; [exact Hd|reflexivity].
  - unfold sub_dir. rewrite (kind_put s p es d (Dir []) _ Hes Lf Kn). destruct (path_dec (p ++ [d]) (p ++ [d])); [reflexivity|congruence].
Qed.
Lemma make_subdirs_spec p dirs : incl (map snd dirs) sub_names -> forall s, kind_at s p = Some KDir ->
  (forall d c, In d (map snd dirs) -> kind_at s (sub_dir p d) <> Some (KFile c)) ->
  exists t s1, make_subdirs p dirs s = (t, (s1, Ok tt)) /\ grown p s s1 /\ (forall s', In s' t -> grown p s s') /\
    forall d, In d (map snd dirs) -> kind_at s1 (sub_dir p d) = Some KDir.
Proof.
  induction dirs as [|[k d] dirs IH]; intros Hi s Hp Hf; cbn [make_subdirs].
  - exists [], s. split; [reflexivity|]. split; [apply grown_refl|]. split; intros ? [].
  - assert (Hd : In d sub_names) by (apply Hi; left; reflexivity).
    assert (Hi' : incl (map snd dirs) sub_names) by (intros x Hx; apply Hi; right; exact Hx).
    rewrite pbind_eq. cbn [preads fst snd]. rewrite exists_kind, (sub_join p d Hd).
    destruct (kind_at s (sub_dir p d)) as [[c|]|] eqn:K.
    + exfalso. apply (Hf d c); [left; reflexivity|exact K].
    + rewrite pbind_eq. cbn [pret fst snd app].
      destruct (IH Hi' s Hp ltac:(intros d' c H; apply Hf; right; exact H)) as (t & s1 & E & G & T & A). rewrite E. cbn [fst snd].
      exists t, s1. split; [reflexivity|]. split; [exact G|]. split; [exact T|]. intros d' [<-|H]; [|exact (A d' H)]. cbn [snd].
      destruct (G (sub_dir p d)) as [E1|(_ & E1 & _)]; [congruence|exact E1].
    + destruct (mkdir_sub p s d Hp K Hd) as (s0 & E0 & G0 & K0). rewrite pbind_eq, E0. cbn [fst snd app].
      assert (Hp0 : kind_at s0 p = Some KDir) by (destruct (G0 p) as [E1|(_ & E1 & _)]; congruence).
      destruct (IH Hi' s0 Hp0) as (t & s1 & E & G & T & A).
      { intros d' c H. destruct (G0 (sub_dir p d')) as [E1|(_ & E1 & _)]; rewrite E1; [apply Hf; right; exact H|discriminate]. }
      rewrite E. cbn [fst snd]. exists (s0 :: t), s1. split; [reflexivity|]. split; [exact (grown_trans _ _ _ _ G0 G)|].
      split; [intros s' [<-|H]; [exact G0|exact (grown_trans _ _ _ _ G0 (T s' H))]|].
      intros d' [<-|H]; [|exact (A d' H)]. cbn [snd]. destruct (G (sub_dir p d)) as [E1|(_ & E1 & _)]; [congruence|exact E1].
Qed.

Section New.
  Context {M D : Type}.
  Variable pser : M -> string.
  Variable pparse : string -> res M.
  Variable inter : string -> list string.

  (** the shape of a run: directories first, then the project file *)
  Lemma new_spec s p m : creatable s p -> exists t s1,
    new pser inter p m s = (t ++ map (fun c => put s1 (proj_file p) (File c)) (""%string :: inter (pser m) ++ [pser m]), (put s1 (proj_file p) (File (pser m)), Ok tt)) /\
    (forall s', In s' (s :: t) -> grown p s s') /\ grown p s s1 /\ kind_at s1 p = Some KDir /\
    (forall q r, p = q ++ r -> kind_at s1 q = Some KDir) /\ (forall d, In d sub_names -> kind_at s1 (sub_dir p d) = Some KDir).
  Proof.
    intros C. pose proof C as (C1 & C2 & C3 & C4 & C5). unfold new. rewrite proj_file_eq, pbind_eq. cbn [preads fst snd].
    assert (E : exists_ s p && is_dir_ s p && exists_ s (proj_file p) = false) by (rewrite (exists_kind s (proj_file p)), C4; apply andb_false_r).
    rewrite E. rewrite pbind_eq. cbn [preads fst snd app].
    (* the project directory *)
    assert (P : exists t0 s0, (if exists_ s p then pres (fun s => assert_dir s p) else mkdir_parents p) s = (t0, (s0, Ok tt)) /\
      (forall s', In s' t0 -> grown p s s') /\ grown p s s0 /\ kind_at s0 p = Some KDir).
    { rewrite exists_kind. destruct (kind_at s p) as [[c|]|] eqn:K.
      - exfalso. apply (C3 p [] c); [rewrite app_nil_r; reflexivity|exact K].
      - exists [], s. unfold pres, assert_dir. rewrite exists_kind, is_dir_kind, K. cbn [negb]. split; [reflexivity|]. split; [intros ? []|]. split; [apply grown_refl|first [exact K|reflexivity]].
      - unfold mkdir_parents. destruct (mkdir_parents_spec p [] s C1 C2) as (I1 & I2 & I3 & I4 & _ & I5).
        { intros q (r & Er & _) c. cbn [app]. exact (C3 q r c Er). }
        { exact K. }
        destruct (mkdir_parents_from [] p s) as [t0 [s0 r0]]. cbn [fst snd app] in *. exists t0, s0. rewrite I1.
        assert (G : forall s', In s' t0 -> grown p s s').
        { intros s' H q. destruct (I5 s' H q) as [F|(F1 & F2 & a & b & F3 & _ & F4)]; [left; exact F|right].
          split; [exact F1|]. split; [exact F2|]. left. exists b. rewrite F4. cbn. exact F3. }
        split; [reflexivity|]. split; [exact G|]. split; [|exact I2].
        apply G. rewrite I3. destruct t0 as [|x t0]; [congruence|]. clear.
        revert x. induction t0 as [|y t0 IH]; intros x; [left; reflexivity|]. right. apply IH. }
    destruct P as (t0 & s0 & E0 & T0 & G0 & K0). rewrite pbind_eq, E0. cbn [fst snd].
    destruct (make_subdirs_spec p PROJ_DIRS ltac:(intros x Hx; exact Hx) s0 K0) as (t1 & s1 & E1 & G1 & T1 & A1).
    { intros d c H. apply (grown_creatable p s s0 C G0). exact H. }
    rewrite pbind_eq, E1. cbn [fst snd].
    assert (G : grown p s s1) by exact (grown_trans _ _ _ _ G0 G1).
    assert (Kp : kind_at s1 p = Some KDir) by (destruct (G1 p) as [F|(_ & F & _)]; congruence).
    assert (Kf : kind_at s1 (proj_file p) = None) by (apply (grown_creatable p s s1 C G)).
    unfold write_json. rewrite write_file_ok; [|unfold proj_file; destruct p; discriminate|unfold proj_file; rewrite removelast_last; exact Kp|rewrite Kf; discriminate].
    cbn [fst snd]. exists (t0 ++ t1), s1. rewrite app_assoc. split; [reflexivity|].
    split; [|split; [exact G|split; [exact Kp|split; [|exact A1]]]].
    - intros s' [<-|H]; [apply grown_refl|]. apply in_app_iff in H. destruct H as [H|H]; [exact (T0 s' H)|exact (grown_trans _ _ _ _ G0 (T1 s' H))].
    - intros q r Eq. (* ancestors of an existing directory are directories *)
      clear - Kp Eq. unfold kind_at in *. rewrite Eq, look_app in Kp. destruct (look s1 q) as [[c|es]|]; [|reflexivity|discriminate].
      destruct r as [|x r]; [exact Kp|discriminate].
  Qed.
  Lemma put_file_kind s1 p c q : kind_at s1 p = Some KDir -> kind_at s1 (proj_file p) = None ->
    kind_at (put s1 (proj_file p) (File c)) q = if path_dec q (proj_file p) then Some (KFile c) else kind_at s1 q.
  Proof.
    intros Kp Kf. pose proof Kp as K. apply kind_dir in K. destruct K as [es K]. unfold proj_file.
    apply (kind_put s1 p es _ (File c) q K); [right; exists c; reflexivity|]. unfold proj_file in Kf. rewrite Kf. discriminate.
  Qed.
  Lemma created_final s p m : creatable s p -> created s p (pser m) (final (new pser inter p m) s) /\ result (new pser inter p m) s = Ok tt.
  Proof.
    intros C. destruct (new_spec s p m C) as (t & s1 & E & _ & G & Kp & A & B). unfold final, result. rewrite E. cbn [fst snd].
    assert (Kf : kind_at s1 (proj_file p) = None) by (apply (grown_creatable p s s1 C G)).
    assert (K := put_file_kind s1 p (pser m)). split; [|reflexivity]. split; [|split; [|split]].
    - rewrite K by assumption. destruct (path_dec (proj_file p) (proj_file p)); [reflexivity|congruence].
    - intros d H. rewrite K by assumption. destruct (path_dec (sub_dir p d) (proj_file p)) as [F|F]; [destruct (sub_not_file p d H F)|exact (B d H)].
    - intros q r Eq. rewrite K by assumption. destruct (path_dec q (proj_file p)) as [F|F]; [|exact (A q r Eq)].
      exfalso. rewrite F in Eq. unfold proj_file in Eq. exact (longer_not_prefix p _ r Eq).
    - intros q N1 N2 N3. rewrite K by assumption. destruct (path_dec q (proj_file p)) as [F|F]; [congruence|].
      destruct (G q) as [F1|(_ & _ & [[r T]|(d & T1 & T2)])]; [exact F1|destruct (N3 r T)|destruct (N2 d T1 T2)].
  Qed.
  Lemma created_same s1 s2 p text s1' s2' : grown p s1 s2 -> created s1 p text s1' -> created s2 p text s2' -> same_files s1' s2'.
  Proof.
    intros G (A1 & A2 & A3 & A4) (B1 & B2 & B3 & B4) q.
    destruct (path_dec q (proj_file p)) as [->|N1]; [congruence|].
    destruct (in_dec string_dec (last q ""%string) sub_names) as [Hd|Hd].
    - destruct (path_dec q (sub_dir p (last q ""%string))) as [Eq|N2].
      + rewrite Eq, (A2 _ Hd), (B2 _ Hd). reflexivity.
      + destruct (Nat.le_gt_cases (length p) (length q)) as [L|L].
        * destruct (path_dec q p) as [->|N3]; [rewrite (A3 p []), (B3 p []) by (rewrite app_nil_r; reflexivity); reflexivity|].
          assert (N2' : forall d, In d sub_names -> q <> sub_dir p d).
          { intros d H E. apply N2. rewrite E. unfold sub_dir. rewrite last_last. reflexivity. }
          assert (N4 : forall r, p <> q ++ r).
          { intros r E. destruct r as [|x r]; [rewrite app_nil_r in E; congruence|]. apply (f_equal (@length string)) in E. rewrite app_length in E. cbn in E. lia. }
          rewrite A4, B4 by assumption. destruct (G q) as [F|(_ & _ & [[r T]|(d & T1 & T2)])]; [congruence|destruct (N4 r T)|destruct (N2' d T1 T2)].
        * destruct (path_dec (firstn (length q) p) q) as [E|E].
          { rewrite (A3 q (skipn (length q) p)), (B3 q (skipn (length q) p)); [reflexivity| |]; rewrite <- E at 1; rewrite firstn_skipn; reflexivity. }
          assert (N2' : forall d, In d sub_names -> q <> sub_dir p d).
          { intros d H E'. apply N2. rewrite E'. unfold sub_dir. rewrite last_last. reflexivity. }
          assert (N4 : forall r, p <> q ++ r).
          { intros r E'. apply E. rewrite E', firstn_app, firstn_all, Nat.sub_diag. cbn. apply app_nil_r. }
          rewrite A4, B4 by assumption. destruct (G q) as [F|(_ & _ & [[r T]|(d & T1 & T2)])]; [congruence|destruct (N4 r T)|destruct (N2' d T1 T2)].
    - assert (N2' : forall d, In d sub_names -> q <> sub_dir p d).
      { intros d H E'. apply Hd. rewrite E'. unfold sub_dir. rewrite last_last. exact H. }
      destruct (path_dec (firstn (length q) p) q) as [E|E].
      + rewrite (A3 q (skipn (length q) p)), (B3 q (skipn (length q) p)); [reflexivity| |]; rewrite <- E at 1; rewrite firstn_skipn; reflexivity.
      + assert (N4 : forall r, p <> q ++ r).
        { intros r E'. apply E. rewrite E', firstn_app, firstn_all, Nat.sub_diag. cbn. apply app_nil_r. }
        rewrite A4, B4 by assumption. destruct (G q) as [F|(_ & _ & [[r T]|(d & T1 & T2)])]; [congruence|destruct (N4 r T)|destruct (N2' d T1 T2)].
  Qed.
  Lemma new_refuses s p m k : kind_at s p = Some KDir -> kind_at s (proj_file p) = Some k ->
    new pser inter p m s = ([], (s, Err ProjectCreateError)).
  Proof.
    intros Kp Kf. unfold new. rewrite proj_file_eq, pbind_eq. cbn [preads fst snd].
    rewrite !exists_kind, is_dir_kind, Kp, Kf. reflexivity.
  Qed.
  Lemma new_crash s p m s' : creatable s p -> In s' (crash_states (new pser inter p m) s) ->
    (kind_at s' (proj_file p) = None /\ result (new pser inter p m) s' = Ok tt /\
     same_files (final (new pser inter p m) s') (final (new pser inter p m) s)) \/
    (exists c, In c (""%string :: inter (pser m) ++ [pser m]) /\ kind_at s' (proj_file p) = Some (KFile c) /\
       (forall d, In d sub_names -> kind_at s' (sub_dir p d) = Some KDir) /\
       new pser inter p m s' = ([], (s', Err ProjectCreateError)) /\
       (c = pser m -> s' = final (new pser inter p m) s)).
  Proof.
    intros C H. destruct (new_spec s p m C) as (t & s1 & E & T & G & Kp & A & B).
    assert (Kf : kind_at s1 (proj_file p) = None) by (apply (grown_creatable p s s1 C G)).
    unfold crash_states in H. rewrite E in H. cbn [fst] in H. rewrite app_comm_cons in H. apply in_app_iff in H. destruct H as [H|H].
    - left. assert (G' := T s' H). assert (C' := grown_creatable p s s' C G'). split; [apply C'|].
      destruct (created_final s' p m C') as [F1 F2]. split; [exact F2|]. destruct (created_final s p m C) as [F3 _].
      intros q. symmetry. exact (created_same s s' p (pser m) _ _ G' F3 F1 q).
    - right. apply in_map_iff in H. destruct H as (c & <- & Hc). exists c. split; [exact Hc|].
      assert (K := put_file_kind s1 p c).
      assert (K1 : kind_at (put s1 (proj_file p) (File c)) (proj_file p) = Some (KFile c)).
      { rewrite K by assumption. destruct (path_dec (proj_file p) (proj_file p)); [reflexivity|congruence]. }
      split; [exact K1|]. split; [|split].
      + intros d Hd. rewrite K by assumption. destruct (path_dec (sub_dir p d) (proj_file p)) as [F|F]; [destruct (sub_not_file p d Hd F)|exact (B d Hd)].
      + eapply new_refuses; [|exact K1]. rewrite K by assumption. destruct (path_dec p (proj_file p)) as [F|F]; [|exact Kp].
        exfalso. unfold proj_file in F. apply (longer_not_prefix p "resistics.json"%string []). rewrite app_nil_r. exact F.
      + intros ->. unfold final. rewrite E. reflexivity.
  Qed.
End New.
