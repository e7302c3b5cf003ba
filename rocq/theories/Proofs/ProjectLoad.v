(** Directory listings and loading projects. *)
From Coq Require Import String Ascii.
From Verif Require Import Base.Prelude Base.FileSys Model.Project Model.Letsgo Spec.Project Proofs.FileSys Proofs.ProjectFs.
Open Scope list_scope.
Open Scope Q_scope.

Lemma iterdir_In s p x : In x (iterdir s p) <-> kind_at s (p ++ [x]) <> None.
Proof.
  unfold iterdir, kind_at. rewrite look_app. destruct (look s p) as [[c|es]|]; cbn [look]; [cbn; tauto| |cbn; tauto].
  destruct (assoc x es) as [m|] eqn:E; cbn [option_map].
  - split; [discriminate|]. intros _. apply assoc_In in E. apply in_map_iff. exists (x, m). split; [reflexivity|exact E].
  - split; [|congruence]. intros H. exfalso. apply assoc_none in E. exact (E H).
Qed.
Lemma dir_contents_ok s p : kind_at s p = Some KDir -> dir_contents s p =
  Ok (map (fun x => p ++ [x]) (filter (fun x => is_dir_ s (p ++ [x])) (iterdir s p)),
      map (fun x => p ++ [x]) (filter (fun x => is_file_ s (p ++ [x])) (iterdir s p))).
Proof.
  intros K. unfold dir_contents. rewrite exists_kind, is_dir_kind, K. cbn [negb]. f_equal. f_equal.
  - induction (iterdir s p) as [|x l IH]; [reflexivity|]. cbn [map filter]. rewrite IH.
    assert (E : negb (is_file_ s (p ++ [x])) && is_dir_ s (p ++ [x]) = is_dir_ s (p ++ [x])).
    { rewrite is_file_kind, is_dir_kind. destruct (kind_at s (p ++ [x])) as [[]|]; reflexivity. }
    rewrite E. destruct (is_dir_ s (p ++ [x])); reflexivity.
  - induction (iterdir s p) as [|x l IH]; [reflexivity|]. cbn [map filter]. rewrite IH. destruct (is_file_ s (p ++ [x])); reflexivity.
Qed.
Definition subs (s : node) (p : path) : list string := filter (fun x => is_dir_ s (p ++ [x])) (iterdir s p).
Lemma dir_subdirs_ok s p : kind_at s p = Some KDir -> dir_subdirs s p = Ok (map (fun x => p ++ [x]) (subs s p)).
Proof. intros K. unfold dir_subdirs. rewrite (dir_contents_ok s p K). reflexivity. Qed.
Lemma subs_In s p x : In x (subs s p) <-> kind_at s (p ++ [x]) = Some KDir.
Proof.
  unfold subs. rewrite filter_In, iterdir_In, is_dir_kind. destruct (kind_at s (p ++ [x])) as [[c|]|]; split; intros H; try discriminate; try tauto; try (destruct H; discriminate).
  split; [discriminate|reflexivity].
Qed.
Lemma NoDup_filter {A} (f : A -> bool) l : NoDup l -> NoDup (filter f l).
Proof.
  induction l as [|x l IH]; intros N; [constructor|]. apply NoDup_cons_iff in N. destruct N as [N1 N2]. cbn. destruct (f x); [|exact (IH N2)].
  constructor; [|exact (IH N2)]. intros H. apply filter_In in H. apply N1. apply H.
Qed.
Lemma subs_NoDup s p : wf_names s -> NoDup (subs s p).
Proof. intros W. apply NoDup_filter. apply W. Qed.
Lemma NoDup_map_snoc (p : path) l : NoDup l -> NoDup (map (fun x => p ++ [x]) l).
Proof.
  intros N. induction N as [|x l H N IH]; cbn; constructor; [|exact IH]. intros K. apply in_map_iff in K. destruct K as (y & E & K). apply snoc_inj in E. subst y. exact (H K).
Qed.

(** ** extremes *)
Lemma min_q_spec l : forall x, is_min (min_q x l) (x :: l).
Proof.
  induction l as [|y l IH]; intros x; cbn [min_q].
  - split; [exists x; split; [left; reflexivity|reflexivity]|]. intros y [<-|[]]. lra.
  - destruct (IH (if Qltb y x then y else x)) as [(z & Hz & Ez) B]. split.
    + exists z. split; [|exact Ez]. destruct Hz as [<-|Hz]; [|right; right; exact Hz]. destruct (Qltb y x); [right; left; reflexivity|left; reflexivity].
    + pose proof (B _ (or_introl eq_refl)) as B0. intros z' [<-|[<-|H]].
      * destruct (Qltb y x) eqn:E; [apply Qltb_true in E; lra|lra].
      * destruct (Qltb y x) eqn:E; [exact B0|apply Qltb_false in E; lra].
      * apply B. right. exact H.
Qed.
Lemma max_q_spec l : forall x, is_max (max_q x l) (x :: l).
Proof.
  induction l as [|y l IH]; intros x; cbn [max_q].
  - split; [exists x; split; [left; reflexivity|reflexivity]|]. intros y [<-|[]]. lra.
  - destruct (IH (if Qltb x y then y else x)) as [(z & Hz & Ez) B]. split.
    + exists z. split; [|exact Ez]. destruct Hz as [<-|Hz]; [|right; right; exact Hz]. destruct (Qltb x y); [right; left; reflexivity|left; reflexivity].
    + pose proof (B _ (or_introl eq_refl)) as B0. intros z' [<-|[<-|H]].
      * destruct (Qltb x y) eqn:E; [apply Qltb_true in E; lra|lra].
      * destruct (Qltb x y) eqn:E; [exact B0|apply Qltb_false in E; lra].
      * apply B. right. exact H.
Qed.
Lemma span_spec {A} (now : Q * Q) (f g : A -> Q) (l : list A) :
  match l with
  | [] => (fst (span now (map f l) (map g l)), snd (span now (map f l) (map g l))) = now
  | _ => is_min (fst (span now (map f l) (map g l))) (map f l) /\ is_max (snd (span now (map f l) (map g l))) (map g l)
  end.
Proof.
  destruct l as [|x l]; cbn [map span fst snd]; [destruct now; reflexivity|]. split; [apply min_q_spec|apply max_q_spec].
Qed.

(** ** first success *)
Lemma first_success_cons {A B} (a : A) l (f : A -> res B) x b :
  first_success (a :: l) f x b <-> (x = a /\ f a = Ok b) \/ ((forall b', f a <> Ok b') /\ first_success l f x b).
Proof.
  split.
  - intros ([|i] & H1 & H2 & H3).
    + left. injection H1 as ->. split; [reflexivity|exact H2].
    + right. split; [intros b'; apply (H3 0%nat); [lia|reflexivity]|]. exists i. split; [exact H1|]. split; [exact H2|].
      intros j a' Hj Ha. apply (H3 (S j)); [lia|exact Ha].
  - intros [[-> H]|[H0 (i & H1 & H2 & H3)]].
    + exists 0%nat. split; [reflexivity|]. split; [exact H|]. intros j a' Hj. lia.
    + exists (S i). split; [exact H1|]. split; [exact H2|]. intros [|j] a' Hj Ha; [injection Ha as <-; exact H0|apply (H3 j); [lia|exact Ha]].
Qed.
Lemma first_success_nil {A B} (f : A -> res B) x b : ~ first_success [] f x b.
Proof. intros ([|i] & H & _); discriminate. Qed.

Section Load.
  Context {M D : Type}.
  Variable pser : M -> string.
  Variable pparse : string -> res M.
  Variable inter : string -> list string.
  Variable now : path -> Q * Q.
  Notation reader := (reader D).

  Lemma load_measurement_some s (readers : list reader) site d m :
    load_measurement s readers site d = Some m <-> exists r md, first_success readers (fun r => rd_md r s d) r md /\ m = mkMeas site d md (rd_name r).
  Proof.
    induction readers as [|r t IH]; cbn [load_measurement].
    - split; [discriminate|]. intros (r & md & H & _). destruct (first_success_nil _ _ _ H).
    - destruct (rd_md r s d) as [md|e] eqn:E.
      + split.
        * intros H. injection H as <-. exists r, md. split; [|reflexivity]. apply first_success_cons. left. split; [reflexivity|exact E].
        * intros (r' & md' & H & ->). apply first_success_cons in H. destruct H as [[-> H]|[H _]]; [cbn beta in H; congruence|]. destruct (H md E).
      + rewrite IH. split; intros (r' & md' & H & ->); exists r', md'; (split; [|reflexivity]).
        * apply first_success_cons. right. split; [intros b'; rewrite E; discriminate|exact H].
        * apply first_success_cons in H. destruct H as [[-> H]|[_ H]]; [cbn beta in H; congruence|exact H].
  Qed.
  Lemma load_measurement_none s (readers : list reader) site d : load_measurement s readers site d = None <-> all_fail readers (fun r => rd_md r s d).
  Proof.
    induction readers as [|r t IH]; cbn [load_measurement].
    - split; [intros _ a b []|reflexivity].
    - destruct (rd_md r s d) as [md|e] eqn:E.
      + split; [discriminate|]. intros H. destruct (H r md (or_introl eq_refl) E).
      + rewrite IH. split; intros H a b.
        * intros [<-|K]; [congruence|exact (H a b K)].
        * intros K. apply H. right. exact K.
  Qed.
  Lemma quick_read_ok s (readers : list reader) d x : quick_read s readers d = Ok x <-> exists r, first_success readers (fun r => rd_run r s d) r x.
  Proof.
    induction readers as [|r t IH]; cbn [quick_read].
    - split; [discriminate|]. intros (r & H). destruct (first_success_nil _ _ _ H).
    - destruct (rd_run r s d) as [md|e] eqn:E.
      + split.
        * intros H. injection H as <-. exists r. apply first_success_cons. left. split; [reflexivity|exact E].
        * intros (r' & H). apply first_success_cons in H. destruct H as [[-> H]|[H _]]; [cbn beta in H; congruence|]. destruct (H md E).
      + rewrite IH. split; intros (r' & H); exists r'.
        * apply first_success_cons. right. split; [intros b'; rewrite E; discriminate|exact H].
        * apply first_success_cons in H. destruct H as [[-> H]|[_ H]]; [cbn beta in H; congruence|exact H].
  Qed.
  Lemma quick_read_err s (readers : list reader) d : all_fail readers (fun r => rd_run r s d) -> quick_read s readers d = Err TimeDataReadError.
  Proof.
    induction readers as [|r t IH]; cbn [quick_read]; [reflexivity|]. intros H. destruct (rd_run r s d) as [x|e] eqn:E.
    - destruct (H r x (or_introl eq_refl) E).
    - apply IH. intros a b K. apply H. right. exact K.
  Qed.

  Definition meas_of s (readers : list reader) (d : path) (name : string) : list (string * meas) :=
    match load_measurement s readers (path_name d) (d ++ [name]) with Some m => [(name, m)] | None => [] end.
  Lemma path_name_snoc (d : path) x : path_name (d ++ [x]) = x.
  Proof. apply last_last. Qed.
  Lemma load_meas_all_eq s (readers : list reader) d names : forall acc, NoDup (map fst acc ++ names) ->
    load_meas_all s readers (path_name d) (map (fun x => d ++ [x]) names) acc = acc ++ flat_map (meas_of s readers d) names.
  Proof.
    induction names as [|x names IH]; intros acc N; cbn [map load_meas_all flat_map]; [rewrite app_nil_r; reflexivity|].
    rewrite path_name_snoc. unfold meas_of at 1. destruct (load_measurement s readers (path_name d) (d ++ [x])) as [m|].
    - rewrite set_assoc_new.
      + rewrite IH; [rewrite <- app_assoc; reflexivity|]. rewrite map_app, <- app_assoc. exact N.
      + apply assoc_none. intros H. apply NoDup_remove_2 in N. apply N. apply in_app_iff. left. exact H.
    - rewrite IH; [reflexivity|]. exact (NoDup_remove_1 _ _ _ N).
  Qed.
  Lemma flat_map_names s (readers : list reader) d names : NoDup names -> NoDup (map fst (flat_map (meas_of s readers d) names)) /\
    forall name m, In (name, m) (flat_map (meas_of s readers d) names) <-> In name names /\ load_measurement s readers (path_name d) (d ++ [name]) = Some m.
  Proof.
    intros N. split.
    - induction N as [|x l H N IH]; cbn; [constructor|]. rewrite map_app. unfold meas_of at 1.
      destruct (load_measurement s readers (path_name d) (d ++ [x])) as [m|]; cbn; [|exact IH]. constructor; [|exact IH].
      intros K. apply H. apply in_map_iff in K. destruct K as ([y m'] & E & K). cbn in E. subst y. apply in_flat_map in K. destruct K as (z & Hz & K).
      unfold meas_of in K. destruct (load_measurement s readers (path_name d) (d ++ [z])); [|destruct K]. destruct K as [K|[]]. injection K as -> _. exact Hz.
    - intros name m. rewrite in_flat_map. split.
      + intros (z & Hz & K). unfold meas_of in K. destruct (load_measurement s readers (path_name d) (d ++ [z])) as [m'|] eqn:E; [|destruct K]. destruct K as [K|[]].
        injection K as -> ->. split; [exact Hz|exact E].
      + intros [H E]. exists name. split; [exact H|]. unfold meas_of. rewrite E. left. reflexivity.
  Qed.
  Lemma load_site_ok s (readers : list reader) d : wf_names s -> kind_at s d = Some KDir ->
    exists st, load_site now s readers d = Ok st /\ site_of now s readers d st.
  Proof.
    intros W K. unfold load_site. rewrite (dir_subdirs_ok s d K). cbn [bind].
    assert (N : NoDup (subs s d)) by exact (subs_NoDup s d W).
    rewrite (load_meas_all_eq s readers d (subs s d) []) by exact N. cbn [app].
    destruct (flat_map_names s readers d (subs s d) N) as [N1 H1].
    eexists. split; [reflexivity|]. split; [reflexivity|]. cbn [st_meas st_begin st_end]. split; [exact N1|]. split.
    - intros name m. rewrite H1, subs_In, load_measurement_some. reflexivity.
    - apply (span_spec (now d) (fun x => mm_first (me_md (snd x))) (fun x => mm_last (me_md (snd x)))).
  Qed.
  Lemma load_sites_ok s (readers : list reader) t names : wf_names s -> forall acc, NoDup (map fst acc ++ names) ->
    (forall x, In x names -> kind_at s (t ++ [x]) = Some KDir) ->
    exists l, load_sites now s readers (map (fun x => t ++ [x]) names) acc = Ok (acc ++ l) /\ map fst l = names /\
      forall name st, In (name, st) l -> site_of now s readers (t ++ [name]) st.
  Proof.
    intros W. induction names as [|x names IH]; intros acc N K; cbn [map load_sites].
    - exists []. rewrite app_nil_r. split; [reflexivity|]. split; [reflexivity|]. intros name st [].
    - destruct (load_site_ok s readers (t ++ [x]) W (K x (or_introl eq_refl))) as (st & E & S). rewrite E. cbn [bind]. rewrite path_name_snoc.
      rewrite set_assoc_new.
      + destruct (IH (acc ++ [(x, st)])) as (l & El & Ml & Sl).
        { rewrite map_app, <- app_assoc. exact N. }
        { intros y Hy. apply K. right. exact Hy. }
        exists ((x, st) :: l). rewrite El, <- app_assoc. split; [reflexivity|]. split; [cbn; rewrite Ml; reflexivity|].
        intros name st' [H|H]; [injection H as <- <-; exact S|exact (Sl name st' H)].
      + apply assoc_none. intros H. apply NoDup_remove_2 in N. apply N. apply in_app_iff. left. exact H.
  Qed.
  (** loading succeeds exactly when the directory, the project file, its text and time/ are there *)
  Lemma load_ok s (readers : list reader) p text m : wf_names s -> kind_at s p = Some KDir ->
    kind_at s (proj_file p) = Some (KFile text) -> pparse text = Ok m -> kind_at s (sub_dir p "time"%string) = Some KDir ->
    exists pr, load pparse now readers p s = Ok pr /\ project_of now s readers p m pr.
  Proof.
    intros W Kp Kf Hm Kt. unfold load, assert_dir. rewrite exists_kind, is_dir_kind, Kp. cbn [negb bind].
    rewrite proj_file_eq, exists_kind, Kf. cbn [negb]. unfold check_subdirs, PROJ_DIRS, assert_dir.
    change (pjoin p "time"%string) with (sub_dir p "time"%string). rewrite exists_kind, is_dir_kind, Kt. cbn [negb bind].
    rewrite read_file_kind, Kf. cbn [bind]. rewrite Hm. cbn [bind].
    change (pjoin p (proj_sub "time"%string)) with (sub_dir p "time"%string). rewrite (dir_subdirs_ok s _ Kt). cbn [bind].
    destruct (load_sites_ok s readers (sub_dir p "time"%string) (subs s (sub_dir p "time"%string)) W []) as (l & El & Ml & Sl).
    { exact (subs_NoDup s _ W). }
    { intros x H. apply subs_In. exact H. }
    rewrite El. cbn [app bind]. eexists. split; [reflexivity|].
    assert (A : forall name, (p ++ ["time"; name]%string) = sub_dir p "time"%string ++ [name]) by (intros name; unfold sub_dir; rewrite <- app_assoc; reflexivity).
    split; [reflexivity|]. split; [reflexivity|]. cbn [pr_sites pr_begin pr_end]. rewrite Ml. split; [exact (subs_NoDup s _ W)|]. split; [|split].
    - intros name st H. rewrite A. exact (Sl name st H).
    - intros name. rewrite A. apply subs_In.
    - apply (span_spec (now p) (fun x => st_begin (snd x)) (fun x => st_end (snd x))).
  Qed.
  Lemma load_needs s (readers : list reader) p pr : load pparse now readers p s = Ok pr ->
    kind_at s p = Some KDir /\ kind_at s (sub_dir p "time"%string) = Some KDir /\
    exists text m, kind_at s (proj_file p) = Some (KFile text) /\ pparse text = Ok m.
  Proof.
    unfold load, assert_dir. rewrite exists_kind, is_dir_kind. destruct (kind_at s p) as [[c|]|] eqn:Kp; cbn [negb bind]; try discriminate.
    rewrite proj_file_eq, exists_kind. destruct (kind_at s (proj_file p)) as [k|] eqn:Kf; cbn [negb]; [|discriminate].
    unfold check_subdirs, PROJ_DIRS, assert_dir. change (pjoin p "time"%string) with (sub_dir p "time"%string).
    rewrite exists_kind, is_dir_kind. destruct (kind_at s (sub_dir p "time"%string)) as [[c|]|] eqn:Kt; cbn [negb bind]; try discriminate.
    rewrite read_file_kind, Kf. destruct k as [text|]; cbn [bind]; [|discriminate]. destruct (pparse text) as [m|e] eqn:Em; cbn [bind]; [|discriminate].
    intros _. split; [reflexivity|]. split; [reflexivity|]. exists text, m. split; [reflexivity|exact Em].
  Qed.
End Load.

(** ** the listing functions *)
Lemma listing s p : wf_names s -> kind_at s p = Some KDir ->
  exists dirs files, dir_contents s p = Ok (dirs, files) /\ dir_subdirs s p = Ok dirs /\ dir_files s p = Ok files /\
    NoDup dirs /\ NoDup files /\
    (forall o, In o dirs <-> exists x, o = p ++ [x] /\ kind_at s o = Some KDir) /\
    (forall o, In o files <-> exists x c, o = p ++ [x] /\ kind_at s o = Some (KFile c)).
Proof.
  intros W K. unfold dir_subdirs, dir_files. rewrite (dir_contents_ok s p K). cbn [bind fst snd]. eexists _, _. split; [reflexivity|]. split; [reflexivity|]. split; [reflexivity|].
  split; [apply NoDup_map_snoc, NoDup_filter, W|]. split; [apply NoDup_map_snoc, NoDup_filter, W|]. split; intros o; rewrite in_map_iff.
  - split.
    + intros (x & <- & H). exists x. split; [reflexivity|]. apply subs_In. exact H.
    + intros (x & -> & H). exists x. split; [reflexivity|]. apply subs_In. exact H.
  - split.
    + intros (x & <- & H). apply filter_In in H. rewrite is_file_kind in H. destruct (kind_at s (p ++ [x])) as [[c|]|] eqn:E; try (destruct H; discriminate).
      exists x, c. split; [reflexivity|reflexivity].
    + intros (x & c & -> & H). exists x. split; [reflexivity|]. apply filter_In. rewrite iterdir_In, is_file_kind, H. split; [discriminate|reflexivity].
Qed.
