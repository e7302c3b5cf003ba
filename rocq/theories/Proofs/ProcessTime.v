(** C83: processed time data as a new measurement. *)
From Coq Require Import String Ascii.
From Verif Require Import Spec.Project.
From Verif Require Import Base.Prelude Base.ListUtil Base.Rounding Base.FileSys Model.Project Model.Sampling Spec.Sampling Model.Time Model.Persist Model.ProcessTime
  Spec.Time Spec.Persist Proofs.FileSys Proofs.ProjectNames Proofs.PersistFs Proofs.TimeMeta Proofs.TimeProc Proofs.TimeFinal Proofs.PersistTime Proofs.PipelineUse Proofs.Alias.
Open Scope list_scope.
Open Scope Q_scope.

Lemma set_set {A} k (v w : A) l : set_assoc k v (set_assoc k w l) = set_assoc k v l.
Proof.
  induction l as [|[x y] l IH]; cbn; [rewrite String.eqb_refl; reflexivity|].
  destruct (String.eqb x k) eqn:E; cbn; rewrite E; [reflexivity|rewrite IH; reflexivity].
Qed.
Lemma put_put p : forall s v w, put (put s p w) p v = put s p v.
Proof.
  induction p as [|x q IH]; intros s v w; [reflexivity|]. cbn [put]. destruct s as [c|es]; [reflexivity|].
  destruct (assoc x es) as [m|] eqn:E.
  - cbn [put]. rewrite assoc_set_same, set_set, IH. reflexivity.
  - destruct q as [|y q]; [|rewrite E; reflexivity]. cbn [put]. rewrite assoc_set_same, set_set. reflexivity.
Qed.

Section PT.
  Variable rnd : Q -> Q.
  Hypothesis G : good_rnd rnd.
  Variable drnd : Q -> Q.
  Variable orc : oracles.
  Variable tser : tmeta -> string.
  Variable tparse : string -> res tmeta.
  Variable nser : string * list (list cell) -> string.
  Variable nparse : string -> res (string * list (list cell)).
  Variable inter : string -> list string.
  Notation process := (process_time rnd drnd orc tser nser nparse inter).
  Notation NPY := "data.npy"%string.

  (** writing a memory map of another file is writing its elements *)
  Lemma write_map_same d m p dt a b data s : writable s d [NPY; META_FILE] -> p <> d ++ [NPY] -> (forall r, d <> p ++ r) ->
    elements nparse (Mapped p dt a b) s = Ok data ->
    let w := write_numpy_map tser nser nparse inter true d m (Mapped p dt a b) in
    let w' := write_numpy tser nser inter true d (mkData m dt data) in
    result w s = result w' s /\ final w s = final w' s.
  Proof.
    intros W Np Nd El w w'. unfold w, w', result, final, write_numpy_map, write_numpy. cbn [meta rows dtype].
    destruct (check_dir_ok true s d [NPY; META_FILE] W (or_introl eq_refl)) as (C1 & (R1 & R2 & R3) & _).
    rewrite !(pbind_eq (check_dir true d)). rewrite C1. cbn [negb]. set (s1 := fst (snd (check_dir true d s))) in *.
    assert (K1 : kind_at s1 (d ++ [NPY]) <> Some KDir) by (rewrite R2; destruct W as (_ & _ & _ & Hf); apply Hf; left; reflexivity).
    rewrite (pbind_eq (write_file (d ++ [NPY]) [] "")). rewrite (write_here s1 d NPY [] "" R1 K1). cbn [fst snd].
    rewrite pbind_eq. cbn [pres fst snd].
    pose proof (fun q => kind_put_here s1 d NPY "" q R1 K1) as P.
    assert (E2 : elements nparse (Mapped p dt a b) (put s1 (d ++ [NPY]) (File "")) = Ok data).
    { rewrite (c66_frame nparse _ s); [exact El|]. intros p' dt' a' b' E. injection E as <- _ _ _. rewrite P. destruct (path_dec p (d ++ [NPY])) as [E|_]; [contradiction|]. apply R3. exact Nd. }
    rewrite E2. cbn [source_dtype].
    assert (R1' : kind_at (put s1 (d ++ [NPY]) (File "")) d = Some KDir).
    { rewrite P. destruct (path_dec d (d ++ [NPY])) as [E|_]; [exfalso; exact (below_neq _ _ E)|exact R1]. }
    assert (K1' : kind_at (put s1 (d ++ [NPY]) (File "")) (d ++ [NPY]) <> Some KDir).
    { rewrite P. destruct (path_dec (d ++ [NPY]) (d ++ [NPY])); [discriminate|congruence]. }
    rewrite !(pbind_eq (write_file (d ++ [NPY]) (inter (nser (dt, data))) (nser (dt, data)))).
    rewrite (write_here _ d NPY _ _ R1' K1'), (write_here s1 d NPY _ _ R1 K1). cbn [fst snd]. rewrite put_put.
    rewrite !(pbind_eq (pres _)). cbn [pres fst snd]. destruct (set_all_files (chans m) [NPY] m); cbn [fst snd]; split; reflexivity.
  Qed.

  (** a slice of a usable recording is usable *)
  Lemma slice_usable m dt st ft tt_ td : usable rnd (mkData m dt st) -> (n_samples m < 2 ^ 49)%Z ->
    reader_run rnd m dt st ft tt_ None None = Ok td -> usable rnd td.
  Proof.
    intros ((H1 & H2 & H3 & H4 & H5) & Hf & Hn) Hb H. cbn [meta rows] in *. unfold reader_run in H.
    destruct (get_read_samples rnd m ft tt_ None None) as [[a b]|] eqn:E; cbn [bind] in H; [|discriminate].
    destruct (read_range_valid G m ft tt_ None None a b Hf ltac:(lia) H5 E) as (A & B & C).
    assert (Hr : rows td = map (slice a (b + 1)) st) by (unfold read_data_numpy in H; cbn in H; injection H as <-; reflexivity).
    assert (L : forall r, In r st -> Z.of_nat (length (slice a (b + 1) r)) = (b - a + 1)%Z).
    { intros r Hin. rewrite slice_length; [lia|lia|lia|]. rewrite (H4 r Hin). lia. }
    unfold usable, consistent. rewrite Hr. unfold read_data_numpy in H. cbn in H. injection H as <-. cbn.
    split; [|split; [exact Hf|lia]]. split; [destruct st; [congruence|discriminate]|]. split; [rewrite map_length; exact H2|]. split; [exact H3|].
    split; [|unfold stamp, period; ring].
    intros r Hin. apply in_map_iff in Hin. destruct Hin as (r0 & <- & Hin). exact (L r0 Hin).
  Qed.
  Lemma read_known_ok m dt st ft tt_ d s z td : names_npy m -> chans m <> [] -> kind_at s (d ++ [NPY]) = Some (KFile z) -> nparse z = Ok (dt, st) ->
    reader_run rnd m dt st ft tt_ None None = Ok td ->
    exists a b, read_known rnd nparse m ft tt_ d s = Ok (meta td, Mapped (d ++ [NPY]) dt a b) /\ dtype td = dt /\
      elements nparse (Mapped (d ++ [NPY]) dt a b) s = Ok (rows td).
  Proof.
    intros [Nf Nc] Hne K P H. unfold read_known, reader_run in *. destruct (get_read_samples rnd m ft tt_ None None) as [[a b]|]; cbn [bind] in *; [|discriminate].
    unfold first_data_file. destruct (chans m) as [|c0 cs]; [congruence|]. specialize (Nc c0 (or_introl eq_refl)). apply lookup_In in Nc. destruct Nc as [y Hy].
    rewrite Hy, (Nf c0 y (lookup_In_pair _ _ _ Hy)). cbn [bind]. rewrite pjoin_npy, read_file_kind, K. cbn [bind]. rewrite P. cbn [bind fst].
    unfold read_data_numpy in H. destruct (get_return_metadata rnd m a b) as [m'|]; cbn [bind] in *; [|discriminate]. injection H as <-. cbn [meta dtype rows].
    exists a, b. split; [reflexivity|]. split; [reflexivity|]. cbn [elements]. unfold kind_at in K. destruct (look s (d ++ [NPY])) as [[c|es]|]; cbn in K; try discriminate.
    injection K as ->. rewrite P. reflexivity.
  Qed.
  Lemma read_known_err m dt st ft tt_ d s z e : names_npy m -> chans m <> [] -> kind_at s (d ++ [NPY]) = Some (KFile z) -> nparse z = Ok (dt, st) ->
    reader_run rnd m dt st ft tt_ None None = Err e -> read_known rnd nparse m ft tt_ d s = Err e.
  Proof.
    intros [Nf Nc] Hne K P H. unfold read_known, reader_run in *. destruct (get_read_samples rnd m ft tt_ None None) as [[a b]|]; cbn [bind] in *; [|congruence].
    unfold read_data_numpy in H. cbn in H. discriminate.
  Qed.

  Lemma run_all_shape ps : forall td r, run_all rnd drnd orc ps td = Ok r -> chans_md (meta r) = chans_md (meta td).
  Proof.
    induction ps as [|p t IH]; intros td r H; cbn in H; [injection H as <-; reflexivity|]. inv_bind H. rewrite (IH _ _ H).
    apply (run_shape _ _ _ _ _ _ B).
  Qed.

  Section Run.
    Variables (proj : path) (site measn out_site out_meas : string) (m : tmeta) (dt : string) (st : list (list cell)) (ft tt_ : option time) (ps : list proc) (z : string) (s : node).
    Let src := get_meas_time_path proj site measn.
    Let out := get_meas_time_path proj out_site out_meas.
    Hypothesis Csrc : component site /\ component measn.
    Hypothesis Cout : component out_site /\ component out_meas.
    Hypothesis Nm : names_npy m.
    Hypothesis Dm : chans_described m.
    Hypothesis Um : usable rnd (mkData m dt st).
    Hypothesis Bm : (n_samples m < 2 ^ 49)%Z.
    Hypothesis Kz : kind_at s (src ++ [NPY]) = Some (KFile z).
    Hypothesis Pz : nparse z = Ok (dt, st).

    Lemma chans_ne : chans m <> [].
    Proof. destruct Um as ((H1 & H2 & _) & _). cbn in H1, H2. intros E. rewrite E in H2. destruct st; [congruence|discriminate]. Qed.
    Lemma places : TimeOf site measn <> TimeOf out_site out_meas -> (forall r, out <> src ++ r) /\ (forall r, src <> out ++ r).
    Proof.
      intros N. assert (F1 : Forall component (place_names (TimeOf site measn))) by (cbn [place_names]; apply Forall_cons; [tauto|]; apply Forall_cons; [tauto|]; apply Forall_nil).
      assert (F2 : Forall component (place_names (TimeOf out_site out_meas))) by (cbn [place_names]; apply Forall_cons; [tauto|]; apply Forall_cons; [tauto|]; apply Forall_nil).
      split; intros r E.
      - apply N. exact (place_inj proj (TimeOf site measn) (TimeOf out_site out_meas) r F1 F2 E).
      - apply N. symmetry. exact (place_inj proj (TimeOf out_site out_meas) (TimeOf site measn) r F2 F1 E).
    Qed.
    Lemma disjoint f g : TimeOf site measn <> TimeOf out_site out_meas -> src ++ [f] <> out ++ [g] /\ forall r, out <> (src ++ [f]) ++ r.
    Proof.
      intros N. destruct (places N) as [P1 P2]. split.
      - intros E. apply app_inj_tail in E. destruct E as [E _]. apply (P1 []). rewrite app_nil_r. symmetry. exact E.
      - intros r E. apply (P1 ([f] ++ r)). rewrite app_assoc. exact E.
    Qed.

    Lemma process_eq td0 td1 : reader_run rnd m dt st ft tt_ None None = Ok td0 -> run_all rnd drnd orc ps td0 = Ok td1 ->
      writable s out [NPY; META_FILE] -> (TimeOf site measn <> TimeOf out_site out_meas \/ ps <> []) ->
      result (process src m ps proj out_site out_meas ft tt_) s = result (write_numpy tser nser inter true out td1) s /\
      final (process src m ps proj out_site out_meas ft tt_) s = final (write_numpy tser nser inter true out td1) s.
    Proof.
      intros H0 H1 W D. destruct (read_known_ok m dt st ft tt_ src s z td0 Nm chans_ne Kz Pz H0) as (a & b & E & Ed & El).
      unfold process_time, result, final. rewrite pbind_eq. cbn [pres fst snd]. rewrite E. fold out. destruct ps as [|p t] eqn:Ep.
      - destruct D as [D|D]; [|contradiction]. cbn in H1. injection H1 as <-. destruct (disjoint NPY NPY D) as [D1 D2].
        destruct (write_map_same out (meta td0) (src ++ [NPY]) dt a b (rows td0) s W D1 D2 El) as [R F].
        assert (Et : mkData (meta td0) dt (rows td0) = td0) by (destruct td0; cbn in *; congruence). rewrite Et in R, F. cbn [fst snd].
        split; [exact R|exact F].
      - rewrite <- Ep in *. rewrite pbind_eq. cbn [pres fst snd]. rewrite El. cbn [bind source_dtype].
        assert (Et : mkData (meta td0) dt (rows td0) = td0) by (destruct td0; cbn in *; congruence). rewrite Et, H1. cbn [fst snd app]. split; reflexivity.
    Qed.

    Lemma c83 td0 td1 : good_oracles orc -> Forall valid_proc ps ->
      reader_run rnd m dt st ft tt_ None None = Ok td0 -> run_all rnd drnd orc ps td0 = Ok td1 ->
      (forall qs rest mid, ps = qs ++ rest -> run_all rnd drnd orc qs td0 = Ok mid -> (n_samples (meta mid) < 2 ^ 49)%Z) ->
      (2 <= n_samples (meta td1))%Z -> writable s out [NPY; META_FILE] -> (TimeOf site measn <> TimeOf out_site out_meas \/ ps <> []) ->
      tparse (tser (as_written numpy_name (meta td1))) = Ok (as_written numpy_name (meta td1)) -> nparse (nser (dtype td1, rows td1)) = Ok (dtype td1, rows td1) ->
      let s' := final (process src m ps proj out_site out_meas ft tt_) s in
      result (process src m ps proj out_site out_meas ft tt_) s = Ok tt /\
      (exists td', read_numpy rnd tparse nparse None None None None out s' = Ok td' /\ rows td' = rows td1 /\ dtype td' = dt /\ same_recording (meta td1) (meta td') /\
        history (meta td') = history m ++ CReader :: map CProc ps ++ [CWriter; CReader]) /\
      (forall q, (forall f, In f [NPY; META_FILE] -> q <> out ++ [f]) -> (forall r, out <> q ++ r) -> kind_at s' q = kind_at s q) /\
      (TimeOf site measn <> TimeOf out_site out_meas -> forall f, kind_at s' (src ++ [f]) = kind_at s (src ++ [f])).
    Proof.
      intros GO VP H0 H1 HN H2 W D Ct Cn s'. destruct (process_eq td0 td1 H0 H1 W D) as [R F]. fold s' in F.
      pose proof (slice_usable m dt st ft tt_ td0 Um Bm H0) as U0.
      pose proof (run_all_usable_good rnd G drnd orc ps td0 td1 GO VP U0 HN H1) as U1.
      assert (I0 : chans (meta td0) = chans m /\ chans_md (meta td0) = chans_md m /\ history (meta td0) = history m ++ [CReader] /\ dtype td0 = dt).
      { unfold reader_run in H0. destruct (get_read_samples rnd m ft tt_ None None) as [[a b]|]; cbn [bind] in H0; [|discriminate].
        destruct (read_data_spec rnd m dt st a b) as (td & E & _ & E2 & _ & _ & _ & _ & E3 & _ & _ & E4 & E5). rewrite H0 in E. injection E as <-. auto. }
      destruct I0 as (I1 & I2 & I3 & I4).
      assert (D1 : chans_described (meta td1)).
      { unfold chans_described. rewrite (run_all_shape ps td0 td1 H1), (run_all_chans _ _ _ _ _ _ H1), I1, I2. exact Dm. }
      destruct (t22_numpy rnd tser tparse nser nparse inter true s out td1 (proj1 U1) D1 H2 W (or_introl eq_refl) Ct Cn) as (T1 & (S1 & S2 & S3) & td' & T2 & T3 & T4 & T5 & T6).
      rewrite <- F in S1, S2, S3, T2. split; [rewrite R; exact T1|]. split.
      { exists td'. split; [exact T2|]. split; [exact T3|]. split.
        - rewrite T4. clear - H1 I4. revert td0 H1 I4. induction ps as [|p t IH]; intros td0 H1 I4; cbn in H1; [injection H1 as <-; exact I4|].
          inv_bind H1. apply (IH _ H1). rewrite (proj1 (run_shape _ _ _ _ _ _ B)). exact I4.
        - split; [exact T5|]. rewrite T6, (run_all_hist _ _ _ _ _ _ H1), I3, <- !app_assoc. reflexivity. }
      assert (S3' : forall q, (forall f, In f [NPY; META_FILE] -> q <> out ++ [f]) -> (forall r, out <> q ++ r) -> kind_at s' q = kind_at s q).
      { intros q Hq Hr. apply S3; [|exact Hr]. intros f c [K|[K|[]]]; injection K as <- _; apply Hq; cbn; auto. }
      split; [exact S3'|]. intros N f. apply S3'; [|apply disjoint; [exact NPY|exact N]].
      intros g _. apply disjoint. exact N.
    Qed.
    (** nothing is written when the data cannot be read or processed *)
    Lemma c83_fail e : (reader_run rnd m dt st ft tt_ None None = Err e \/
        (ps <> [] /\ exists td0, reader_run rnd m dt st ft tt_ None None = Ok td0 /\ run_all rnd drnd orc ps td0 = Err e)) ->
      process src m ps proj out_site out_meas ft tt_ s = ([], (s, Err e)).
    Proof.
      intros [H|(Hp & td0 & H0 & H1)].
      - unfold process_time. rewrite pbind_eq. cbn [pres fst snd]. rewrite (read_known_err m dt st ft tt_ src s z e Nm chans_ne Kz Pz H). reflexivity.
      - destruct (read_known_ok m dt st ft tt_ src s z td0 Nm chans_ne Kz Pz H0) as (a & b & E & Ed & El).
        unfold process_time. rewrite pbind_eq. cbn [pres fst snd]. rewrite E. destruct ps as [|p t]; [contradiction|]. set (pt := p :: t) in *.
        rewrite pbind_eq. cbn [pres fst snd]. rewrite El. cbn [bind source_dtype].
        assert (Et : mkData (meta td0) dt (rows td0) = td0) by (destruct td0; cbn in *; congruence). rewrite Et, H1. reflexivity.
    Qed.
    (** without processors, onto itself *)
    Lemma c83_onto_itself td0 : (forall y, nparse ""%string <> Ok y) -> reader_run rnd m dt st ft tt_ None None = Ok td0 -> 
      result (process src m [] proj site measn ft tt_) s = Err RuntimeErr /\
      kind_at (final (process src m [] proj site measn ft tt_) s) (src ++ [NPY]) = Some (KFile "").
    Proof.
      intros Pe H0. destruct (read_known_ok m dt st ft tt_ src s z td0 Nm chans_ne Kz Pz H0) as (a & b & E & Ed & El).
      unfold process_time, result, final. rewrite pbind_eq. cbn [pres fst snd]. rewrite E. fold src. cbn [fst snd].
      assert (Kd : kind_at s src = Some KDir) by (apply (kind_prefix_dir s src [NPY] (KFile z) Kz); discriminate).
      destruct (c66_write_back tser nser nparse inter src s (meta td0) dt a b Pe Kd ltac:(rewrite Kz; discriminate)) as [R F]. split; [exact R|exact F].
    Qed.
  End Run.
End PT.
