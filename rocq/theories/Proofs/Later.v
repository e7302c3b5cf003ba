(** C97: moving recordings and reference time together changes nothing but times. *)
From Coq Require Import String.
From Verif Require Import Base.Prelude Base.Rounding Base.ListUtil Base.NdArray Base.Cplx Model.Sampling Model.Time Model.Decimate Model.Window Model.Spectra
  Model.Calibrate Model.Gather Model.Regression Model.Pipeline Spec.Later.
Open Scope list_scope. Open Scope Q_scope.

Lemma alike_bind {A B C D} (R : A -> B -> Prop) (T : C -> D -> Prop) x y f g :
  alike R x y -> (forall a b, R a b -> alike T (f a) (g b)) -> alike T (bind x f) (bind y g).
Proof. intros [a b H|e] K; cbn [bind]; [exact (K a b H)|constructor]. Qed.
Lemma alike_same {A C D} (T : C -> D -> Prop) (x : res A) f g : (forall a, alike T (f a) (g a)) -> alike T (bind x f) (bind x g).
Proof. intros K. destruct x; cbn [bind]; [apply K|constructor]. Qed.
Lemma alike_eq {A} (x y : res A) : alike eq x y -> x = y.
Proof. intros [a b ->|e]; reflexivity. Qed.

Section Later.
  Variable rnd drnd : Q -> Q.
  Variable orc : oracles.
  Hypothesis RC : forall x y, x == y -> rnd x == rnd y.
  Variable d : Q.
  Local Notation L := (later_time d).

  Lemma sub_later a b a' b' : L a a' -> L b b' -> a' - b' == a - b.
  Proof. unfold later_time. intros -> ->. ring. Qed.
  Lemma ltb_later a b a' b' : L a a' -> L b b' -> Qltb a' b' = Qltb a b.
  Proof.
    unfold later_time. intros H1 H2. destruct (Qltb a b) eqn:E; [apply Qltb_true in E; apply Qltb_true; lra|apply Qltb_false in E; apply Qltb_false; lra].
  Qed.
  Lemma leb_later a b a' b' : L a a' -> L b b' -> Qle_bool a' b' = Qle_bool a b.
  Proof.
    unfold later_time. intros H1 H2. destruct (Qle_bool a b) eqn:E.
    - apply Qle_bool_iff in E. apply Qle_bool_iff. lra.
    - destruct (Qle_bool a' b') eqn:F; [|reflexivity]. apply Qle_bool_iff in F. assert (X : a <= b) by lra. apply Qle_bool_iff in X. congruence.
  Qed.
  Lemma plus_later a a' x : L a a' -> L (a + x) (a' + x).
  Proof. unfold later_time. intros ->. ring. Qed.
  (** functions of elapsed times *)
  Lemma td_days_comp x y : x == y -> td_days x = td_days y.
  Proof. intros H. unfold td_days. rewrite H. reflexivity. Qed.
  Lemma td_micros_comp x y : x == y -> td_micros x = td_micros y.
  Proof. intros H. unfold td_micros. rewrite (qfloor_comp _ _ H), H. reflexivity. Qed.
  Lemma to_seconds_comp x y : x == y -> fst (to_seconds rnd x) = fst (to_seconds rnd y) /\ snd (to_seconds rnd x) == snd (to_seconds rnd y).
  Proof.
    intros H. unfold to_seconds. cbn [fst snd]. rewrite (td_days_comp _ _ H). split; [reflexivity|].
    assert (E1 : td_seconds x = td_seconds y). { unfold td_seconds. rewrite (td_days_comp _ _ H), (qfloor_comp _ _ H). reflexivity. }
    assert (E2 : td_nanos x == td_nanos y). { unfold td_nanos. rewrite (td_micros_comp _ _ H), (qfloor_comp _ _ H), H. reflexivity. }
    rewrite E1, (td_micros_comp _ _ H). apply RC. apply Qplus_comp; [reflexivity|]. apply RC. apply Qdiv_comp; [|reflexivity]. apply RC, E2.
  Qed.
  Lemma to_n_samples_comp x y f m : x == y -> to_n_samples rnd x f m = to_n_samples rnd y f m.
  Proof.
    intros H. pose proof (to_seconds_comp x y H) as [E1 E2]. unfold to_n_samples. destruct (to_seconds rnd x) as [a r], (to_seconds rnd y) as [b s]. cbn [fst snd] in E1, E2. subst b.
    assert (E : rnd (rnd (rnd (inject_Z a + r) * f) + 1) == rnd (rnd (rnd (inject_Z a + s) * f) + 1)).
    { apply RC. apply Qplus_comp; [|reflexivity]. apply RC. apply Qmult_comp; [|reflexivity]. apply RC. apply Qplus_comp; [reflexivity|exact E2]. }
    cbv zeta. rewrite (q_is_integer_comp _ _ E), (qfloor_comp _ _ E), (qceil_comp _ _ E), (qround_comp _ _ E). reflexivity.
  Qed.
  Lemma total_seconds_comp x y : x == y -> total_seconds rnd x == total_seconds rnd y.
  Proof.
    intros H. pose proof (to_seconds_comp x y H) as [E1 E2]. unfold total_seconds. destruct (to_seconds rnd x) as [a r], (to_seconds rnd y) as [b s]. cbn [fst snd] in E1, E2. subst b.
    apply RC. apply Qplus_comp; [reflexivity|exact E2].
  Qed.

  (** ** time data *)
  Lemma keep_later (td td' : tdata) data r r' : later d td td' ->
    later d (new_time_data td None (Some data) (Some r)) (new_time_data td' None (Some data) (Some r')).
  Proof.
    intros (H1 & H2 & H3 & H4 & H5 & H6 & H7 & H8 & H9 & H10). unfold later, new_time_data, with_history. cbn. repeat (split; [first [reflexivity|assumption]|]). assumption.
  Qed.
  Lemma adjust_later' (td td' : tdata) f t t' n data r r' : later d td td' -> L t t' ->
    later d (new_time_data td (Some (adjust_time_metadata rnd (meta td) f t n)) (Some data) (Some r))
            (new_time_data td' (Some (adjust_time_metadata rnd (meta td') f t' n)) (Some data) (Some r')).
  Proof.
    intros (H1 & H2 & H3 & H4 & H5 & H6 & H7 & H8 & H9 & H10) T. unfold later, new_time_data, adjust_time_metadata, with_history. cbn.
    repeat (split; [first [reflexivity|assumption]|]). apply plus_later, T.
  Qed.
  Lemma from_later f f' fst_ fst' lst lst' t t' : f' = f -> L fst_ fst' -> L lst lst' -> L t t' -> from_time_to_sample rnd f' fst' lst' t' = from_time_to_sample rnd f fst_ lst t.
  Proof.
    intros -> A B C. unfold from_time_to_sample, check_from_time. rewrite (ltb_later _ _ _ _ B C), (Qltb_comp _ _ (sub_later _ _ _ _ C A) 0 0 (Qeq_refl 0)).
    destruct (Qltb lst t); [reflexivity|]. destruct (Qltb (t - fst_) 0); cbn [bind]; rewrite (to_n_samples_comp _ _ f Mceil (sub_later _ _ _ _ A A)) || rewrite (to_n_samples_comp _ _ f Mceil (sub_later _ _ _ _ C A)); reflexivity.
  Qed.
  Lemma to_later f f' fst_ fst' lst lst' t t' : f' = f -> L fst_ fst' -> L lst lst' -> L t t' -> to_time_to_sample rnd f' fst' lst' t' = to_time_to_sample rnd f fst_ lst t.
  Proof.
    intros -> A B C. unfold to_time_to_sample, check_to_time. rewrite (ltb_later _ _ _ _ C A), (Qltb_comp _ _ (sub_later _ _ _ _ B C) 0 0 (Qeq_refl 0)).
    destruct (Qltb t fst_); [reflexivity|]. destruct (Qltb (lst - t) 0); cbn [bind]; rewrite (to_n_samples_comp _ _ f Mfloor (sub_later _ _ _ _ B A)) || rewrite (to_n_samples_comp _ _ f Mfloor (sub_later _ _ _ _ C A)); reflexivity.
  Qed.
  Lemma subsection_later f t td td' : later d td td' -> alike (later d) (subsection rnd f t td) (subsection rnd (f + d) (t + d) td').
  Proof.
    intros H. pose proof H as (H1 & H2 & H3 & H4 & H5 & H6 & H7 & H8 & H9 & H10). unfold subsection, datetimes_to_samples.
    assert (Lf : L f (f + d)) by (unfold later_time; reflexivity). assert (Lt : L t (t + d)) by (unfold later_time; reflexivity).
    rewrite (from_later _ _ _ _ _ _ _ _ H3 H9 H10 Lf), (to_later _ _ _ _ _ _ _ _ H3 H9 H10 Lt), H1, H3.
    destruct (from_time_to_sample _ _ _ _ _) as [x|e]; cbn [bind]; [|constructor]. destruct (to_time_to_sample _ _ _ _ _) as [y|e]; cbn [bind]; [|constructor].
    unfold samples_to_datetimes, sample_to_datetime. destruct (x >=? y)%Z; cbn [bind]; [constructor|]. constructor.
    apply adjust_later'; [exact H|]. apply plus_later, H9.
  Qed.
  Lemma run_later p td td' : later d td td' -> alike (later d) (run rnd drnd orc p td) (run rnd drnd orc (later_proc d p) td').
  Proof.
    intros H. destruct p; cbn [later_proc run]; try (apply subsection_later, H);
      pose proof H as (H1 & H2 & H3 & H4 & H5 & H6 & H7 & H8 & H9 & H10).
    - unfold interpolate_nans. rewrite H1, H4. apply alike_same. intros x. constructor. apply keep_later, H.
    - unfold remove_mean. rewrite H1. constructor. apply keep_later, H.
    - unfold add, get_add. rewrite H1, H4, H5. apply alike_same. intros x. apply alike_same. intros y. constructor. apply keep_later, H.
    - unfold multiply, get_mult. rewrite H1, H4, H5. apply alike_same. intros x. apply alike_same. intros y. constructor. apply keep_later, H.
    - unfold filter_run, lowpass_cutoffs, nyquist. rewrite H1, H3. apply alike_same. intros x. apply alike_same. intros y. constructor. apply keep_later, H.
    - unfold filter_run, highpass_cutoffs, nyquist. rewrite H1, H3. apply alike_same. intros x. apply alike_same. intros y. constructor. apply keep_later, H.
    - unfold filter_run, bandpass_cutoffs, nyquist. rewrite H1, H3. apply alike_same. intros x. apply alike_same. intros y. constructor. apply keep_later, H.
    - unfold filter_run, notch_cutoffs, nyquist. rewrite H1, H3. apply alike_same. intros x. apply alike_same. intros y. constructor. apply keep_later, H.
    - unfold resample. rewrite H1, H3. apply alike_same. intros x. constructor. apply adjust_later'; assumption.
    - unfold decimate. rewrite H1, H3. apply alike_same. intros x. constructor. apply adjust_later'; assumption.
    - unfold shift_timestamps, dt. rewrite H1, H3, H6. destruct (Qle_bool _ _); [constructor|]. destruct (_ <? _)%Z; [constructor|]. constructor.
      apply adjust_later'; [exact H|]. apply plus_later, H9.
    - unfold apply_function. rewrite H1.
      assert (E : forall l x, apply_rows td' l x = apply_rows td l x).
      { induction l as [|[c g] l IH]; intros x; cbn [apply_rows]; [reflexivity|]. unfold get_chan. rewrite H1, H4. destruct (chan_in c _); [|apply IH].
        destruct (chan_index _ c) as [i|]; [|reflexivity]. destruct (nth_error (rows td) i); [|reflexivity]. cbn [bind]. destruct (Nat.eqb _ _); [apply IH|reflexivity]. }
      rewrite E. apply alike_same. intros x. constructor. apply keep_later, H.
  Qed.
  Lemma run_all_later ps : forall td td', later d td td' -> alike (later d) (run_all rnd drnd orc ps td) (run_all rnd drnd orc (map (later_proc d) ps) td').
  Proof.
    induction ps as [|p ps IH]; intros td td' H; cbn [run_all map]; [constructor; exact H|].
    eapply alike_bind; [apply run_later, H|]. intros a b K. apply IH, K.
  Qed.

  (** ** decimated data *)
  Definition later_level (a b : Decimate.level_md) : Prop := lm_fs b = lm_fs a /\ lm_n_samples b = lm_n_samples a /\ L (lm_first a) (lm_first b) /\ L (lm_last a) (lm_last b).
  Definition later_dec (a b : dec_data) : Prop :=
    dd_fs b = dd_fs a /\ dd_chans b = dd_chans a /\ dd_n_levels b = dd_n_levels a /\ L (dd_first a) (dd_first b) /\ L (dd_last a) (dd_last b) /\
    dd_info b = dd_info a /\ Forall2 later_level (dd_levels_md a) (dd_levels_md b) /\ dd_data b = dd_data a.
  Lemma dec_step_later ur maxf f td td' : later d td td' -> alike (later d) (dec_step rnd orc ur maxf td f) (dec_step rnd orc ur maxf td' f).
  Proof.
    intros H. unfold dec_step. destruct (f =? 1)%Z; [constructor; exact H|]. destruct ur.
    - destruct (f =? 0)%Z; [constructor|]. pose proof H as (H1 & H2 & H3 & _). rewrite H3.
      exact (run_later (PResample (rnd (fs (meta td) / inject_Z f))) td td' H).
    - destruct (f <? 1)%Z; [constructor|]. exact (run_later (PDecimate f maxf) td td' H).
  Qed.
  Lemma dec_loop_later ur maxf mn incs : forall i td td', later d td td' ->
    alike (fun a b => fst b = fst a /\ Forall2 later_level (snd a) (snd b)) (dec_loop rnd orc ur maxf mn incs i td) (dec_loop rnd orc ur maxf mn incs i td').
  Proof.
    induction incs as [|f incs IH]; intros i td td' H; cbn [dec_loop]; [constructor; split; [reflexivity|constructor]|].
    eapply alike_bind; [apply dec_step_later, H|]. intros a b K. pose proof K as (H1 & H2 & H3 & H4 & H5 & H6 & H7 & H8 & H9 & H10). rewrite H6.
    destruct (_ <? _)%Z; [constructor; split; [reflexivity|constructor]|].
    eapply alike_bind; [apply (IH (i + 1)%Z a b K)|]. intros [x l] [x' l'] [E F]. cbn [fst snd] in E, F. subst x'. constructor. cbn [fst snd]. rewrite H1. split; [reflexivity|].
    constructor; [|exact F]. unfold later_level, level_of. cbn. auto.
  Qed.
  Lemma later_fs l l' : Forall2 later_level l l' -> map lm_fs l' = map lm_fs l /\ length l' = length l.
  Proof. induction 1 as [|a b l l' (E & _) _ [I1 I2]]; cbn; [auto|]. rewrite E, I1, I2. auto. Qed.
  Lemma decimator_later ur maxf p td td' : later d td td' -> alike later_dec (decimator_run rnd orc ur maxf p td) (decimator_run rnd orc ur maxf p td').
  Proof.
    intros H. unfold decimator_run. eapply alike_bind; [apply dec_loop_later, H|]. intros [x l] [x' l'] [E F]. cbn [fst snd] in E, F. subst x'.
    destruct x; [constructor|]. constructor. destruct (later_fs _ _ F) as [E1 E2]. pose proof H as (H1 & H2 & H3 & H4 & H5 & H6 & H7 & H8 & H9 & H10).
    unfold later_dec. cbn. rewrite E1, E2. repeat split; auto.
  Qed.

  (** ** windowed data *)
  Variables (ns_time ns_time' ns_delta : Q -> Z).
  Definition later_win (a b : win_data) : Prop :=
    wd_fs b = wd_fs a /\ wd_chans b = wd_chans a /\ wd_n_levels b = wd_n_levels a /\ L (wd_first a) (wd_first b) /\ L (wd_last a) (wd_last b) /\
    wd_info b = wd_info a /\ wd_levels b = wd_levels a /\ L (wd_ref a) (wd_ref b) /\ wd_data b = wd_data a.
  Lemma to_win_later r r' t t' inc m : L r r' -> L t t' -> datetime_to_win rnd r' t' inc m = datetime_to_win rnd r t inc m.
  Proof.
    intros A B. unfold datetime_to_win. rewrite (ltb_later _ _ _ _ B A). destruct (Qltb t r); [reflexivity|]. cbv zeta. destruct (Qeq_bool _ 0); [reflexivity|].
    assert (E : rnd (total_seconds rnd (t' - r') / total_seconds rnd inc) == rnd (total_seconds rnd (t - r) / total_seconds rnd inc)).
    { apply RC. apply Qdiv_comp; [|reflexivity]. apply total_seconds_comp, sub_later; assumption. }
    rewrite (q_is_integer_comp _ _ E), (qfloor_comp _ _ E), (qceil_comp _ _ E), (qround_comp _ _ E). reflexivity.
  Qed.
  Lemma wtd_later r r' w inc : L r r' -> L (win_to_datetime r w inc) (win_to_datetime r' w inc).
  Proof. intros A. apply plus_later, A. Qed.
  Lemma adjust_last_later n : forall r r' t t' inc du w, L r r' -> L t t' -> adjust_last n r' t' inc du w = adjust_last n r t inc du w.
  Proof.
    induction n as [|n IH]; intros r r' t t' inc du w A B; cbn [adjust_last]; [reflexivity|].
    rewrite (leb_later _ _ _ _ (plus_later _ _ du (wtd_later _ _ w inc A)) B). destruct (Qle_bool _ _); [reflexivity|]. apply IH; assumption.
  Qed.
  Lemma first_last_later r r' m m' w o : L r r' -> later_level m m' -> get_first_and_last_win rnd r' m' w o = get_first_and_last_win rnd r m w o.
  Proof.
    intros A (F & N & B & C). unfold get_first_and_last_win. rewrite F. destruct (Qeq_bool _ 0); [reflexivity|]. cbv zeta.
    rewrite (to_win_later _ _ _ _ _ _ A B), (to_win_later _ _ _ _ _ _ A C).
    destruct (datetime_to_win _ _ _ _ Mceil); cbn [bind]; [|reflexivity]. destruct (datetime_to_win _ _ _ _ Mfloor); cbn [bind]; [|reflexivity].
    rewrite (adjust_last_later 2 _ _ _ _ _ _ _ A C). rewrite (ltb_later _ _ _ _ C (plus_later _ _ _ (wtd_later _ _ _ _ A))). reflexivity.
  Qed.
  (** rows that agree but in their time stamps *)
  Definition row_like (a b : win_row) : Prop := wr_global b = wr_global a /\ wr_local b = wr_local a /\ wr_from b = wr_from a /\ wr_to b = wr_to a.
  Lemma table_later r r' m m' w o : L r r' -> later_level m m' ->
    alike (Forall2 row_like) (get_win_table rnd ns_time ns_delta r m w o) (get_win_table rnd ns_time' ns_delta r' m' w o).
  Proof.
    intros A B. pose proof B as (F & N & B1 & B2). unfold get_win_table. rewrite (first_last_later _ _ _ _ _ _ A B). cbv zeta. rewrite F.
    apply alike_same. intros [fw lw]. destruct (_ =? 0)%Z; [constructor|].
    rewrite (to_n_samples_comp _ _ (lm_fs m) Mfloor (sub_later _ _ _ _ (wtd_later _ _ fw (inc_duration rnd w o (lm_fs m)) A) B1)).
    unfold datetime_array_estimate. destruct (Qeq_bool _ 0); [constructor|]. destruct (_ <? 0)%Z; [constructor|]. cbn [bind]. constructor.
    set (n := (lw - fw + 1)%Z).
    assert (X : forall (T : Type) (h h' : Z -> Z) (g : Z -> Z -> win_row) (l : list Z), (forall k x y, row_like (g k x) (g k y)) ->
      Forall2 row_like (map (fun is : Z * Z => let '(i, s) := is in g i s) (combine l (map h l))) (map (fun is : Z * Z => let '(i, s) := is in g i s) (combine l (map h' l)))).
    { intros T h h' g l G. induction l as [|k l IH]; cbn; constructor; [apply G|exact IH]. }
    apply (X unit). intros k x y. unfold row_like. cbn. auto.
  Qed.
  Lemma from_like t t' : Forall2 row_like t t' -> length t' = length t /\ map wr_from t' = map wr_from t /\ map (fun r => wr_global r - wr_local r)%Z t' = map (fun r => wr_global r - wr_local r)%Z t.
  Proof. induction 1 as [|a b t t' (E1 & E2 & E3 & E4) _ (I1 & I2 & I3)]; cbn; [auto|]. rewrite E1, E2, E3, I1, I2, I3. auto. Qed.
  Lemma last_like t t' : Forall2 row_like t t' -> forall a b, row_like a b -> row_like (last t a) (last t' b).
  Proof. induction 1 as [|x y t t' H K IH]; intros a b Hab; [exact Hab|]. destruct K; [exact H|]. apply IH, Hab. Qed.
  Lemma level_data_later data t t' n w o : Forall2 row_like t t' -> get_level_data data t' n w o = get_level_data data t n w o.
  Proof.
    intros H. unfold get_level_data. destruct H as [|a b t t' E H]; [reflexivity|].
    pose proof (last_like (a :: t) (b :: t') (Forall2_cons _ _ E H) a b E) as (_ & _ & E4 & _). destruct E as (_ & _ & E3 & _). cbv zeta. rewrite E3, E4. reflexivity.
  Qed.
  Lemma window_loop_later sizes check mn r r' x x' : L r r' -> later_dec x x' ->
    (forall i m m', later_level m m' -> sizes i m' = sizes i m) -> forall levels,
    window_loop rnd ns_time' ns_delta sizes check mn r' x' levels = window_loop rnd ns_time ns_delta sizes check mn r x levels.
  Proof.
    intros A (D1 & D2 & D3 & D4 & D5 & D6 & D7 & D8) SZ. induction levels as [|i levels IH]; cbn [window_loop]; [reflexivity|].
    destruct (nth_error (dd_levels_md x) (Z.to_nat i)) as [m|] eqn:E.
    2:{ replace (nth_error (dd_levels_md x') (Z.to_nat i)) with (@None Decimate.level_md); [reflexivity|]. symmetry. apply nth_error_None. apply nth_error_None in E. rewrite (proj2 (later_fs _ _ D7)). exact E. }
    destruct (Forall2_nth_error _ _ _ _ _ D7 E) as (m' & E' & LM). rewrite E'. cbn [bind]. rewrite (SZ i m m' LM). destruct (sizes i m) as [[w o]|e]; cbn [bind]; [|reflexivity].
    destruct (table_later r r' m m' w o A LM) as [t t' T|e]; cbn [bind]; [|reflexivity].
    destruct (from_like _ _ T) as (T1 & T2 & T3). rewrite T1. destruct (_ <? _)%Z; [reflexivity|].
    assert (G : get_level x' i = get_level x i). { unfold get_level. rewrite D3, D8. reflexivity. }
    rewrite G. destruct (get_level x i); cbn [bind]; [|reflexivity]. rewrite (level_data_later _ _ _ _ _ _ T), D2.
    destruct (get_level_data _ _ _ _ _); cbn [bind]; [|reflexivity]. destruct (nd_len _); cbn [bind]; [|reflexivity]. destruct (check && _); [reflexivity|].
    assert (M : get_level_metadata m' t' w o = get_level_metadata m t w o). { unfold get_level_metadata. rewrite T3, T1. destruct LM as (F & _). rewrite F. reflexivity. }
    rewrite M, IH. reflexivity.
  Qed.
  Lemma windower_later p r r' x x' : L r r' -> later_dec x x' -> alike later_win (windower_run rnd ns_time ns_delta r p x) (windower_run rnd ns_time' ns_delta r' p x').
  Proof.
    intros A D. pose proof D as (D1 & D2 & D3 & D4 & D5 & D6 & D7 & D8). unfold windower_run. rewrite D3.
    rewrite (window_loop_later (fun ilevel _ => w <- wp_level p (wp_win_sizes p) ilevel ;; o <- wp_level p (wp_olap_sizes p) ilevel ;; Ok (w, o)) true (wp_min_n_wins p) r r' x x' A D (fun i m m' _ => eq_refl)). apply alike_same. intros [data lv]. unfold make_windowed. destruct data; constructor.
    unfold later_win. cbn. rewrite D1, D2, D6. repeat split; auto.
  Qed.
  Lemma target_later c p r r' x x' : L r r' -> later_dec x x' -> alike later_win (windower_target_run rnd ns_time ns_delta c r p x) (windower_target_run rnd ns_time' ns_delta c r' p x').
  Proof.
    intros A D. pose proof D as (D1 & D2 & D3 & D4 & D5 & D6 & D7 & D8). unfold windower_target_run. rewrite D3.
    rewrite (window_loop_later (fun _ m => w <- target_win_size rnd c m ;; Ok (w, qfloor (rnd (wt_olap_proportion c * inject_Z w)))) false (wp_min_n_wins p) r r' x x' A D).
    - apply alike_same. intros [data lv]. unfold make_windowed. destruct data; constructor. unfold later_win. cbn. rewrite D1, D2, D6. repeat split; auto.
    - intros i m m' (_ & N & _). unfold target_win_size. rewrite N. reflexivity.
  Qed.
End Later.

(** ** spectra *)
Section Spec.
  Variable d : Q.
  Local Notation L := (later_time d).
  Local Notation LS := (later_spec d).
  Lemma mapM_same {A B} (f g : A -> res B) l : (forall x, f x = g x) -> mapM f l = mapM g l.
  Proof. intros H. induction l as [|x l IH]; cbn; [reflexivity|]. rewrite H, IH. reflexivity. Qed.
  Lemma make_spec_later {A} m m' (data : list (Z * nd A)) :
    sm_fs m' = sm_fs m -> sm_chans m' = sm_chans m -> sm_n_levels m' = sm_n_levels m -> sm_info m' = sm_info m -> sm_levels m' = sm_levels m ->
    L (sm_first m) (sm_first m') -> L (sm_last m) (sm_last m') -> L (sm_ref m) (sm_ref m') -> alike LS (make_spec m data) (make_spec m' data).
  Proof. intros. unfold make_spec. destruct (find _ data); constructor. unfold later_spec. cbn. repeat (split; [assumption || reflexivity|]). assumption. Qed.
  Lemma at_later {A} (a b : spec_data A) l : LS a b -> sd_at b l = sd_at a l.
  Proof. intros (E & _). unfold sd_at. rewrite E. reflexivity. Qed.
  Lemma level_later {A} (a b : spec_data A) l : LS a b -> sd_get_level b l = sd_get_level a l.
  Proof. intros H. unfold sd_get_level. rewrite (at_later a b l H). destruct H as (_ & _ & _ & E & _). rewrite E. reflexivity. Qed.
  Lemma level_md_later {A} (a b : spec_data A) l : LS a b -> sd_level_md b l = sd_level_md a l.
  Proof. intros (_ & _ & _ & _ & _ & E & _). unfold sd_level_md. rewrite E. reflexivity. Qed.
  Lemma chans_later {A} (a b : spec_data A) l cs : LS a b -> sd_get_chans b l cs = sd_get_chans a l cs.
  Proof. intros H. unfold sd_get_chans. rewrite (at_later a b l H). destruct H as (_ & _ & E & _). rewrite E. reflexivity. Qed.

  Lemma fourier_later rnd nf tr a b : later_win d a b -> alike LS (fourier_run rnd nf tr a) (fourier_run rnd nf tr b).
  Proof.
    intros (W1 & W2 & W3 & W4 & W5 & W6 & W7 & W8 & W9). unfold fourier_run. rewrite W3.
    rewrite (mapM_same (fourier_level rnd nf tr b) (fourier_level rnd nf tr a)).
    2:{ intros l. unfold fourier_level, wd_level_md, wd_get_level. rewrite W3, W7, W9. reflexivity. }
    apply alike_same. intros x. apply make_spec_later; cbn; assumption || reflexivity.
  Qed.
  Lemma smooth_later name f g a b : LS a b -> (forall l, g l = f l) -> alike LS (smooth_run name f a) (smooth_run name g b).
  Proof.
    intros H G. pose proof H as (S1 & S2 & S3 & S4 & S5 & S6 & S7 & S8 & S9). unfold smooth_run. rewrite S4.
    rewrite (mapM_same (fun ilevel => h <- g ilevel ;; x <- sd_get_level b ilevel ;; y <- nd_last (fun v => Ok (h v)) x ;; Ok (ilevel, y))
                       (fun ilevel => h <- f ilevel ;; x <- sd_get_level a ilevel ;; y <- nd_last (fun v => Ok (h v)) x ;; Ok (ilevel, y))).
    2:{ intros l. rewrite G, (level_later _ _ l H). reflexivity. }
    apply alike_same. intros x. apply make_spec_later; unfold with_spec_history; cbn; assumption || reflexivity.
  Qed.
  Lemma sprocs_later Lb ps : forall a b, LS a b -> alike LS (run_sprocs Lb ps a) (run_sprocs Lb ps b).
  Proof.
    induction ps as [|p ps IH]; intros a b H; cbn [run_sprocs]; [constructor; exact H|].
    apply (alike_bind LS); [|intros x y K; apply IH, K]. destruct p; cbn [run_sproc].
    - unfold smooth_uniform. apply smooth_later; [exact H|]. intros l. rewrite (level_md_later _ _ l H). reflexivity.
    - unfold smooth_gaussian. apply smooth_later; [exact H|reflexivity].
  Qed.
  Lemma evals_later p a b : LS a b -> alike LS (evals_run p a) (evals_run p b).
  Proof.
    intros H. pose proof H as (S1 & S2 & S3 & S4 & S5 & S6 & S7 & S8 & S9). unfold evals_run. rewrite S4.
    rewrite (mapM_same (eval_level p b) (eval_level p a)). 2:{ intros l. unfold eval_level. rewrite (level_md_later _ _ l H), (level_later _ _ l H). reflexivity. }
    apply alike_same. intros x. apply make_spec_later; cbn; assumption || reflexivity.
  Qed.
  Lemma calibrate_later cis cdiv readers sel a b : LS a b -> alike LS (calibrator_run cis cdiv readers sel a) (calibrator_run cis cdiv readers sel b).
  Proof.
    intros H. pose proof H as (S1 & S2 & S3 & S4 & S5 & S6 & S7 & S8 & S9). unfold calibrator_run. rewrite S1, S3.
    assert (LV : forall idx cal ls data, calibrate_levels cis cdiv (sd_md b) idx cal ls data = calibrate_levels cis cdiv (sd_md a) idx cal ls data).
    { intros idx cal. induction ls as [|l ls IH]; intros data; cbn [calibrate_levels]; [reflexivity|]. rewrite ?S6. 
      repeat match goal with |- bind ?x _ = bind ?x _ => destruct x; cbn [bind]; [|reflexivity] | |- match ?x with _ => _ end = match ?x with _ => _ end => destruct x; try reflexivity end; apply IH. }
    assert (E : forall cs data, calibrate_chans cis cdiv (sd_md b) readers cs data = calibrate_chans cis cdiv (sd_md a) readers cs data).
    { induction cs as [|c cs IH]; intros data; cbn [calibrate_chans]; [reflexivity|]. destruct (get_cal_data readers c); [|apply IH]. rewrite S3. destruct (first_index c _); [|reflexivity].
      rewrite S4, LV. destruct (calibrate_levels _ _ _ _ _ _ _); cbn [bind]; [apply IH|reflexivity]. }
    rewrite E. apply alike_same. intros x. apply make_spec_later; unfold with_spec_history; cbn; assumption || reflexivity.
  Qed.
  Lemma quick_gather_later {A} name p tf (a b : spec_data A) : LS a b -> quick_gather name p tf b = quick_gather name p tf a.
  Proof.
    intros H. pose proof H as (S1 & S2 & S3 & S4 & S5 & S6 & S7 & S8 & S9).
    assert (E : forall cs, quick_combined name p b cs = quick_combined name p a cs).
    { intros cs. unfold quick_combined. rewrite S4. assert (Q : forall ls data, quick_levels (dp_per_level p) b cs ls data = quick_levels (dp_per_level p) a cs ls data).
      { induction ls as [|l ls IH]; intros data; cbn [quick_levels]; [reflexivity|]. rewrite (level_md_later _ _ l H), (chans_later _ _ l cs H).
        destruct (sd_level_md a l); cbn [bind]; [|reflexivity]. destruct (sd_get_chans a l cs); cbn [bind]; [|reflexivity]. destruct (quick_freqs _ _ _ _ _); cbn [bind]; [apply IH|reflexivity]. }
      rewrite Q, (mapM_same (sd_level_md b) (sd_level_md a)); [reflexivity|]. intros l. apply level_md_later, H. }
    unfold quick_gather. rewrite !E. reflexivity.
  Qed.
End Spec.

(** ** the runs *)
Section Runs.
  Variable Lb : library.
  Hypothesis RC : forall x y, x == y -> l_rnd Lb x == l_rnd Lb y.
  Variable d : Q.
  Local Notation LS := (later_spec d).

  Lemma to_evals_later c ref ref' td td' : later_time d ref ref' -> later d td td' ->
    alike (fun a b => fst b = fst a /\ LS (snd a) (snd b)) (to_evals Lb c ref td) (to_evals Lb (later_config d c) ref' td').
  Proof.
    intros A H. unfold to_evals. cbn [later_config cf_time].
    eapply alike_bind; [apply run_all_later; [exact RC|exact H]|]. intros x y K. pose proof K as (_ & _ & F & _). rewrite F.
    change (dec_params_of Lb (later_config d c)) with (dec_params_of Lb c). apply alike_same. intros p.
    eapply alike_bind; [apply (decimator_later _ (l_drnd Lb) _ RC d _ _ p x y K)|]. intros dd dd' D.
    eapply (alike_bind (later_win d)).
    { pose proof D as (D1 & D2 & D3 & _). unfold run_windowing. cbn [later_config cf_win cf_target]. rewrite D1, D3. apply alike_same. intros wp. destruct (cf_target c).
      - apply target_later; assumption.
      - apply windower_later; assumption. }
    intros w w' W. eapply alike_bind; [apply (fourier_later d), W|]. intros s s' S. eapply alike_bind; [apply (sprocs_later d Lb (cf_spec c)), S|]. intros t t' T.
    eapply alike_bind; [apply (evals_later d), T|]. intros e e' E. constructor. split; [reflexivity|exact E].
  Qed.
  Lemma quick_tf_later c cal name td td' : later d td td' -> quick_tf Lb (later_config d c) cal name td' = quick_tf Lb c cal name td.
  Proof.
    intros H. pose proof H as (_ & _ & _ & _ & _ & _ & _ & _ & F & _). unfold quick_tf. destruct (to_evals_later c _ _ _ _ F H) as [[p e] [p' e'] [E S]|x]; cbn [bind]; [|reflexivity].
    cbn [fst snd] in E, S. subst p'. change (cf_tf (later_config d c)) with (cf_tf c).
    assert (X : alike LS (match cal with Some readers => run_calibration Lb c readers e | None => Ok e end) (match cal with Some readers => run_calibration Lb (later_config d c) readers e' | None => Ok e' end)).
    { destruct cal; [|constructor; exact S]. apply calibrate_later, S. }
    destruct X as [u v U|x]; cbn [bind]; [|reflexivity]. rewrite (quick_gather_later d _ _ _ _ _ U). reflexivity.
  Qed.

  (** projects *)
  Lemma find_later {A B} (R : string * A -> string * B -> Prop) l l' n : (forall x y, R x y -> fst y = fst x) -> Forall2 R l l' ->
    match find (fun s => String.eqb (fst s) n) l, find (fun s => String.eqb (fst s) n) l' with Some x, Some y => R x y | None, None => True | _, _ => False end.
  Proof. intros N. induction 1 as [|x y l l' H _ IH]; cbn; [exact I|]. rewrite (N _ _ H). destruct (String.eqb _ n); [exact H|exact IH]. Qed.
  Lemma find_meas_later pr pr' site meas : later_project d pr pr' -> alike (fun a b => fst b = fst a /\ alike (later d) (snd a) (snd b)) (find_meas pr site meas) (find_meas pr' site meas).
  Proof.
    intros P. unfold find_meas. pose proof (find_later _ _ _ site (fun x y H => proj1 H) P) as X. destruct (find _ pr) as [[a ms]|], (find _ pr') as [[a' ms']|]; try contradiction; [|constructor].
    destruct X as [_ M]. cbn [snd] in M. pose proof (find_later _ _ _ meas (fun x y H => proj1 H) M) as Y. destruct (find _ ms) as [[b m]|], (find _ ms') as [[b' m']|]; try contradiction; [|constructor].
    constructor. exact (proj2 Y).
  Qed.
  Lemma evals_of_later c cal ref ref' pr pr' site meas : later_time d ref ref' -> later_project d pr pr' ->
    alike LS (evals_of Lb c cal ref pr site meas) (evals_of Lb (later_config d c) cal ref' pr' site meas).
  Proof.
    intros A P. unfold evals_of. eapply alike_bind; [apply find_meas_later, P|]. intros [f r] [f' r'] [_ R]. cbn [snd] in R. eapply alike_bind; [exact R|]. intros td td' H.
    eapply alike_bind; [apply to_evals_later; [exact A|exact H]|]. intros [p e] [p' e'] [_ S]. apply calibrate_later, S.
  Qed.
  Definition later_entry (a b : (string * string * string) * spec_data cq) : Prop := fst b = fst a /\ LS (snd a) (snd b).
  Lemma saved_later a b : LS a b -> LS (saved a) (saved b).
  Proof. intros (S1 & S2 & S3 & S4 & S5 & S6 & S7 & S8 & S9). unfold later_spec, saved, with_spec_history. cbn. repeat (split; [assumption|]). assumption. Qed.
  Lemma session_later pr pr' cmds cmds' : later_project d pr pr' -> Forall2 (later_command d) cmds cmds' -> forall s s', Forall2 later_entry s s' ->
    Forall2 later_entry (run_session Lb pr cmds s) (run_session Lb pr' cmds' s').
  Proof.
    intros P. induction 1 as [|x y cmds cmds' (C1 & C2 & C3 & C4 & C5) _ IH]; intros s s' S; cbn [run_session]; [exact S|]. apply IH.
    unfold run_cmd, process_time_to_evals. rewrite C1, C2, C4, C5. destruct (evals_of_later (cm_config x) (cm_cal x) _ _ pr pr' (cm_site x) (cm_meas x) C3 P) as [a b E|e]; cbn [fst]; [|exact S].
    constructor; [|exact S]. split; [reflexivity|]. cbn [snd]. apply saved_later, E.
  Qed.
  Lemma store_later k s s' : Forall2 later_entry s s' -> match store_get k s, store_get k s' with Some x, Some y => LS x y | None, None => True | _, _ => False end.
  Proof. induction 1 as [|[j x] [j' y] s s' [E H] _ IH]; cbn in *; [exact I|]. subst j'. destruct (key_eqb j k); [exact H|exact IH]. Qed.

  (** selecting and gathering *)
  Definition like_meas (a b : string * (Q * res (spec_data cq))) : Prop := fst b = fst a /\ fst (snd b) = fst (snd a) /\ alike LS (snd (snd a)) (snd (snd b)).
  Definition like_site (a b : string * site cq) : Prop := fst b = fst a /\ Forall2 like_meas (snd a) (snd b).
  Lemma view_later name pr pr' s s' : later_project d pr pr' -> Forall2 later_entry s s' -> Forall2 like_site (view name pr s) (view name pr' s').
  Proof.
    intros P S. unfold view. induction P as [|[a ms] [a' ms'] pr pr' [E M] _ IH]; cbn [map]; constructor; [|exact IH]. cbn [fst snd] in *. subst a'. split; [reflexivity|]. cbn [snd].
    induction M as [|[b [f r]] [b' [f' r']] ms ms' (B1 & B2 & B3) _ IM]; cbn [map]; constructor; [|exact IM]. cbn [fst snd] in *. subst b' f'. split; [reflexivity|]. split; [reflexivity|]. cbn [fst snd].
    pose proof (store_later (a, b, name) s s' S) as X. destruct (store_get _ s), (store_get _ s'); try contradiction; constructor; exact X.
  Qed.
  Lemma get_site_later pr pr' n : Forall2 like_site pr pr' -> alike (Forall2 like_meas) (get_site pr n) (get_site pr' n).
  Proof.
    intros P. unfold get_site. pose proof (find_later like_site _ _ n (fun x y H => proj1 H) P) as X. destruct (find _ pr) as [[a ms]|], (find _ pr') as [[a' ms']|]; try contradiction; constructor. exact (proj2 X).
  Qed.
  Definition like_md (a b : string * spec_md) : Prop := fst b = fst a /\ sm_n_levels (snd b) = sm_n_levels (snd a) /\ sm_levels (snd b) = sm_levels (snd a).
  Lemma evals_md_later st st' f : Forall2 like_meas st st' -> Forall2 like_md (evals_metadata st f) (evals_metadata st' f).
  Proof.
    unfold evals_metadata. induction 1 as [|[a [g r]] [a' [g' r']] st st' (B1 & B2 & B3) _ IH]; cbn [flat_map]; [constructor|]. cbn [fst snd] in *. subst a' g'.
    destruct (Qeq_bool g f); [|exact IH]. destruct B3 as [u v U|e]; [|exact IH]. cbn [app]. constructor; [|exact IH]. destruct U as (_ & _ & _ & U4 & _ & U6 & _). unfold like_md. cbn. auto.
  Qed.
  Lemma level_wins_later ms ms' l : Forall2 like_md ms ms' -> level_wins ms' l = level_wins ms l.
  Proof.
    intros H. unfold level_wins. assert (E : mapM (meas_wins l) ms' = mapM (meas_wins l) ms).
    { induction H as [|[a m] [a' m'] ms ms' (B1 & B2 & B3) _ IH]; cbn [mapM]; [reflexivity|]. cbn [fst snd] in *. subst a'. rewrite IH. unfold meas_wins, Gather.level_md. cbn [fst snd]. rewrite B2, B3. reflexivity. }
    rewrite E. reflexivity.
  Qed.
  Lemma site_wins_later pr pr' n f : Forall2 like_site pr pr' -> site_wins pr' n f = site_wins pr n f.
  Proof.
    intros P. unfold site_wins. destruct (get_site_later pr pr' n P) as [st st' S|e]; cbn [bind]; [|reflexivity]. pose proof (evals_md_later st st' f S) as M.
    assert (E : map (fun x => sm_n_levels (snd x)) (evals_metadata st' f) = map (fun x => sm_n_levels (snd x)) (evals_metadata st f) /\ length (evals_metadata st' f) = length (evals_metadata st f)).
    { induction M as [|a b l l' (B1 & B2 & B3) _ [I1 I2]]; cbn; [auto|]. rewrite B2, I1, I2. auto. }
    destruct E as [E1 E2]. cbv zeta. rewrite E1, E2. destruct (_ =? 0)%Z; [reflexivity|]. apply mapM_same. intros l. apply level_wins_later, M.
  Qed.
  Lemma selector_later pr pr' names p : Forall2 like_site pr pr' -> selector_run pr' names p = selector_run pr names p.
  Proof.
    intros P. unfold selector_run. cbv zeta. rewrite (mapM_same (fun n => site_wins pr' n (dp_fs p)) (fun n => site_wins pr n (dp_fs p))) by (intros n; apply site_wins_later, P).
    destruct (mapM (fun n => site_wins pr n (dp_fs p)) _) as [sw|e]; cbn [bind]; [|reflexivity]. destruct (_ =? 0)%Z; [reflexivity|].
    assert (E : forall l, alike (fun _ _ : list (site cq) => True) (mapM (get_site pr) l) (mapM (get_site pr') l)).
    { induction l as [|n l IH]; cbn [mapM]; [constructor; exact I|]. eapply alike_bind; [apply get_site_later, P|]. intros a b _. eapply alike_bind; [exact IH|]. intros. constructor. exact I. }
    destruct (E (sorted_set names)); reflexivity.
  Qed.
  Lemma populate_later s col meas (a b : spec_data cq) cs ls : LS a b -> forall data, populate s col meas b cs ls data = populate s col meas a cs ls data.
  Proof.
    intros H. induction ls as [|l ls IH]; intros data; cbn [populate]; [reflexivity|]. rewrite (chans_later d _ _ l cs H), (level_md_later d _ _ l H).
    destruct H as (_ & _ & _ & E & _). rewrite E. destruct (_ >=? _)%Z; [reflexivity|]. destruct (sd_get_chans a l cs); cbn [bind]; [|reflexivity]. destruct (sd_level_md a l); cbn [bind]; [|reflexivity].
    destruct (populate_freqs _ _ _ _ _ _ _ _); cbn [bind]; [apply IH|reflexivity].
  Qed.
  Lemma site_data_later junk pr pr' s n cs : Forall2 like_site pr pr' -> get_site_data junk pr' s n cs = get_site_data junk pr s n cs.
  Proof.
    intros P. unfold get_site_data. destruct (get_site_later pr pr' n P) as [st st' S|e]; cbn [bind]; [|reflexivity].
    destruct (sel_measurements s n) as [meas|]; cbn [bind]; [|reflexivity]. destruct (empty_data junk s cs) as [data|]; cbn [bind]; [|reflexivity]. destruct meas as [|m0 meas]; [reflexivity|].
    destruct (col_of s n) as [col|]; cbn [bind]; [|reflexivity].
    assert (E : forall ms x, populate_all s st' col cs ms x = populate_all s st col cs ms x).
    { induction ms as [|m ms IH]; intros x; cbn [populate_all]; [reflexivity|]. unfold read_evals. pose proof (find_later like_meas _ _ m (fun x y H => proj1 H) S) as X.
      destruct (find _ st) as [[u [f r]]|], (find _ st') as [[u' [f' r']]|]; try contradiction; [|reflexivity]. destruct X as (_ & _ & R). cbn [snd] in R. destruct R as [a b R|e]; cbn [bind]; [|reflexivity].
      rewrite (populate_later _ _ _ _ _ _ _ R). destruct (populate _ _ _ _ _ _ _); cbn [bind]; [apply IH|reflexivity]. }
    rewrite E. reflexivity.
  Qed.
  Lemma project_later c pr pr' cmds cmds' fs out in_ cross : later_project d pr pr' -> Forall2 (later_command d) cmds cmds' ->
    process_evals_to_tf Lb (later_config d c) pr' (run_session Lb pr' cmds' []) fs out in_ cross = process_evals_to_tf Lb c pr (run_session Lb pr cmds []) fs out in_ cross.
  Proof.
    intros P C. pose proof (view_later (cf_name c) _ _ _ _ P (session_later pr pr' cmds cmds' P C [] [] (Forall2_nil _))) as V.
    unfold process_evals_to_tf. cbv zeta. change (cf_name (later_config d c)) with (cf_name c). change (dec_params_of Lb (later_config d c)) with (dec_params_of Lb c).
    destruct (dec_params_of Lb c fs) as [p|]; cbn [bind]; [|reflexivity]. rewrite (selector_later _ _ _ p V). destruct (selector_run _ _ p) as [sel|]; cbn [bind]; [|reflexivity].
    unfold project_gather. rewrite !(site_data_later _ _ _ _ _ _ V). reflexivity.
  Qed.
  (** the times of the windows *)
  Lemma timestamps_later ns_time ns_delta (a b : spec_data cq) l k : (forall t t', t' == t + d -> ns_time t' = (ns_time t + k)%Z) -> LS a b ->
    alike (fun x y => y = map (fun t => (t + k)%Z) x) (sd_get_timestamps (l_rnd Lb) ns_time ns_delta a l) (sd_get_timestamps (l_rnd Lb) ns_time ns_delta b l).
  Proof.
    intros N H. unfold sd_get_timestamps. rewrite (level_md_later d _ _ l H). destruct H as (_ & _ & _ & E & _ & _ & _ & _ & R). rewrite E.
    destruct (_ >=? _)%Z; [constructor|]. destruct (sd_level_md a l) as [m|]; cbn [bind]; [|constructor]. unfold get_win_starts. destruct (Qeq_bool _ 0); [constructor|]. destruct (_ =? 0)%Z; [constructor|].
    unfold datetime_array_estimate. destruct (Qeq_bool _ 0); [constructor|]. destruct (_ <? 0)%Z; [constructor|]. constructor. rewrite map_map. apply map_ext. intros j.
    rewrite (N (win_to_datetime (sm_ref (sd_md a)) (sl_offset m) (inc_duration (l_rnd Lb) (sl_win_size m) (sl_olap_size m) (sl_fs m)))); [lia|]. unfold win_to_datetime. unfold later_time in R. rewrite R. ring.
  Qed.
End Runs.
