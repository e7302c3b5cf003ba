(** C100: channels in other units, from the time data to the spectra at the evaluation frequencies. *)
From Coq Require Import String.
From Verif Require Import Base.Prelude Base.Rounding Base.ListUtil Base.NdArray Base.Cplx Model.Sampling Model.Time Model.Decimate Model.Window Model.Spectra
  Model.Calibrate Model.Gather Model.Regression Model.Pipeline Spec.Pipeline Spec.Gather Spec.Linear Spec.Solvers Spec.Units
  Proofs.TimeMeta Proofs.TimeData Proofs.TimeData2 Proofs.WindowRun Proofs.Spectra Proofs.GatherData Proofs.PipelineShape Proofs.PipelineFinal Proofs.PipelineUse Proofs.Linear Proofs.OwnChans.
From Verif Require Proofs.CalibrateFinal Proofs.Calibrate.
Open Scope list_scope. Open Scope Q_scope.

(** a linear map takes multiples to multiples *)
Lemma times_axpy q u v : times_c q u v <-> axpy q u (repeat 0 (length v)) v.
Proof.
  split.
  - intros H. split; [exact (Forall2_length' _ _ _ H)|]. split; [apply repeat_length|]. intros k x y z A B C. destruct (Forall2_nth_error _ _ _ _ _ H A) as (z' & C' & E). assert (z' = z) as -> by congruence.
    apply nth_error_In, repeat_spec in B. subst y. rewrite E. ring.
  - intros (L1 & L2 & H). revert v L1 L2 H. induction u as [|x u IH]; intros [|y v] L1 L2 H; try discriminate; [constructor|]. constructor.
    + rewrite (H 0%nat x 0 y); try reflexivity. ring.
    + apply IH; [cbn in L1; lia|rewrite repeat_length; reflexivity|]. intros k a b c. apply (H (S k)).
Qed.
Definition ctimes_c (q : Q) (u v : list cq) : Prop := Forall2 (fun x y => ceq y (cscale q x)) u v.
Lemma ctimes_axpy q u v : ctimes_c q u v <-> caxpy q u (repeat c0 (length v)) v.
Proof.
  split.
  - intros H. split; [exact (Forall2_length' _ _ _ H)|]. split; [apply repeat_length|]. intros k x y z A B C. destruct (Forall2_nth_error _ _ _ _ _ H A) as (z' & C' & E). assert (z' = z) as -> by congruence.
    apply nth_error_In, repeat_spec in B. subst y. rewrite E. split; cbn; ring.
  - intros (L1 & L2 & H). revert v L1 L2 H. induction u as [|x u IH]; intros [|y v] L1 L2 H; try discriminate; [constructor|]. constructor.
    + rewrite (H 0%nat x c0 y); try reflexivity. split; cbn; ring.
    + apply IH; [cbn in L1; lia|rewrite repeat_length; reflexivity|]. intros k a b c. apply (H (S k)).
Qed.
Lemma zero_axpy n : axpy (-1) (repeat 0 n) (repeat 0 n) (repeat 0 n).
Proof. split; [reflexivity|]. split; [reflexivity|]. intros k x y z A B C. apply nth_error_In, repeat_spec in A. apply nth_error_In, repeat_spec in B. apply nth_error_In, repeat_spec in C. subst. ring. Qed.
Lemma czero_axpy n : caxpy (-1) (repeat c0 n) (repeat c0 n) (repeat c0 n).
Proof. split; [reflexivity|]. split; [reflexivity|]. intros k x y z A B C. apply nth_error_In, repeat_spec in A. apply nth_error_In, repeat_spec in B. apply nth_error_In, repeat_spec in C. subst. split; cbn; ring. Qed.
Lemma self_zero u : axpy (-1) u u u -> forall x, In x u -> x == 0.
Proof. intros (_ & _ & H) x Hx. apply In_nth_error in Hx. destruct Hx as [k Hk]. rewrite (H k x x x Hk Hk Hk). ring. Qed.
Lemma cself_zero u : caxpy (-1) u u u -> forall x, In x u -> ceq x c0.
Proof. intros (_ & _ & H) x Hx. apply In_nth_error in Hx. destruct Hx as [k Hk]. rewrite (H k x x x Hk Hk Hk). split; cbn; ring. Qed.
Lemma axpy_drop q u z v : axpy q u z v -> (forall x, In x z -> x == 0) -> times_c q u v.
Proof.
  intros (L1 & L2 & H) Z. apply times_axpy. split; [exact L1|]. split; [apply repeat_length|]. intros k x y w A B C. apply nth_error_In, repeat_spec in B. subst y.
  destruct (nth_error z k) as [t|] eqn:E. 2:{ apply nth_error_None in E. assert (k < length v)%nat by (apply nth_error_Some; congruence). lia. } rewrite (H k x t w A E C), (Z t (nth_error_In _ _ E)). reflexivity.
Qed.
Lemma caxpy_drop q u z v : caxpy q u z v -> (forall x, In x z -> ceq x c0) -> ctimes_c q u v.
Proof.
  intros (L1 & L2 & H) Z. apply ctimes_axpy. split; [exact L1|]. split; [apply repeat_length|]. intros k x y w A B C. apply nth_error_In, repeat_spec in B. subst y.
  destruct (nth_error z k) as [t|] eqn:E. 2:{ apply nth_error_None in E. assert (k < length v)%nat by (apply nth_error_Some; congruence). lia. } rewrite (H k x t w A E C), (Z t (nth_error_In _ _ E)). reflexivity.
Qed.

(** rows without missing samples *)
Definition rt (q : Q) (x y : list cell) : Prop := exists u v, x = map Some u /\ y = map Some v /\ times_c q u v.
Lemma rt_len q x y : rt q x y -> length y = length x.
Proof. intros (u & v & -> & -> & H). rewrite !map_length. symmetry. exact (Forall2_length' _ _ _ H). Qed.
Lemma routine_rt T q x y x' y' : linear_routine T -> rt q x y -> T x = Ok x' -> T y = Ok y' -> rt q x' y'.
Proof.
  intros LT (u & v & -> & -> & H) A B. assert (L : length v = length u) by (symmetry; exact (Forall2_length' _ _ _ H)). destruct (LT (length u)) as [F|(f & F1 & F2)]; [destruct (F u eq_refl) as [e E]; congruence|].
  rewrite (F1 u eq_refl) in A. rewrite (F1 v L) in B. injection A as <-. injection B as <-. exists (f u), (f v). do 2 (split; [reflexivity|]).
  apply (axpy_drop _ _ (f (repeat 0 (length v)))); [apply F2; [exact L|]; apply times_axpy; exact H|]. apply self_zero, F2; [rewrite repeat_length; exact L|]. apply zero_axpy.
Qed.
Lemma transform_rt T q x y x' y' : linear_transform T -> rt q x y -> T x = Ok x' -> T y = Ok y' -> ctimes_c q x' y'.
Proof.
  intros LT (u & v & -> & -> & H) A B. assert (L : length v = length u) by (symmetry; exact (Forall2_length' _ _ _ H)). destruct (LT (length u)) as [F|(f & F1 & F2)]; [destruct (F u eq_refl) as [e E]; congruence|].
  rewrite (F1 u eq_refl) in A. rewrite (F1 v L) in B. injection A as <-. injection B as <-.
  apply (caxpy_drop _ _ (f (repeat 0 (length v)))); [apply F2; [exact L|]; apply times_axpy; exact H|]. apply cself_zero, F2; [rewrite repeat_length; exact L|]. apply zero_axpy.
Qed.
Lemma filter_rt f q u v : linear_filter f -> ctimes_c q u v -> ctimes_c q (f u) (f v).
Proof. intros F H. apply (caxpy_drop _ _ (f (repeat c0 (length v)))); [apply F, ctimes_axpy; exact H|]. apply cself_zero, F, czero_axpy. Qed.
Lemma slice_rt q a b x y : rt q x y -> rt q (slice a b x) (slice a b y).
Proof.
  intros (u & v & -> & -> & H). exists (slice a b u), (slice a b v). split; [apply Linear.slice_map|]. split; [apply Linear.slice_map|]. unfold slice, times_c in *.
  assert (F : forall n (u v : list Q), Forall2 (fun x y => y == q * x) u v -> Forall2 (fun x y => y == q * x) (firstn n u) (firstn n v)) by (induction n; intros ? ? []; cbn; constructor; auto).
  assert (K : forall n (u v : list Q), Forall2 (fun x y => y == q * x) u v -> Forall2 (fun x y => y == q * x) (skipn n u) (skipn n v)) by (induction n; intros ? ? G; [exact G|destruct G; cbn; [constructor|auto]]).
  apply F, K, H.
Qed.

Section Rows.
  Variable ks : nat -> Q.
  Definition sc (ra rb : list (list cell)) : Prop := length rb = length ra /\ forall i x y, nth_error ra i = Some x -> nth_error rb i = Some y -> rt (ks i) x y.
  Lemma sc_width ra rb : sc ra rb -> width rb = width ra.
  Proof. intros [L H]. destruct ra as [|x ra], rb as [|y rb]; try discriminate; [reflexivity|]. cbn [width]. rewrite (rt_len _ _ _ (H 0%nat x y eq_refl eq_refl)). reflexivity. Qed.
  Lemma sc_mapM T ra rb ra' rb' : linear_routine T -> sc ra rb -> mapM T ra = Ok ra' -> mapM T rb = Ok rb' -> sc ra' rb'.
  Proof.
    intros LT [L H] A B. split; [rewrite (mapM_len _ _ _ A), (mapM_len _ _ _ B); exact L|]. intros i x' y' Hx Hy. apply mapM_ok in A, B.
    destruct (Forall2_nth_error_r _ _ _ _ _ A Hx) as (x & Ex & Tx). destruct (Forall2_nth_error_r _ _ _ _ _ B Hy) as (y & Ey & Ty). exact (routine_rt _ _ _ _ _ _ LT (H _ _ _ Ex Ey) Tx Ty).
  Qed.
  Lemma sc_map g ra rb : linear_routine (fun r => Ok (g r)) -> sc ra rb -> sc (map g ra) (map g rb).
  Proof. intros LT S. exact (sc_mapM _ _ _ _ _ LT S (mapM_total_map _ _) (mapM_total_map _ _)). Qed.
  Lemma sc_slice a b ra rb : sc ra rb -> sc (map (slice a b) ra) (map (slice a b) rb).
  Proof.
    intros [L H]. split; [rewrite !map_length; exact L|]. intros i x y Hx Hy. rewrite nth_error_map in Hx, Hy. destruct (nth_error ra i) as [r|] eqn:E; [|discriminate]. destruct (nth_error rb i) as [r'|] eqn:E'; [|discriminate].
    injection Hx as <-. injection Hy as <-. apply slice_rt. eapply H; eassumption.
  Qed.
  Lemma sc_rowwise drnd vs ra rb ra' rb' : (forall x, drnd x == x) -> sc ra rb -> Time.rowwise (Time.cmul drnd) ra vs = Ok ra' -> Time.rowwise (Time.cmul drnd) rb vs = Ok rb' -> sc ra' rb'.
  Proof.
    intros ED [L H] A B. assert (LA : length ra' = length ra) by (unfold Time.rowwise in A; destruct (Nat.eqb_spec (length ra) (length vs)) as [E|]; [|discriminate]; injection A as <-; rewrite map_length, combine_length; lia).
    assert (LB : length rb' = length rb) by (unfold Time.rowwise in B; destruct (Nat.eqb_spec (length rb) (length vs)) as [E|]; [|discriminate]; injection B as <-; rewrite map_length, combine_length; lia).
    split; [congruence|]. intros i x' y' Hx Hy.
    destruct (nth_error ra i) as [x|] eqn:Ex. 2:{ apply nth_error_None in Ex. assert (i < length ra')%nat by (apply nth_error_Some; congruence). lia. }
    destruct (nth_error rb i) as [y|] eqn:Ey. 2:{ apply nth_error_None in Ey. assert (i < length rb')%nat by (apply nth_error_Some; congruence). lia. }
    destruct (rowwise_row _ _ _ _ _ _ A Ex) as (w & W1 & W2). destruct (rowwise_row _ _ _ _ _ _ B Ey) as (w' & W1' & W2').
    assert (w' = w) as -> by congruence. assert (E1 : x' = map (fun x => Time.cmul drnd x (Some w)) x) by congruence. assert (E2 : y' = map (fun x => Time.cmul drnd x (Some w)) y) by congruence.
    exact (routine_rt _ _ _ _ _ _ (scale_linear drnd ED w) (H _ _ _ Ex Ey) (f_equal Ok (eq_sym E1)) (f_equal Ok (eq_sym E2))).
  Qed.
  Lemma no_nan (u : list Q) : existsb is_nan (map Some u) = false.
  Proof. induction u; cbn; auto. Qed.
  Lemma sc_interp cs ra rb ra' rb' : NoDup cs -> sc ra rb -> interp_rows cs cs ra = Ok ra' -> interp_rows cs cs rb = Ok rb' -> sc ra' rb'.
  Proof.
    intros ND [L H] A B. destruct (interp_rows_spec _ _ _ _ ND (fun _ K => K) ND A) as [L1 S1]. destruct (interp_rows_spec _ _ _ _ ND (fun _ K => K) ND B) as [L2 S2].
    split; [congruence|]. intros i x' y' Hx Hy.
    destruct (nth_error ra i) as [x|] eqn:Ex. 2:{ apply nth_error_None in Ex. assert (i < length ra')%nat by (apply nth_error_Some; congruence). lia. }
    destruct (nth_error rb i) as [y|] eqn:Ey. 2:{ apply nth_error_None in Ey. assert (i < length rb')%nat by (apply nth_error_Some; congruence). lia. }
    pose proof (H _ _ _ Ex Ey) as R. pose proof R as (u & v & -> & -> & T).
    assert (x' = map Some u) as ->. { destruct (S1 _ _ Ex) as (r & E & [(c & _ & _ & K)|[_ K]]); assert (r = x') as -> by congruence; [|exact K]. unfold interpolate_nans_chan in K. rewrite no_nan in K. congruence. }
    assert (y' = map Some v) as ->. { destruct (S2 _ _ Ey) as (r & E & [(c & _ & _ & K)|[_ K]]); assert (r = y') as -> by congruence; [|exact K]. unfold interpolate_nans_chan in K. rewrite no_nan in K. congruence. }
    exact R.
  Qed.

  (** recordings *)
  Definition st (a b : tdata) : Prop :=
    fs (meta b) = fs (meta a) /\ n_samples (meta b) = n_samples (meta a) /\ first_time (meta b) = first_time (meta a) /\ last_time (meta b) = last_time (meta a) /\
    chans (meta b) = chans (meta a) /\ n_chans (meta b) = n_chans (meta a) /\ sc (rows a) (rows b).
  Lemma st_keep a b da db ra rb : st a b -> sc da db -> st (new_time_data a None (Some da) (Some ra)) (new_time_data b None (Some db) (Some rb)).
  Proof. intros (E1 & E2 & E3 & E4 & E5 & E6 & _) C. unfold st, new_time_data, with_history. cbn. do 6 (split; [assumption|]). exact C. Qed.
  Lemma st_adjust rnd a b da db ra rb f n t : st a b -> sc da db ->
    st (new_time_data a (Some (adjust_time_metadata rnd (meta a) f t n)) (Some da) (Some ra)) (new_time_data b (Some (adjust_time_metadata rnd (meta b) f t n)) (Some db) (Some rb)).
  Proof. intros (E1 & E2 & E3 & E4 & E5 & E6 & _) C. unfold st, new_time_data, adjust_time_metadata, with_history. cbn. do 4 (split; [reflexivity|]). do 2 (split; [assumption|]). exact C. Qed.

  Variables (rnd drnd : Q -> Q) (orc : oracles).
  Hypothesis ED : forall x, drnd x == x.
  Hypothesis HF : forall b k l, linear_routine (o_filter orc b k l).
  Hypothesis HD : forall q, linear_routine (o_decimate orc q).
  Hypothesis HR : forall p q, linear_routine (o_resample orc p q).
  Lemma steps_sc fs : forall ra rb ra' rb', sc ra rb -> decimate_steps orc fs ra = Ok ra' -> decimate_steps orc fs rb = Ok rb' -> sc ra' rb'.
  Proof.
    induction fs as [|f fs IH]; intros ra rb ra' rb' C A B; cbn [decimate_steps] in A, B; [injection A as <-; injection B as <-; exact C|].
    destruct (f =? 1)%Z; [eauto|]. apply bind_ok in A. destruct A as (d & A1 & A2). apply bind_ok in B. destruct B as (e & B1 & B2).
    eapply (IH d e); [|exact A2|exact B2]. exact (sc_mapM _ _ _ _ _ (HD f) C A1 B1).
  Qed.
  Lemma decimate_st f mx a b a' b' : st a b -> decimate rnd orc f mx a = Ok a' -> decimate rnd orc f mx b = Ok b' -> st a' b'.
  Proof.
    intros T A B. pose proof T as (E1 & E2 & E3 & E4 & E5 & E6 & C). unfold decimate in A, B. rewrite E1, E3 in B. apply bind_ok in A. destruct A as (da & A1 & A). apply bind_ok in B. destruct B as (db & B1 & B).
    pose proof (steps_sc _ _ _ _ _ C A1 B1) as C'. injection A as <-. injection B as <-. rewrite (sc_width _ _ C'). apply st_adjust; [exact T|exact C'].
  Qed.
  Lemma resample_st nf a b a' b' : st a b -> resample rnd orc nf a = Ok a' -> resample rnd orc nf b = Ok b' -> st a' b'.
  Proof.
    intros T A B. pose proof T as (E1 & E2 & E3 & E4 & E5 & E6 & C). unfold resample in A, B. rewrite E1, E3 in B. apply bind_ok in A. destruct A as (da & A1 & A). apply bind_ok in B. destruct B as (db & B1 & B).
    pose proof (sc_mapM _ _ _ _ _ (HR _ _) C A1 B1) as C'. injection A as <-. injection B as <-. rewrite (sc_width _ _ C'). apply st_adjust; [exact T|exact C'].
  Qed.
  Lemma run_st p a b a' b' : unit_proc p -> NoDup (chans (meta a)) -> st a b -> run rnd drnd orc p a = Ok a' -> run rnd drnd orc p b = Ok b' -> st a' b'.
  Proof.
    intros U ND T A B. pose proof T as (E1 & E2 & E3 & E4 & E5 & E6 & C).
    assert (FI : forall bt ord cut cut' q, cut' = cut -> filter_run orc bt ord cut q a = Ok a' -> filter_run orc bt ord cut' q b = Ok b' -> st a' b').
    { intros bt ord cut cut' q -> Ha Hb. unfold filter_run in Ha, Hb. apply bind_ok in Ha. destruct Ha as (l & L1 & Ha). rewrite L1 in Hb. cbn [bind] in Hb. apply bind_ok in Ha. destruct Ha as (d & D1 & Ha). apply bind_ok in Hb. destruct Hb as (e & D2 & Hb).
      injection Ha as <-. injection Hb as <-. apply st_keep; [exact T|]. exact (sc_mapM _ _ _ _ _ (HF _ _ _) C D1 D2). }
    assert (MU : forall x, multiply drnd x a = Ok a' -> multiply drnd x b = Ok b' -> st a' b').
    { intros x Ha Hb. unfold multiply in Ha, Hb. assert (G : get_mult drnd b x = get_mult drnd a x) by (unfold get_mult; rewrite E5, E6; reflexivity). rewrite G in Hb. apply bind_ok in Ha. destruct Ha as (vs & V & Ha). rewrite V in Hb. cbn [bind] in Hb.
      apply bind_ok in Ha. destruct Ha as (d & D1 & Ha). apply bind_ok in Hb. destruct Hb as (e & D2 & Hb). injection Ha as <-. injection Hb as <-. apply st_keep; [exact T|]. exact (sc_rowwise _ _ _ _ _ _ ED C D1 D2). }
    destruct U as [U|[->|[x ->]]].
    - destruct p; cbn [run linear_proc] in *; try contradiction;
        try (refine (FI _ _ _ _ _ _ A B); unfold lowpass_cutoffs, highpass_cutoffs, bandpass_cutoffs, notch_cutoffs, nyquist; rewrite E1; reflexivity).
      + unfold subsection in A, B. rewrite E1, E3, E4 in B. apply bind_ok in A. destruct A as ([i j] & I1 & A). rewrite I1 in B. cbn [bind] in B. apply bind_ok in A. destruct A as ([ta tb] & I2 & A). rewrite I2 in B. cbn [bind] in B. injection A as <-. injection B as <-. apply st_adjust; [exact T|]. apply sc_slice, C.
      + unfold remove_mean in A, B. injection A as <-. injection B as <-. apply st_keep; [exact T|]. exact (sc_map _ _ _ (mean_linear drnd ED) C).
      + exact (MU _ A B).
      + exact (resample_st _ _ _ _ _ T A B).
      + exact (decimate_st _ _ _ _ _ _ T A B).
    - cbn [run] in A, B. unfold interpolate_nans in A, B. rewrite E5 in B. apply bind_ok in A. destruct A as (d & D1 & A). apply bind_ok in B. destruct B as (e & D2 & B). injection A as <-. injection B as <-. apply st_keep; [exact T|]. exact (sc_interp _ _ _ _ _ ND C D1 D2).
    - exact (MU _ A B).
  Qed.
  Lemma run_chans p td td' : unit_proc p -> run rnd drnd orc p td = Ok td' -> chans (meta td') = chans (meta td).
  Proof. intros _ H. exact (run_all_chans rnd drnd orc [p] td td' ltac:(cbn [run_all]; rewrite H; reflexivity)). Qed.
  Lemma run_all_st ps : forall a b a' b', Forall unit_proc ps -> NoDup (chans (meta a)) -> st a b -> run_all rnd drnd orc ps a = Ok a' -> run_all rnd drnd orc ps b = Ok b' -> st a' b'.
  Proof.
    induction ps as [|p ps IH]; intros a b a' b' D ND T A B; cbn [run_all] in A, B; [injection A as <-; injection B as <-; exact T|].
    apply bind_ok in A. destruct A as (a1 & A1 & A). apply bind_ok in B. destruct B as (b1 & B1 & B). inversion D; subst. eapply IH; [assumption| |exact (run_st _ _ _ _ _ H1 ND T A1 B1)|exact A|exact B].
    rewrite (run_chans _ _ _ H1 A1). exact ND.
  Qed.

  (** decimation *)
  Lemma step_st ur maxf f a b a' b' : st a b -> dec_step rnd orc ur maxf a f = Ok a' -> dec_step rnd orc ur maxf b f = Ok b' -> st a' b'.
  Proof.
    intros T A B. pose proof T as (E1 & _). unfold dec_step in A, B. rewrite E1 in B. destruct (f =? 1)%Z; [injection A as <-; injection B as <-; exact T|]. destruct ur.
    - destruct (f =? 0)%Z; [discriminate|]. exact (resample_st _ _ _ _ _ T A B).
    - destruct (f <? 1)%Z; [discriminate|]. exact (decimate_st _ _ _ _ _ _ T A B).
  Qed.
  Lemma loop_st ur maxf ms incs : forall k a b da la db lb, st a b -> dec_loop rnd orc ur maxf ms incs k a = Ok (da, la) -> dec_loop rnd orc ur maxf ms incs k b = Ok (db, lb) ->
    la = lb /\ Forall2 (fun p q => fst p = fst q /\ sc (snd p) (snd q)) da db.
  Proof.
    induction incs as [|f incs IH]; intros k a b da la db lb T A B; cbn [dec_loop] in A, B; [injection A as <- <-; injection B as <- <-; split; [reflexivity|constructor]|].
    apply bind_ok in A. destruct A as (a1 & A1 & A). apply bind_ok in B. destruct B as (b1 & B1 & B). pose proof (step_st _ _ _ _ _ _ _ T A1 B1) as T'.
    pose proof T' as (E1 & E2 & E3 & E4 & E5 & E6 & C). rewrite E2 in B. destruct (n_samples (meta a1) <? ms)%Z; [injection A as <- <-; injection B as <- <-; split; [reflexivity|constructor]|].
    apply bind_ok in A. destruct A as ([d l] & A2 & A). apply bind_ok in B. destruct B as ([d' l'] & B2 & B). injection A as <- <-. injection B as <- <-.
    destruct (IH _ _ _ _ _ _ _ T' A2 B2) as [-> F]. split; [unfold level_of; congruence|]. constructor; [split; [reflexivity|exact C]|exact F].
  Qed.
  Definition dst (a b : dec_data) : Prop := dd_fs b = dd_fs a /\ dd_n_levels b = dd_n_levels a /\ dd_levels_md b = dd_levels_md a /\ dd_chans b = dd_chans a /\
    forall l x y, get_level a l = Ok x -> get_level b l = Ok y -> sc x y.
  Lemma decimator_st ur maxf p a b da db : st a b -> decimator_run rnd orc ur maxf p a = Ok da -> decimator_run rnd orc ur maxf p b = Ok db -> dst da db.
  Proof.
    intros T A B. unfold decimator_run in A, B. apply bind_ok in A. destruct A as ([xa la] & A1 & A). apply bind_ok in B. destruct B as ([xb lb] & B1 & B).
    destruct (loop_st _ _ _ _ _ _ _ _ _ _ _ T A1 B1) as [<- F]. destruct xa as [|ha ta]; [discriminate|]. destruct xb as [|hb tb]; [discriminate|]. injection A as <-. injection B as <-.
    unfold dst. cbn [dd_fs dd_n_levels dd_levels_md dd_chans]. do 3 (split; [reflexivity|]). split; [apply T|]. intros l x y HA HB. unfold get_level in HA, HB. cbn [dd_n_levels dd_data] in HA, HB. destruct (_ >=? _)%Z; [discriminate|].
    destruct (find _ (ha :: ta)) as [[ka xa]|] eqn:FA; [|discriminate]. destruct (find _ (hb :: tb)) as [[kb xb]|] eqn:FB; [|discriminate]. injection HA as <-. injection HB as <-.
    exact (find_both sc l _ _ F _ _ _ _ FA FB).
  Qed.
End Rows.

(** arrays of windows and channels *)
Definition vrel {X Y} (R : nat -> list X -> list Y -> Prop) (x : nd X) (y : nd Y) : Prop := forall w i u v, nd_vec x [w; i] = Some u -> nd_vec y [w; i] = Some v -> R i u v.
Lemma last_rel {X X' Y Y'} (R : nat -> list X -> list X' -> Prop) (S : nat -> list Y -> list Y' -> Prop) f g x y x' y' : (forall i u v u' v', R i u v -> f u = Ok u' -> g v = Ok v' -> S i u' v') ->
  vrel R x y -> nd_last f x = Ok x' -> nd_last g y = Ok y' -> vrel S x' y'.
Proof. intros H V A B w i u v Hu Hv. destruct (nd_last_vec_r f _ _ _ _ A Hu) as (u0 & F1 & K1). destruct (nd_last_vec_r g _ _ _ _ B Hv) as (v0 & F2 & K2). exact (H _ _ _ _ _ (V _ _ _ _ K1 K2) F1 F2). Qed.
Section Windows.
  Variable ks : nat -> Q.
  Definition wrel (x y : nd cell) : Prop := vrel (fun i => rt (ks i)) x y.
  Definition crel (x y : nd cq) : Prop := vrel (fun i => ctimes_c (ks i)) x y.
  Lemma level_rel la lb m table w o c x y : sc ks la lb -> rect la (lm_n_samples m) -> rect lb (lm_n_samples m) -> c = Z.of_nat (length la) -> (2 <= c)%Z ->
    (2 <= w /\ w <> lm_n_samples m)%Z -> get_level_data la table c w o = Ok x -> get_level_data lb table c w o = Ok y -> wrel x y.
  Proof.
    intros [LL C] Ra Rb La Ca [W1 W2] A B. unfold get_level_data in A, B. destruct table as [|r0 tb] eqn:ET; [discriminate|]. rewrite <- ET in *.
    apply bind_ok in A. destruct A as (va & A1 & A). apply bind_ok in B. destruct B as (vb & B1 & B).
    assert (Wa : (2 <= w < lm_n_samples m)%Z).
    { unfold sliding_window_view in A1. destruct (_ || _) eqn:E in A1; [discriminate|]. apply orb_false_elim in E. destruct E as [_ E]. destruct la as [|row la]; [cbn in La; lia|]. cbn [width] in E. pose proof (Ra row (or_introl eq_refl)). lia. }
    rewrite (view_full la c w _ va Ra La Ca Wa A1) in A. rewrite (view_full lb c w _ vb Rb ltac:(lia) Ca Wa B1) in B.
    rewrite slice_map' in A, B. destruct (py_slice _ _ _ (arange _)) as [ss|]; [|discriminate]. cbn [bind] in A, B. injection A as <-. injection B as <-.
    intros k i u v Hu Hv. unfold nd_vec in Hu, Hv. cbn [nd_at nd_nth] in Hu, Hv. rewrite nth_error_map in Hu, Hv. destruct (nth_error ss k) as [s|]; [|discriminate]. cbn [option_map nd_at nd_nth] in Hu, Hv. rewrite nth_error_map in Hu, Hv.
    destruct (nth_error la i) as [ra|] eqn:Ea; [|discriminate]. destruct (nth_error lb i) as [rb|] eqn:Eb; [|discriminate]. cbn [option_map] in Hu, Hv. unfold row_window in Hu, Hv. rewrite scalars_map in Hu, Hv.
    assert (u = slice s (s + w) ra) as -> by congruence. assert (v = slice s (s + w) rb) as -> by congruence. apply slice_rt. eapply C; eassumption.
  Qed.
  Lemma windows_rel rnd nt ndl sizes check mn ref a b : dst ks a b -> levels_sized a -> levels_sized b -> (2 <= length (dd_chans a))%nat ->
    (forall l m w o, (0 <= l)%Z -> nth_error (dd_levels_md a) (Z.to_nat l) = Some m -> sizes l m = Ok (w, o) -> (2 <= w /\ w <> lm_n_samples m)%Z) ->
    forall ls xa la xb lb, (forall l, In l ls -> (0 <= l)%Z) -> window_loop rnd nt ndl sizes check mn ref a ls = Ok (xa, la) -> window_loop rnd nt ndl sizes check mn ref b ls = Ok (xb, lb) ->
    la = lb /\ Forall2 (fun p q => fst p = fst q /\ wrel (snd p) (snd q)) xa xb.
  Proof.
    intros (D1 & D2 & D3 & DC & D4) SA SB Ca HW. induction ls as [|l ls IH]; intros xa la xb lb HL A B; cbn [window_loop] in A, B; [injection A as <- <-; injection B as <- <-; split; [reflexivity|constructor]|].
    pose proof (HL l (or_introl eq_refl)) as L0. rewrite D3 in B. destruct (nth_error (dd_levels_md a) (Z.to_nat l)) as [m|] eqn:EM; [|discriminate]. cbn [bind] in A, B. destruct (sizes l m) as [[w o]|] eqn:ES; [|discriminate]. cbn [bind] in A, B.
    destruct (get_win_table rnd nt ndl ref m w o) as [table|]; [|discriminate]. cbn [bind] in A, B. cbv zeta in A, B. destruct (_ <? mn)%Z; [injection A as <- <-; injection B as <- <-; split; [reflexivity|constructor]|].
    apply bind_ok in A. destruct A as (da & A1 & A). apply bind_ok in A. destruct A as (x & A2 & A). apply bind_ok in A. destruct A as (ka & _ & A).
    apply bind_ok in B. destruct B as (db & B1 & B). apply bind_ok in B. destruct B as (y & B2 & B). apply bind_ok in B. destruct B as (kb & _ & B).
    destruct (check && _); [discriminate|]. destruct (check && _) in B; [discriminate|]. destruct (get_level_metadata m table w o) as [wl|]; [|discriminate]. cbn [bind] in A, B.
    apply bind_ok in A. destruct A as ([xs wls] & A3 & A). apply bind_ok in B. destruct B as ([ys wls'] & B3 & B). injection A as <- <-. injection B as <- <-.
    destruct (IH _ _ _ _ (fun l H => HL l (or_intror H)) A3 B3) as [-> F]. split; [reflexivity|]. constructor; [|exact F]. split; [reflexivity|]. cbn [snd].
    pose proof (D4 _ _ _ A1 B1) as C. pose proof EM as EMb. rewrite <- D3 in EMb. destruct (SA _ _ EM) as (da' & Ea & La & Ra). destruct (SB _ _ EMb) as (db' & Eb & Lb & Rb). rewrite Z2Nat.id in Ea, Eb by exact L0.
    assert (da' = da) as -> by congruence. assert (db' = db) as -> by congruence. rewrite DC in B2. exact (level_rel _ _ _ _ _ _ _ _ _ C Ra Rb ltac:(rewrite La; reflexivity) ltac:(lia) (HW _ _ _ _ L0 EM ES) A2 B2).
  Qed.
  Definition wst (a b : win_data) : Prop := wd_n_levels b = wd_n_levels a /\ wd_levels b = wd_levels a /\ wd_chans b = wd_chans a /\ Forall2 (fun p q => fst p = fst q /\ wrel (snd p) (snd q)) (wd_data a) (wd_data b).
  Lemma windower_st rnd nt ndl ref p a b wa wb : dst ks a b -> levels_sized a -> levels_sized b -> (2 <= length (dd_chans a))%nat -> window_sizes_ok p a ->
    windower_run rnd nt ndl ref p a = Ok wa -> windower_run rnd nt ndl ref p b = Ok wb -> wst wa wb /\ wd_chans wa = dd_chans a.
  Proof.
    intros D SA SB Ca WS A B. unfold windower_run in A, B. pose proof D as (_ & D2 & _ & D4 & _). rewrite D2 in B. apply bind_ok in A. destruct A as ([xa la] & A1 & A). apply bind_ok in B. destruct B as ([xb lb] & B1 & B).
    assert (HW : forall l m w o, (0 <= l)%Z -> nth_error (dd_levels_md a) (Z.to_nat l) = Some m -> (w' <- wp_level p (wp_win_sizes p) l ;; o' <- wp_level p (wp_olap_sizes p) l ;; Ok (w', o')) = Ok (w, o) -> (2 <= w /\ w <> lm_n_samples m)%Z).
    { intros l m w o L0 E H. apply bind_ok in H. destruct H as (w' & H1 & H). apply bind_ok in H. destruct H as (o' & H2 & H). injection H as -> ->. apply wp_level_nth in H1. exact (WS _ _ _ E (proj1 H1)). }
    assert (HL : forall l, In l (arange (dd_n_levels a)) -> (0 <= l)%Z) by (intros l Hl; apply CalibrateFinal.arange_in in Hl; lia).
    destruct (windows_rel rnd nt ndl _ _ _ ref a b D SA SB Ca HW _ _ _ _ _ HL A1 B1) as [<- F].
    unfold make_windowed in A, B. destruct xa; [discriminate|]. destruct xb; [discriminate|]. injection A as <-. injection B as <-. split; [|reflexivity]. split; [reflexivity|]. split; [reflexivity|]. split; [exact D4|exact F].
  Qed.

  (** spectra *)
  Definition prel (p q : Z * nd cq) : Prop := fst p = fst q /\ crel (snd p) (snd q).
  Definition sst (a b : spec_data cq) : Prop := sm_n_levels (sd_md b) = sm_n_levels (sd_md a) /\ sm_levels (sd_md b) = sm_levels (sd_md a) /\ sm_chans (sd_md b) = sm_chans (sd_md a) /\ Forall2 prel (sd_data a) (sd_data b).
  Lemma at_rel a b l x y : sst a b -> sd_at a l = Ok x -> sd_at b l = Ok y -> crel x y.
  Proof.
    intros (_ & _ & _ & F) A B. unfold sd_at in A, B. destruct (find _ (sd_data a)) as [[ka xa]|] eqn:FA; [|discriminate]. destruct (find _ (sd_data b)) as [[kb xb]|] eqn:FB; [|discriminate]. injection A as <-. injection B as <-.
    exact (find_both crel l _ _ F _ _ _ _ FA FB).
  Qed.
  Lemma split_rel (r s : list ((Z * nd cq) * spec_level)) : Forall2 (fun u v => prel (fst u) (fst v) /\ snd u = snd v) r s -> Forall2 prel (map fst r) (map fst s) /\ map snd r = map snd s.
  Proof. induction 1 as [|u v r s [H1 H2] F [I1 I2]]; [split; [constructor|reflexivity]|]. cbn [map]. split; [constructor; assumption|congruence]. Qed.
  Lemma fourier_st rnd nf T a b da db : (forall w n, linear_transform (T w n)) -> wst a b -> fourier_run rnd nf T a = Ok da -> fourier_run rnd nf T b = Ok db -> sst da db /\ sm_chans (sd_md da) = wd_chans a.
  Proof.
    intros HT (W1 & W2 & WC & W3) A B. unfold fourier_run in A, B. apply bind_ok in A. destruct A as (r & Ar & A). apply bind_ok in B. destruct B as (s & Bs & B). rewrite W1 in Bs. apply make_spec_ok in A. apply make_spec_ok in B. subst da db.
    assert (F : Forall2 (fun u v => prel (fst u) (fst v) /\ snd u = snd v) r s).
    { refine (mapM_both _ _ _ _ _ r s Ar Bs). intros l u v _ A B. unfold fourier_level in A, B. unfold wd_level_md in A, B. rewrite W2 in B. destruct (py_nth (wd_levels a) l) as [m|]; [|discriminate]. cbn [bind] in A, B. cbv zeta in A, B.
      destruct (rfft_freqs _ _ _) as [fr|]; [|discriminate]. cbn [bind] in A, B. apply bind_ok in A. destruct A as (x & A1 & A). apply bind_ok in A. destruct A as (x' & A2 & A). apply bind_ok in B. destruct B as (y & B1 & B). apply bind_ok in B. destruct B as (y' & B2 & B).
      injection A as <-. injection B as <-. split; [|reflexivity]. split; [reflexivity|]. cbn [snd fst]. refine (last_rel (fun i => rt (ks i)) _ _ _ _ _ _ _ _ _ A2 B2); [intros i p q p' q' R E1 E2; exact (transform_rt _ _ _ _ _ _ (HT _ _) R E1 E2)|].
      unfold wd_get_level in A1, B1. rewrite W1 in B1. destruct (_ >=? _)%Z; [discriminate|].
      destruct (find _ (wd_data a)) as [[ka xa]|] eqn:FA; [|discriminate]. destruct (find _ (wd_data b)) as [[kb xb]|] eqn:FB; [|discriminate]. injection A1 as <-. injection B1 as <-. exact (find_both wrel l _ _ W3 _ _ _ _ FA FB). }
    apply split_rel in F. destruct F as [F1 F2]. split; [|reflexivity]. split; [exact W1|]. cbn [sd_md sm_levels sm_chans sd_data]. split; [symmetry; exact F2|]. split; [exact WC|exact F1].
  Qed.
  Lemma smooth_st name f g a b a' b' : (forall l, f l = g l) -> (forall l h, f l = Ok h -> linear_filter h) -> sst a b -> smooth_run name f a = Ok a' -> smooth_run name g b = Ok b' -> sst a' b' /\ sm_chans (sd_md a') = sm_chans (sd_md a).
  Proof.
    intros E LF S A B. pose proof S as (S1 & S2 & SC & S3). unfold smooth_run in A, B. apply bind_ok in A. destruct A as (r & Ar & A). apply bind_ok in B. destruct B as (s & Bs & B). rewrite S1 in Bs. apply make_spec_ok in A. apply make_spec_ok in B. subst a' b'.
    split; [|reflexivity]. split; [exact S1|]. split; [exact S2|]. split; [exact SC|]. cbn [sd_data]. refine (mapM_both _ _ _ _ _ r s Ar Bs). intros l u v _ A B. rewrite <- E in B. destruct (f l) as [h|] eqn:Ef; [|discriminate]. cbn [bind] in A, B.
    apply bind_ok in A. destruct A as (x & A1 & A). apply bind_ok in A. destruct A as (x' & A2 & A). apply bind_ok in B. destruct B as (y & B1 & B). apply bind_ok in B. destruct B as (y' & B2 & B). injection A as <-. injection B as <-.
    split; [reflexivity|]. cbn [snd]. refine (last_rel (fun i => ctimes_c (ks i)) _ _ _ _ _ _ _ _ _ A2 B2); [intros i p q p' q' R [= <-] [= <-]; exact (filter_rt _ _ _ _ (LF _ _ Ef) R)|].
    exact (at_rel _ _ _ _ _ S (get_level_at _ _ _ A1) (get_level_at _ _ _ B1)).
  Qed.
  Lemma sprocs_st L ps : (forall s, linear_filter (l_uniform L s)) -> (forall s, linear_filter (l_gaussian L s)) ->
    forall a b a' b', sst a b -> run_sprocs L ps a = Ok a' -> run_sprocs L ps b = Ok b' -> sst a' b' /\ sm_chans (sd_md a') = sm_chans (sd_md a).
  Proof.
    intros HU HG. induction ps as [|p ps IH]; intros a b a' b' S A B; cbn [run_sprocs] in A, B; [injection A as <-; injection B as <-; auto|].
    apply bind_ok in A. destruct A as (a1 & A1 & A). apply bind_ok in B. destruct B as (b1 & B1 & B).
    assert (X : sst a1 b1 /\ sm_chans (sd_md a1) = sm_chans (sd_md a)).
    { destruct p; cbn [run_sproc] in A1, B1; (eapply smooth_st; [| |exact S|exact A1|exact B1]); cbv beta.
      - intros l. unfold sd_level_md. rewrite (proj1 (proj2 S)). reflexivity.
      - intros l h E. apply bind_ok in E. destruct E as (m & _ & E). injection E as <-. apply HU.
      - reflexivity.
      - intros l h E. injection E as <-. apply HG. }
    destruct X as (S' & C1). destruct (IH _ _ _ _ S' A B) as (K1 & K2). split; [exact K1|]. congruence.
  Qed.
  Lemma evals_st p a b a' b' : sst a b -> evals_run p a = Ok a' -> evals_run p b = Ok b' -> sst a' b' /\ sm_chans (sd_md a') = sm_chans (sd_md a).
  Proof.
    intros S A B. pose proof S as (S1 & S2 & SC & S3). unfold evals_run in A, B. apply bind_ok in A. destruct A as (r & Ar & A). apply bind_ok in B. destruct B as (s & Bs & B). rewrite S1 in Bs. cbv zeta in A, B. apply make_spec_ok in A. apply make_spec_ok in B. subst a' b'.
    assert (F : Forall2 (fun u v => prel (fst u) (fst v) /\ snd u = snd v) r s).
    { refine (mapM_both _ _ _ _ _ r s Ar Bs). intros l u v _ A B. unfold eval_level, sd_level_md in A, B. rewrite S2 in B. destruct (py_nth _ l) as [m|]; [|discriminate]. cbn [bind] in A, B. destruct (level_eval_freqs p l) as [ev|]; [|discriminate]. cbn [bind] in A, B.
      apply bind_ok in A. destruct A as (x & A1 & A). apply bind_ok in A. destruct A as (x' & A2 & A). apply bind_ok in B. destruct B as (y & B1 & B). apply bind_ok in B. destruct B as (y' & B2 & B). injection A as <-. injection B as <-.
      split; [|reflexivity]. split; [reflexivity|]. cbn [snd fst]. refine (last_rel (fun i => ctimes_c (ks i)) _ _ _ _ _ _ _ _ _ A2 B2); [|exact (at_rel _ _ _ _ _ S (get_level_at _ _ _ A1) (get_level_at _ _ _ B1))].
      intros i q q0 q' q0' R E1 E2. rewrite (eval_vec_or0 _ _ _ _ E1), (eval_vec_or0 _ _ _ _ E2). exact (filter_rt _ _ _ _ (eval_linear _ _) R). }
    apply split_rel in F. destruct F as [F1 F2]. split; [|reflexivity]. split; [exact S1|]. cbn [sd_md sm_levels sm_chans sd_data]. split; [symmetry; exact F2|]. split; [exact SC|exact F1].
  Qed.
End Windows.

Definition unit_at (k : chan -> Q) (cs : list chan) (i : nat) : Q := match nth_error cs i with Some c => k c | None => 1 end.
Lemma units_st k a b : in_units k a b -> st (unit_at k (chans (meta a))) a b /\ NoDup (chans (meta a)).
Proof.
  intros (E1 & E2 & E3 & E4 & E5 & E6 & ND & LA & LB & H). split; [|exact ND]. unfold st. do 6 (split; [assumption|]). split; [congruence|]. intros i x y Hx Hy.
  destruct (nth_error (chans (meta a)) i) as [c|] eqn:Ec. 2:{ apply nth_error_None in Ec. assert (i < length (rows a))%nat by (apply nth_error_Some; congruence). lia. }
  destruct (H c (nth_error_In _ _ Ec)) as (u & v & (i1 & C1 & R1) & (i2 & C2 & R2) & T). rewrite E5 in C2. assert (i1 = i) as -> by exact (nodup_index _ _ _ _ ND C1 Ec). assert (i2 = i) as -> by exact (nodup_index _ _ _ _ ND C2 Ec).
  unfold unit_at. rewrite Ec. exists u, v. split; [congruence|]. split; [congruence|exact T].
Qed.
Section Whole.
  Variables (L : library) (c : config) (k : chan -> Q).
  Hypothesis HL : linear_library L.
  Hypothesis HF : forall b k l, linear_routine (o_filter (l_orc L) b k l).
  Hypothesis ED : forall x, l_drnd L x == x.
  Hypothesis HU : Forall unit_proc (cf_time c).
  Lemma evals_units ref a b pa pb ea eb : in_units k a b -> processable L c a -> processable L c b -> to_evals L c ref a = Ok (pa, ea) -> to_evals L c ref b = Ok (pb, eb) ->
    pb = pa /\ NoDup (sm_chans (sd_md ea)) /\ sst (unit_at k (sm_chans (sd_md ea))) ea eb.
  Proof.
    intros HA (PT & _ & _ & KA) (_ & _ & _ & KB) A B. destruct (units_st _ _ _ HA) as [T ND]. destruct HL as (HD & HR & HT & HUn & HG). unfold to_evals in A, B.
    apply bind_ok in A. destruct A as (a' & A1 & A). apply bind_ok in B. destruct B as (b' & B1 & B). pose proof (run_all_st _ _ _ _ ED HF HD HR _ _ _ _ _ HU ND T A1 B1) as T'.
    pose proof (run_all_chans _ _ _ _ _ _ A1) as CH. set (ks := unit_at k (chans (meta a))) in *.
    pose proof T' as (E1 & _). rewrite E1 in B. apply bind_ok in A. destruct A as (p & A2 & A). rewrite A2 in B. cbn [bind] in B.
    apply bind_ok in A. destruct A as (da & A3 & A). apply bind_ok in B. destruct B as (db & B3 & B). pose proof (decimator_st _ _ _ HD HR _ _ _ _ _ _ _ T' A3 B3) as DT. pose proof DT as (F1 & F2 & F3 & F4 & _).
    apply bind_ok in A. destruct A as (wa & A4 & A). apply bind_ok in B. destruct B as (wb & B4 & B). unfold run_windowing in A4, B4. rewrite PT in A4, B4. rewrite F1, F2 in B4. apply bind_ok in A4. destruct A4 as (wp & W1 & A4). rewrite W1 in B4. cbn [bind] in B4.
    destruct (KA a' p da wp A1 A2 A3 W1) as (C1 & _ & S1 & WS). rewrite <- E1 in A2. rewrite <- F1, <- F2 in W1. destruct (KB b' p db wp B1 A2 B3 W1) as (C2 & _ & S2 & _).
    assert (EA : dd_chans da = chans (meta a')). { unfold run_decimation, decimator_run in A3. apply bind_ok in A3. destruct A3 as ([dd ll] & _ & A3). destruct dd; [discriminate|]. injection A3 as <-. reflexivity. }
    rewrite <- EA in C1. destruct (windower_st ks _ _ _ _ _ _ _ _ _ DT S1 S2 C1 WS A4 B4) as (WT & CA).
    apply bind_ok in A. destruct A as (fa & A5 & A). apply bind_ok in B. destruct B as (fb & B5 & B). destruct (fourier_st _ _ _ _ _ _ _ _ HT WT A5 B5) as (ST & CA2).
    apply bind_ok in A. destruct A as (ga & A6 & A). apply bind_ok in B. destruct B as (gb & B6 & B). destruct (sprocs_st _ _ _ HUn HG _ _ _ _ ST A6 B6) as (ST2 & CA3).
    apply bind_ok in A. destruct A as (ha & A7 & A). apply bind_ok in B. destruct B as (hb & B7 & B). destruct (evals_st _ _ _ _ _ _ ST2 A7 B7) as (ST3 & CA4).
    injection A as <- <-. injection B as <- <-. assert (XA : sm_chans (sd_md ha) = chans (meta a)) by congruence. rewrite XA. split; [reflexivity|]. split; [exact ND|exact ST3].
  Qed.
  (** the channels' coefficients *)
  Lemma rows_units ref a b pa pb ea eb : in_units k a b -> processable L c a -> processable L c b -> to_evals L c ref a = Ok (pa, ea) -> to_evals L c ref b = Ok (pb, eb) ->
    forall cs level w f ra rb, window_row ea cs level w f ra -> window_row eb cs level w f rb -> Forall2 (fun cx y => ceq y (cscale (k (fst cx)) (snd cx))) (combine cs ra) rb.
  Proof.
    intros HA PA PB A B cs level w f ra rb (x & X & FA) (y & Y & FB). destruct (evals_units _ _ _ _ _ _ _ HA PA PB A B) as (_ & ND & ST). pose proof ST as (_ & _ & SC & _). rewrite SC in FB.
    pose proof (at_rel _ _ _ _ _ _ ST X Y) as V. clear X Y ST. revert rb FB. induction FA as [|ch z cs ra (i & I1 & I2 & I3) FA IH]; intros rb FB; inversion FB as [|? z' ? rb' (j & J1 & J2 & J3) FB']; subst; [constructor|]. cbn [combine].
    constructor; [|apply IH; exact FB']. cbn [fst snd]. assert (j = i) as -> by exact (nodup_index _ _ _ _ ND J1 I1). unfold coef in I3, J3.
    specialize (V (Z.to_nat w) i). rewrite !nd_vec_nd3 in V. destruct (nth_error x (Z.to_nat w)) as [wx|]; [|discriminate]. destruct (nth_error y (Z.to_nat w)) as [wy|]; [|discriminate].
    destruct (nth_error wx i) as [u|]; [|discriminate]. destruct (nth_error wy i) as [v|]; [|discriminate]. specialize (V u v eq_refl eq_refl). unfold unit_at in V. rewrite I1 in V.
    destruct (Forall2_nth_error _ _ _ _ _ V I3) as (z2 & E & R). assert (z2 = z') as -> by congruence. exact R.
  Qed.
End Whole.
