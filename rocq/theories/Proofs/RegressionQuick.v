(** Proofs for C51: both preparers agree *)
From Coq Require Import String.
From Verif Require Import Base.Prelude Base.ListUtil Base.NdArray Base.Cplx
  Model.Sampling Model.Time Model.Decimate Model.Window Model.Spectra Model.Calibrate Model.Gather Model.Regression
  Spec.Calibrate Spec.Gather Spec.Regression Proofs.Sampling Proofs.TimeMeta Proofs.Spectra Proofs.Calibrate Proofs.CalibrateFinal
  Proofs.GatherData Proofs.GatherQuick Proofs.Regression Proofs.RegressionFinal.
Open Scope list_scope. Open Scope Q_scope.

(** y[..., f] *)
Definition slice3 (f : nat) (y : list (list (list cq))) : list (list cq) := map (map (fun r => nth f r c0)) y.

Lemma level_cube (d : spec_data cq) chans level : good_evals 0 d -> chans <> [] -> incl chans (sm_chans (sd_md d)) ->
  (0 <= level < sm_n_levels (sd_md d))%Z ->
  exists m y, nth_error (sm_levels (sd_md d)) (Z.to_nat level) = Some m /\ sd_level_md d level = Ok m /\
    sd_get_chans d level chans = Ok (nd3 y) /\ Z.of_nat (length y) = sl_n_wins m /\ shaped y (length chans) (Z.to_nat (sl_n_freqs m)).
Proof.
  intros GE Hne Hinc Hl. destruct (level_rows 0 d chans level GE Hne Hinc Hl) as (m & y & Hm & Hmd & Hy & Ly & LW & _).
  exists m, y. repeat (split; [assumption|]). intros win Hwin. split; [apply LW; exact Hwin|].
  destruct GE as (Hc & _ & Hd). destruct (Hd level Hl) as (m' & x & Hm' & Hx & Lx & Sx & _). assert (m' = m) as -> by congruence.
  unfold sd_get_chans in Hy. apply bind_ok in Hy. destruct Hy as (is & His & Hy). rewrite Hx in Hy. cbn [bind] in Hy.
  assert (Ilt : forall i, In i is -> (i < length (sm_chans (sd_md d)))%nat).
  { intros i Hi. apply mapM_ok in His. apply In_nth_error in Hi. destruct Hi as [k Hk]. destruct (Forall2_nth_error_r _ _ _ _ _ His Hk) as (c & _ & E).
    destruct (first_index c (sm_chans (sd_md d))) as [j|] eqn:E2; [|discriminate]. injection E as ->. apply first_index_spec in E2. apply nth_error_Some. destruct E2. congruence. }
  rewrite (nd_picks_nd3 is x (length (sm_chans (sd_md d)))) in Hy; [|destruct (sm_chans (sd_md d)); [congruence|cbn; lia]|intros w Hw; apply Sx; exact Hw|exact Ilt].
  assert (E : y = map (picks is) x) by (apply nd3_inj; congruence). subst y. apply in_map_iff in Hwin. destruct Hwin as (w & <- & Hw). destruct (Sx w Hw) as [LC LF].
  intros r Hr. unfold picks in Hr. apply in_flat_map in Hr. destruct Hr as (i & _ & Hr). destruct (nth_error w i) eqn:En; [|destruct Hr]. destruct Hr as [<-|[]].
  apply LF. eapply nth_error_In. exact En.
Qed.
Lemma as_cube_nd3 y : as_cube (nd3 y) = Ok y.
Proof.
  unfold as_cube, nd3. rewrite mapM_map. rewrite (mapM_eq _ (fun x => x)); [rewrite map_id; reflexivity|]. intros w _. apply as_rows_nd2.
Qed.
Lemma last_at_slice y nc nf f : y <> [] -> (0 < nc)%nat -> shaped y nc nf -> (f < nf)%nat -> nd_last_at (Z.of_nat f) (nd3 y) = Ok (nd2 (slice3 f y)).
Proof.
  intros Hy Hc S Hf. unfold nd3. rewrite nd_last_at_ax by (destruct y; [congruence|reflexivity]). rewrite mapM_map.
  rewrite (mapM_eq _ (fun w => nd1 (map (fun r => nth f r c0) w))).
  - cbn [bind]. unfold slice3, nd2. rewrite map_map. reflexivity.
  - intros w Hw. destruct (S w Hw) as [L1 L2]. rewrite (nd_last_at_nd2 (Z.of_nat f) w (map (fun r => nth f r c0) w)); [reflexivity|lia|intros ->; cbn in L1; lia|].
    clear L1 Hw. induction w as [|r w IH]; [constructor|]. cbn [map]. constructor; [|apply IH; intros r' K; apply L2; right; exact K].
    rewrite Nat2Z.id. apply nth_error_nth'. rewrite (L2 r (or_introl eq_refl)). exact Hf.
Qed.

(** ** the dictionary of a quick gathering *)
Lemma quick_levels_slices P (d : spec_data cq) chans (yl : Z -> list (list (list cq))) (nf : Z -> Z) : (0 <= P)%Z -> forall levels,
  (forall l, In l levels -> exists m, sd_level_md d l = Ok m /\ sl_n_freqs m = nf l /\ (nf l <= P)%Z /\ sd_get_chans d l chans = Ok (nd3 (yl l)) /\
     forall f, (0 <= f < nf l)%Z -> nd_last_at f (nd3 (yl l)) = Ok (nd2 (slice3 (Z.to_nat f) (yl l)))) ->
  forall data, exists data', quick_levels P d chans levels data = Ok data' /\
    (forall l f, In l levels -> (0 <= f < nf l)%Z -> dict_get (P * l + f)%Z data' = Ok (slice3 (Z.to_nat f) (yl l))) /\
    (forall l f, ~ In l levels -> (0 <= f < P)%Z -> dict_get (P * l + f)%Z data' = dict_get (P * l + f)%Z data).
Proof.
  intros HP. induction levels as [|l rest IH]; intros H data.
  - exists data. split; [reflexivity|]. split; [intros ? ? []|reflexivity].
  - destruct (H l (or_introl eq_refl)) as (m & Hm & Hnf & HnP & Hy & Hs).
    destruct (quick_freqs_ok P l (nd3 (yl l)) (fun f rows => rows = slice3 (Z.to_nat f) (yl l)) HP (arange (sl_n_freqs m)) data) as (data1 & E1 & S1 & S2).
    { intros f Hf. apply arange_in in Hf. split; [lia|]. exists (nd2 (slice3 (Z.to_nat f) (yl l))), (slice3 (Z.to_nat f) (yl l)).
      split; [apply Hs; lia|]. split; [apply as_rows_nd2|reflexivity]. }
    destruct (IH (fun l' K => H l' (or_intror K)) data1) as (data' & E' & T1 & T2).
    assert (KI : forall l1 f1 l2 f2, (0 <= f1 < P)%Z -> (0 <= f2 < P)%Z -> (P * l1 + f1 = P * l2 + f2)%Z -> l1 = l2 /\ f1 = f2).
    { intros l1 f1 l2 f2 H1 H2 E. assert (l1 = l2); [|subst; lia]. destruct (Z.lt_trichotomy l1 l2) as [L|[L|L]]; [nia|exact L|nia]. }
    exists data'. split; [cbn [quick_levels]; rewrite Hm; cbn [bind]; rewrite Hy; cbn [bind]; rewrite E1; cbn [bind]; exact E'|]. split.
    + intros l' f Hl' Hf. destruct (in_dec Z.eq_dec l' rest) as [K|K]; [apply T1; assumption|]. destruct Hl' as [<-|Hl']; [|contradiction].
      rewrite T2 by (try assumption; lia). destruct (S1 f) as (rows & Er & ->); [apply arange_in; lia|]. exact Er.
    + intros l' f Hl' Hf. rewrite T2 by (try assumption; intros K; apply Hl'; right; exact K).
      apply S2. intros f' Hf' E. apply arange_in in Hf'. destruct (KI l' f l f' Hf ltac:(lia) E) as [-> _]. apply Hl'. left. reflexivity.
Qed.

(** ** the four dimensional powers at one frequency *)
Lemma zip_eq {B C D} (f : B -> C -> D) a b : length b = length a -> zip_rows f a b = Ok (map (fun x => f (fst x) (snd x)) (combine a b)).
Proof. intros L. unfold zip_rows. rewrite L, Nat.eqb_refl. reflexivity. Qed.
Lemma mapM_id {B} (l : list (res B)) (g : list B) : l = map Ok g -> mapM (fun x => x) l = Ok g.
Proof. intros ->. rewrite mapM_map. rewrite (mapM_eq _ (fun x => x)); [rewrite map_id; reflexivity|reflexivity]. Qed.

Section Powers.
  Variable cmul : cq -> cq -> cq.
  Definition vmul (x y : list cq) : list cq := map (fun p => cmul (fst p) (conj_ (snd p))) (combine x y).
  Definition pow4 (a cross : list (list (list cq))) : list (list (list (list cq))) :=
    map (fun p => map (fun x => map (fun y => vmul x y) (snd p)) (fst p)) (combine a cross).
  Lemma powers4_ok a cross na ncr nf : shaped a na nf -> shaped cross ncr nf -> length cross = length a -> powers4 cmul a cross = Ok (pow4 a cross).
  Proof.
    intros Sa Sc L. unfold powers4. rewrite zip_eq by exact L. cbn [bind]. apply mapM_id. unfold pow4. rewrite map_map. apply map_ext_in. intros [win cwin] K. cbn [fst snd].
    pose proof (in_combine_l _ _ _ _ K) as K1. pose proof (in_combine_r _ _ _ _ K) as K2. destruct (Sa win K1) as [_ Sw]. destruct (Sc cwin K2) as [_ Scw].
    apply mapM_eq. intros x Hx. apply mapM_eq. intros y Hy. rewrite zip_eq; [reflexivity|]. rewrite (Sw x Hx), (Scw y Hy). reflexivity.
  Qed.
  Lemma at_freq_ok a cross na ncr nf f : shaped a na nf -> shaped cross ncr nf -> length cross = length a -> (f < nf)%nat ->
    at_freq (pow4 a cross) f = powers cmul (slice3 f a) (slice3 f cross).
  Proof.
    intros Sa Sc L Hf. unfold powers. rewrite zip_eq by (unfold slice3; rewrite !map_length; exact L).
    unfold at_freq, pow4. rewrite mapM_map.
    rewrite (mapM_eq _ (fun p : list (list cq) * list (list cq) => map (fun x => map (fun y => cmul (nth f x c0) (conj_ (nth f y c0))) (snd p)) (fst p))).
    - f_equal. unfold slice3. clear. revert cross. induction a as [|win a IH]; intros [|cwin cross]; try reflexivity. cbn [map combine fst snd]. f_equal; [|apply IH].
      rewrite map_map. apply map_ext. intros x. rewrite map_map. reflexivity.
    - intros [win cwin] K. cbn [fst snd]. pose proof (in_combine_l _ _ _ _ K) as K1. pose proof (in_combine_r _ _ _ _ K) as K2. destruct (Sa win K1) as [_ Sw]. destruct (Sc cwin K2) as [_ Scw].
      rewrite mapM_map. apply mapM_eq. intros x Hx. rewrite mapM_map. apply mapM_eq. intros y Hy. unfold nth_res, vmul. rewrite nth_error_map.
      assert (NC : nth_error (combine x y) f = Some (nth f x c0, nth f y c0)).
      { apply nth_combine. split; apply nth_error_nth'; [rewrite (Sw x Hx)|rewrite (Scw y Hy)]; exact Hf. }
      rewrite NC. reflexivity.
  Qed.
End Powers.

(** ** enumerating the frequencies of all levels *)
Lemma mapM_app {B C} (f : B -> res C) a b : mapM f (a ++ b) = (x <- mapM f a ;; y <- mapM f b ;; Ok (x ++ y)).
Proof.
  induction a as [|u a IH]; cbn [app mapM].
  - cbn [bind]. destruct (mapM f b); reflexivity.
  - destruct (f u) as [v|]; [|reflexivity]. cbn [bind]. rewrite IH. destruct (mapM f a); [|reflexivity]. cbn [bind]. destruct (mapM f b); reflexivity.
Qed.
Lemma mapM_ext_in {B C} (f g : B -> res C) l : (forall x, In x l -> f x = g x) -> mapM f l = mapM g l.
Proof.
  induction l as [|x l IH]; intros H; [reflexivity|]. cbn [mapM]. rewrite (H x (or_introl eq_refl)), IH; [reflexivity|]. intros y K. apply H. right. exact K.
Qed.
Lemma combine_app {B C} (a b : list B) (c d : list C) : length a = length c -> combine (a ++ b) (c ++ d) = combine a c ++ combine b d.
Proof. revert c. induction a as [|x a IH]; intros [|y c] L; try discriminate; [reflexivity|]. cbn. f_equal. apply IH. cbn in L. lia. Qed.
Lemma bind_assoc {A B C} (x : res A) (f : A -> res B) (g : B -> res C) : (y <- (z <- x ;; f z) ;; g y) = (z <- x ;; y <- f z ;; g y).
Proof. destruct x; reflexivity. Qed.

Lemma levels_enum (P : nat) {T} (F : nat * Q -> res T) (G : nat -> nat * Q -> res T) : forall (ms : list (list Q)) k,
  (forall i fs, nth_error ms i = Some fs -> (length fs <= P)%nat /\ (S i < length ms -> length fs = P)%nat /\
     forall f q, nth_error fs f = Some q -> F ((P * (k + i) + f)%nat, q) = G (k + i)%nat (f, q)) ->
  mapM F (combine (seq (P * k) (length (concat ms))) (concat ms)) =
  (ls <- mapM (fun x => mapM (G (fst x)) (enum (snd x))) (combine (seq k (length ms)) ms) ;; Ok (concat ls)).
Proof.
  induction ms as [|fs ms IH]; intros k H; [reflexivity|]. cbn [concat length seq combine mapM fst snd]. rewrite app_length, seq_app, combine_app by apply seq_length. rewrite mapM_app.
  destruct (H 0%nat fs eq_refl) as (H1 & H2 & H3).
  assert (E1 : mapM F (combine (seq (P * k) (length fs)) fs) = mapM (G k) (enum fs)).
  { unfold enum. assert (Q : forall j l, (forall f q, nth_error l f = Some q -> F ((P * k + (j + f))%nat, q) = G k ((j + f)%nat, q)) -> mapM F (combine (seq (P * k + j) (length l)) l) = mapM (G k) (combine (seq j (length l)) l)).
    { intros j l. revert j. induction l as [|q l IHl]; intros j K; [reflexivity|]. cbn [length seq combine mapM].
      pose proof (K 0%nat q eq_refl) as K0. rewrite Nat.add_0_r in K0. rewrite K0. destruct (G k (j, q)); [|reflexivity]. cbn [bind].
      rewrite plus_n_Sm. rewrite IHl; [reflexivity|]. intros f q' K'. specialize (K (S f) q' K'). rewrite <- plus_n_Sm in K. exact K. }
    specialize (Q 0%nat fs). rewrite Nat.add_0_r in Q. apply Q. intros f q Hf. specialize (H3 f q Hf). rewrite Nat.add_0_r in H3. exact H3. }
  rewrite E1. destruct (mapM (G k) (enum fs)) as [a|]; [|reflexivity]. cbn [bind].
  destruct ms as [|fs2 ms].
  - cbn. reflexivity.
  - assert (LP : length fs = P) by (apply H2; cbn; lia). rewrite LP. replace (P * k + P)%nat with (P * S k)%nat by lia.
    rewrite (IH (S k)).
    + destruct (mapM _ (combine (seq (S k) (length (fs2 :: ms))) (fs2 :: ms))); reflexivity.
    + intros i gs Hi. destruct (H (S i) gs Hi) as (G1 & G2 & G3). split; [exact G1|]. split; [intros K; apply G2; cbn [length] in *; lia|].
      intros f q Hf. specialize (G3 f q Hf). rewrite <- plus_n_Sm in G3. exact G3.
Qed.

Lemma c51 : forall cmul junk1 junk2 meas p tf d, (1 <= dp_per_level p)%Z -> good_evals 0 d -> level_counts (dp_per_level p) d ->
  tf_out tf <> [] -> tf_in tf <> [] -> tf_cross tf <> [] ->
  incl (tf_out tf) (sm_chans (sd_md d)) -> incl (tf_in tf) (sm_chans (sd_md d)) -> incl (tf_cross tf) (sm_chans (sd_md d)) ->
  exists q, quick_gather meas p tf d = Ok q /\
    prepare_gathered cmul junk1 junk2 tf q = prepare_spectra cmul junk1 junk2 tf d.
Proof.
  intros cmul junk1 junk2 meas p tf d HP GE LC C1 C2 C3 I1 I2 I3. set (P := dp_per_level p) in *.
  pose proof GE as (_ & HL & _). unfold levels_ok in HL. set (ms := sm_levels (sd_md d)) in *. set (N := sm_n_levels (sd_md d)) in *.
  (* per level facts *)
  assert (CUBE : forall chans, chans <> [] -> incl chans (sm_chans (sd_md d)) -> exists yl : Z -> list (list (list cq)),
    forall l, (0 <= l < N)%Z -> exists m, nth_error ms (Z.to_nat l) = Some m /\ sd_level_md d l = Ok m /\ sd_get_chans d l chans = Ok (nd3 (yl l)) /\
      Z.of_nat (length (yl l)) = sl_n_wins m /\ shaped (yl l) (length chans) (Z.to_nat (sl_n_freqs m))).
  { intros chans Hc Hi. exists (fun l => match sd_get_chans d l chans with Ok x => match as_cube x with Ok y => y | Err _ => [] end | Err _ => [] end).
    intros l Hl. destruct (level_cube d chans l GE Hc Hi Hl) as (m & y & A1 & A2 & A3 & A4 & A5). exists m. rewrite A3, as_cube_nd3. repeat (split; [first [assumption|reflexivity]|]). assumption. }
  destruct (CUBE _ C1 I1) as (yo & HO). destruct (CUBE _ C2 I2) as (yi & HI). destruct (CUBE _ C3 I3) as (yc & HC). clear CUBE.
  set (nf := fun l => match nth_error ms (Z.to_nat l) with Some m => sl_n_freqs m | None => 0%Z end).
  assert (MD : mapM (sd_level_md d) (arange N) = Ok ms).
  { apply mapM_ok. assert (G : forall k (l : list spec_level) , (forall i m, nth_error l i = Some m -> nth_error ms (k + i) = Some m) ->
      Forall2 (fun x y => sd_level_md d x = Ok y) (map Z.of_nat (seq k (length l))) l).
    { intros k l. revert k. induction l as [|m l IH]; intros k H; cbn [length seq map]; constructor.
      - unfold sd_level_md. rewrite py_nth_nat by lia. rewrite Nat2Z.id. specialize (H 0%nat m eq_refl). rewrite Nat.add_0_r in H. fold ms. rewrite H. reflexivity.
      - apply IH. intros i m' Hm. specialize (H (S i) m' Hm). rewrite Nat.add_succ_r in H. exact H. }
    unfold arange. replace (Z.to_nat N) with (length ms) by lia. apply G. intros i m Hm. exact Hm. }
  assert (QC : forall chans (yl : Z -> list (list (list cq))), chans <> [] -> (forall l, (0 <= l < N)%Z -> exists m, nth_error ms (Z.to_nat l) = Some m /\ sd_level_md d l = Ok m /\ sd_get_chans d l chans = Ok (nd3 (yl l)) /\
      Z.of_nat (length (yl l)) = sl_n_wins m /\ shaped (yl l) (length chans) (Z.to_nat (sl_n_freqs m))) ->
    exists cb, quick_combined meas p d chans = Ok cb /\ cb_eval_freqs cb = concat (map sl_freqs ms) /\
      forall l f, (0 <= l < N)%Z -> (0 <= f < nf l)%Z -> dict_get (P * l + f)%Z (cb_data cb) = Ok (slice3 (Z.to_nat f) (yl l))).
  { intros chans yl Hc H. destruct (quick_levels_slices P d chans yl nf ltac:(lia) (arange N)) with (data := @nil (Z * list (list cq))) as (data & E & S1 & _).
    { intros l Hl. apply arange_in in Hl. destruct (H l Hl) as (m & A1 & A2 & A3 & A4 & A5). exists m. unfold nf. rewrite A1.
      destruct (LC _ _ A1) as (B1 & B2 & B3 & _). repeat (split; [first [assumption|reflexivity]|]).
      intros f Hf. rewrite <- (Z2Nat.id f) at 1 by lia. apply (last_at_slice _ (length chans) (Z.to_nat (sl_n_freqs m))); [intros K; rewrite K in A4; cbn in A4; lia|destruct chans; [congruence|cbn; lia]|exact A5|lia]. }
    eexists. split; [unfold quick_combined; fold P; fold N; rewrite E; cbn [bind]; rewrite MD; cbn [bind]; reflexivity|]. cbn [cb_eval_freqs cb_data]. split; [reflexivity|].
    intros l f Hl Hf. apply S1; [apply arange_in; exact Hl|exact Hf]. }
  destruct (QC _ yo C1 HO) as (co & Eo & Fo & Do). destruct (QC _ yi C2 HI) as (ci & Ei & _ & Di). destruct (QC _ yc C3 HC) as (cc & Ec & _ & Dc). clear QC.
  exists (mkGathered co ci cc). split; [unfold quick_gather; rewrite Eo; cbn [bind]; rewrite Ei; cbn [bind]; rewrite Ec; reflexivity|].
  unfold prepare_gathered, prepare_spectra. cbn [g_out]. rewrite Fo.
  set (F := fun x : nat * Q => pp <- cross_powers cmul (mkGathered co ci cc) (Z.of_nat (fst x)) ;; r <- prepare_freq junk1 junk2 tf (fst pp) (snd pp) ;; Ok (snd x, r)).
  set (G := fun (level : nat) (x : nat * Q) => po <- at_freq (pow4 cmul (yo (Z.of_nat level)) (yc (Z.of_nat level))) (fst x) ;; pi <- at_freq (pow4 cmul (yi (Z.of_nat level)) (yc (Z.of_nat level))) (fst x) ;;
                                           r <- prepare_freq junk1 junk2 tf po pi ;; Ok (snd x, r)).
  assert (EN : mapM F (enum (concat (map sl_freqs ms))) = (ls <- mapM (fun x => mapM (G (fst x)) (enum (snd x))) (combine (seq 0 (length (map sl_freqs ms))) (map sl_freqs ms)) ;; Ok (concat ls))).
  { unfold enum at 1. rewrite <- (Nat.mul_0_r (Z.to_nat P)) at 1. apply levels_enum. intros i fs Hi. rewrite map_length. rewrite nth_error_map in Hi. destruct (nth_error ms i) as [m|] eqn:Em; [|discriminate]. injection Hi as <-.
    destruct (LC i m Em) as (B1 & B2 & B3 & B4). assert (LI : (i < length ms)%nat) by (apply nth_error_Some; congruence). fold N in B4. fold P in B2, B4. split; [lia|]. split; [intros K; specialize (B4 ltac:(lia)); lia|].
    intros f q Hf. cbn [Nat.add]. assert (f < length (sl_freqs m))%nat as Lf by (apply nth_error_Some; congruence).
    assert (Hl : (0 <= Z.of_nat i < N)%Z) by lia. assert (Hnf : nf (Z.of_nat i) = sl_n_freqs m) by (unfold nf; rewrite Nat2Z.id, Em; reflexivity).
    assert (KEY : Z.of_nat (Z.to_nat P * i + f) = (P * Z.of_nat i + Z.of_nat f)%Z) by nia.
    unfold F, G. cbn [fst snd]. unfold cross_powers. cbn [g_out g_in g_cross]. rewrite KEY, (Do _ (Z.of_nat f) Hl ltac:(lia)), (Di _ (Z.of_nat f) Hl ltac:(lia)), (Dc _ (Z.of_nat f) Hl ltac:(lia)). cbn [bind].
    rewrite Nat2Z.id. destruct (HO _ Hl) as (m1 & O1 & _ & _ & O4 & O5). destruct (HI _ Hl) as (m2 & I4 & _ & _ & I6 & I5). destruct (HC _ Hl) as (m3 & X1 & _ & _ & X4 & X5).
    rewrite Nat2Z.id in O1, I4, X1. assert (m1 = m) as -> by congruence. assert (m2 = m) as -> by congruence. assert (m3 = m) as -> by congruence.
    rewrite (at_freq_ok cmul _ _ _ _ _ f O5 X5) by lia. rewrite (at_freq_ok cmul _ _ _ _ _ f I5 X5) by lia.
    destruct (powers cmul (slice3 f (yo (Z.of_nat i))) (slice3 f (yc (Z.of_nat i)))) as [po|]; [|reflexivity]. cbn [bind].
    destruct (powers cmul (slice3 f (yi (Z.of_nat i))) (slice3 f (yc (Z.of_nat i)))) as [pi|]; reflexivity. }
  rewrite EN. clear EN. rewrite bind_assoc. cbn [bind].
  assert (LV : mapM (fun level => m <- sd_level_md d level ;; pp <- level_powers cmul tf d level ;;
                  mapM (fun x : nat * Q => po <- at_freq (fst pp) (fst x) ;; pi <- at_freq (snd pp) (fst x) ;;
                                           r <- prepare_freq junk1 junk2 tf po pi ;; Ok (snd x, r)) (enum (sl_freqs m))) (arange N)
     = mapM (fun x => mapM (G (fst x)) (enum (snd x))) (combine (seq 0 (length (map sl_freqs ms))) (map sl_freqs ms))).
  { unfold arange. rewrite mapM_map. replace (Z.to_nat N) with (length ms) by lia. rewrite map_length.
    assert (Q : forall (l : list spec_level) k, (forall i m, nth_error l i = Some m -> nth_error ms (k + i) = Some m) ->
      mapM (fun x => m <- sd_level_md d (Z.of_nat x) ;; pp <- level_powers cmul tf d (Z.of_nat x) ;;
                  mapM (fun x : nat * Q => po <- at_freq (fst pp) (fst x) ;; pi <- at_freq (snd pp) (fst x) ;;
                                           r <- prepare_freq junk1 junk2 tf po pi ;; Ok (snd x, r)) (enum (sl_freqs m))) (seq k (length l))
      = mapM (fun x => mapM (G (fst x)) (enum (snd x))) (combine (seq k (length l)) (map sl_freqs l))).
    { induction l as [|m l IH]; intros k H; [reflexivity|]. cbn [length seq map combine mapM fst snd].
      pose proof (H 0%nat m eq_refl) as Hm. rewrite Nat.add_0_r in Hm. assert (LK : (k < length ms)%nat) by (apply nth_error_Some; congruence).
      assert (Hl : (0 <= Z.of_nat k < N)%Z) by lia.
      destruct (HO _ Hl) as (m1 & O1 & O2 & O3 & O4 & O5). destruct (HI _ Hl) as (m2 & I4 & _ & I7 & I6 & I5). destruct (HC _ Hl) as (m3 & X1 & _ & X3 & X4 & X5).
      rewrite Nat2Z.id in O1, I4, X1. assert (m1 = m) as -> by congruence. assert (m2 = m) as -> by congruence. assert (m3 = m) as -> by congruence.
      assert (EL : level_powers cmul tf d (Z.of_nat k) = Ok (pow4 cmul (yo (Z.of_nat k)) (yc (Z.of_nat k)), pow4 cmul (yi (Z.of_nat k)) (yc (Z.of_nat k)))).
      { unfold level_powers. rewrite O3, I7, X3. cbn [bind]. rewrite !as_cube_nd3. cbn [bind].
        rewrite (powers4_ok cmul _ _ _ _ _ O5 X5) by lia. cbn [bind]. rewrite (powers4_ok cmul _ _ _ _ _ I5 X5) by lia. reflexivity. }
      rewrite O2. cbn [bind]. rewrite EL. cbn [bind fst snd].
      fold (G k). rewrite (IH (S k)); [reflexivity|]. intros i m' Hi. specialize (H (S i) m' Hi). rewrite <- plus_n_Sm in H. exact H. }
    apply Q. intros i m Hm. exact Hm. }
  fold N. rewrite LV. reflexivity.
Qed.
