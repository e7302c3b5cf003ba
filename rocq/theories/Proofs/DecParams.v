(** C27, C29: DecimationSetup results *)
From Coq Require Import String.
From Verif Require Import Base.Prelude Base.Rounding Base.ListUtil Model.Sampling Model.Time Model.Decimate Spec.Time Spec.Decimate
  Proofs.EvalFreqs Proofs.TimeMeta Proofs.DecFactors.
Open Scope Q_scope.

(** ** maxima *)
Lemma qmax_list_spec l x : In (qmax_list x l) (x :: l) /\ forall y, In y (x :: l) -> y <= qmax_list x l.
Proof.
  revert x. induction l as [|z t IH]; intros x; cbn [qmax_list].
  - split; [left; reflexivity|]. intros y [<-|[]]. lra.
  - destruct (Qltb x z) eqn:E.
    + destruct (IH z) as [A B]. split; [right; exact A|]. intros y [<-|Hy]; [|apply B; exact Hy].
      apply Qltb_true in E. pose proof (B z (or_introl eq_refl)). lra.
    + destruct (IH x) as [A B]. apply Qltb_false in E. split.
      * destruct A as [A|A]; [left; exact A|right; right; exact A].
      * intros y [<-|[<-|Hy]]; [apply B; left; reflexivity| |apply B; right; exact Hy].
        pose proof (B x (or_introl eq_refl)). lra.
Qed.
Lemma np_max_spec l m : np_max l = Ok m -> is_max m l.
Proof. destruct l as [|x t]; [discriminate|]. intros H. injection H as <-. apply qmax_list_spec. Qed.

Lemma chunks_nth {A} n per (l : list A) i c : nth_error (chunks n per l) i = Some c ->
  (i < n)%nat /\ c = firstn per (skipn (per * i) l).
Proof.
  revert l i. induction n as [|n IH]; intros l i H; [destruct i; discriminate|].
  destruct i as [|i]; cbn in H.
  - injection H as <-. split; [lia|]. rewrite Nat.mul_0_r. reflexivity.
  - destruct (IH _ _ H) as [A1 B1]. split; [lia|]. rewrite B1. f_equal.
    assert (S : forall a b (x : list A), skipn a (skipn b x) = skipn (b + a) x).
    { intros a b. induction b as [|b IHb]; intros x; [reflexivity|]. destruct x; [rewrite !skipn_nil; reflexivity|]. cbn. apply IHb. }
    rewrite S. f_equal. lia.
Qed.
Lemma chunks_length {A} n per (l : list A) : length (chunks n per l) = n.
Proof. revert l. induction n as [|n IH]; intros l; cbn; [reflexivity|]. rewrite IH. reflexivity. Qed.

(** ** factors are powers, monotone in the frequency *)
Lemma factor_power rnd fuel div fs m f : decimation_factor rnd fuel div fs m = Ok f ->
  exists k : nat, f = (div ^ Z.of_nat k)%Z.
Proof.
  unfold decimation_factor. destruct (Qltb fs (rnd (m * 4))).
  - intros H. injection H as <-. exists 0%nat. reflexivity.
  - intros H. destruct (factor_loop_char _ _ _ _ _ _ _ H) as (k & _ & E & _). exists k. lia.
Qed.
Lemma factor_mono rnd fuel div fs m m' f f' : good_rnd rnd -> m' <= m ->
  decimation_factor rnd fuel div fs m = Ok f -> decimation_factor rnd fuel div fs m' = Ok f' ->
  exists d : nat, f' = (f * div ^ Z.of_nat d)%Z.
Proof.
  intros G L. unfold decimation_factor.
  assert (T : rnd (m' * 4) <= rnd (m * 4)) by (apply (gr_mono _ G); lra).
  destruct (Qltb fs (rnd (m * 4))) eqn:E1.
  - intros H H'. injection H as <-. destruct (Qltb fs (rnd (m' * 4))).
    + injection H' as <-. exists 0%nat. reflexivity.
    + destruct (factor_loop_char _ _ _ _ _ _ _ H') as (k & _ & E & _). exists k. exact E.
  - apply Qltb_false in E1.
    replace (Qltb fs (rnd (m' * 4))) with false by (symmetry; apply Qltb_false; lra).
    intros H H'. destruct (factor_loop_char _ _ _ _ _ _ _ H) as (k & _ & E & C & D).
    destruct (factor_loop_char _ _ _ _ _ _ _ H') as (k' & _ & E' & C' & D').
    assert (K : (k <= k')%nat).
    { destruct (Nat.le_gt_cases k k') as [|L']; [assumption|]. exfalso.
      pose proof (C (S k') ltac:(lia)). lra. }
    exists (k' - k)%nat. rewrite E, E'. rewrite <- Z.mul_assoc, <- Z.pow_add_r by lia. f_equal. f_equal. lia.
Qed.

(** ** increments *)
Lemma qtrunc_Z k x : (0 <= k)%Z -> x == inject_Z k -> qtrunc x = k.
Proof.
  intros Hk E. unfold qtrunc. rewrite (Qltb_comp _ _ E 0 0 (Qeq_refl _)).
  replace (Qltb (inject_Z k) 0) with false.
  - rewrite (qfloor_comp _ _ E). apply qfloor_Z.
  - symmetry. apply Qltb_false. change 0 with (inject_Z 0). apply (proj1 (inject_Z_le _ _)). exact Hk.
Qed.
Lemma increment_exact rnd a d : good_rnd rnd -> (1 <= a)%Z -> (1 <= d)%Z -> (a * d <= 2 ^ 53)%Z ->
  increment rnd (a * d) a = d.
Proof.
  intros G Ha Hd H. unfold increment.
  assert (A : (Z.abs a <= 2 ^ 53)%Z) by nia. assert (D : (Z.abs d <= 2 ^ 53)%Z) by nia.
  assert (AD : (Z.abs (a * d) <= 2 ^ 53)%Z) by nia.
  apply qtrunc_Z; [lia|].
  assert (E : rnd (inject_Z (a * d)) / rnd (inject_Z a) == inject_Z d).
  { rewrite (gr_int G _ AD), (gr_int G _ A), inject_Z_mult. field.
    assert (1 <= inject_Z a) by (change 1 with (inject_Z 1); apply (proj1 (inject_Z_le _ _)); exact Ha). lra. }
  rewrite (gr_comp _ G _ _ E). apply (gr_int G). exact D.
Qed.

(** each factor is the previous one times a power of div *)
Fixpoint power_chain (div prev : Z) (l : list Z) : Prop :=
  match l with
  | [] => True
  | f :: t => (exists d : nat, f = (prev * div ^ Z.of_nat d)%Z) /\ power_chain div f t
  end.

Lemma increments_chain rnd div : good_rnd rnd -> (1 <= div)%Z -> forall l prev,
  (1 <= prev)%Z -> power_chain div prev l -> Forall (fun f => (f <= 2 ^ 53)%Z) l ->
  let incs := map (fun fp => increment rnd (fst fp) (snd fp)) (combine l (prev :: l)) in
  length incs = length l /\
  forall i f, nth_error l i = Some f ->
    (prev * prodZ (firstn (S i) incs) = f)%Z /\
    exists x (d : nat), nth_error incs i = Some x /\ x = (div ^ Z.of_nat d)%Z.
Proof.
  intros G Hdiv. induction l as [|f t IH]; intros prev Hp C B.
  - split; [reflexivity|]. intros i g H. destruct i; discriminate.
  - destruct C as [[d E] C]. inversion B as [|? ? B1 B2]; subst.
    assert (Hd1 : (1 <= div ^ Z.of_nat d)%Z) by (apply (Z.pow_le_mono_r div 0 (Z.of_nat d)); lia).
    set (f := (prev * div ^ Z.of_nat d)%Z) in *.
    assert (Hf : (1 <= f)%Z) by (unfold f; nia).
    destruct (IH f Hf C B2) as [L N]. cbn [combine map fst snd].
    assert (X : increment rnd f prev = (div ^ Z.of_nat d)%Z) by (apply increment_exact; assumption).
    split; [cbn [length]; rewrite L; reflexivity|].
    intros [|i] g H; cbn [nth_error] in *.
    + injection H as <-. split; [|rewrite X; eauto]. cbn [firstn prodZ]. rewrite X. unfold f. ring.
    + destruct (N i g H) as [N1 N2]. split; [|exact N2]. rewrite firstn_cons. cbn [prodZ]. rewrite X.
      rewrite <- N1. unfold f. ring.
Qed.

Lemma mapM_length {A B} (f : A -> res B) l l' : mapM f l = Ok l' -> length l' = length l.
Proof. intros H. apply mapM_ok in H. symmetry. exact (Forall2_length' _ _ _ H). Qed.

Lemma setup_run_inv rnd pw fuel c fs p : setup_run rnd pw fuel c fs = Ok p ->
  exists freqs factors, setup_eval_freqs rnd pw c fs = Ok freqs /\ setup_factors rnd fuel c fs freqs = Ok factors /\
    (0 < ds_min_samples c)%Z /\ Z.of_nat (length factors) = ds_n_levels c /\
    p = mkDecParams fs (ds_n_levels c) (ds_per_level c) (ds_min_samples c) freqs factors
          (dec_increments rnd factors) (dec_fs rnd fs factors).
Proof.
  unfold setup_run. destruct (setup_eval_freqs rnd pw c fs) as [freqs|e] eqn:E1; [|discriminate]. cbn [bind].
  destruct (setup_factors rnd fuel c fs freqs) as [factors|e] eqn:E2; [|discriminate]. cbn [bind].
  unfold make_params. destruct (Z.leb_spec (ds_min_samples c) 0); [discriminate|].
  destruct (Z.eqb_spec (Z.of_nat (length factors)) (ds_n_levels c)); cbn [negb]; [|discriminate].
  intros H1. injection H1 as <-. exists freqs, factors. auto 10.
Qed.

Lemma setup_factor_at rnd fuel c fs freqs factors i f : setup_factors rnd fuel c fs freqs = Ok factors ->
  (0 <= ds_per_level c)%Z -> nth_error factors i = Some f ->
  exists m, is_max m (level_freqs_of freqs (ds_per_level c) (Z.of_nat i)) /\
            decimation_factor rnd fuel (ds_div_factor c) fs m = Ok f.
Proof.
  unfold setup_factors. intros H Hp Hf. apply mapM_ok in H.
  destruct (Forall2_nth_error_r _ _ _ i f H Hf) as (lev & E1 & E2). 
  destruct (np_max lev) as [m|e] eqn:Em; cbn [bind] in E2; [|discriminate]. exists m. split; [|exact E2].
  apply chunks_nth in E1. destruct E1 as [_ E1]. apply np_max_spec in Em. unfold level_freqs_of.
  replace (Z.to_nat (ds_per_level c * Z.of_nat i)) with (Z.to_nat (ds_per_level c) * i)%nat by nia.
  rewrite <- E1. exact Em.
Qed.

Lemma setup_chain rnd fuel c fs freqs factors : good_rnd rnd -> setup_factors rnd fuel c fs freqs = Ok factors ->
  (0 <= ds_per_level c)%Z -> maxima_descend freqs (ds_per_level c) ->
  power_chain (ds_div_factor c) 1 factors.
Proof.
  intros G H Hp Hm.
  assert (K : forall i l prev, (forall j f, nth_error l j = Some f -> nth_error factors (i + j) = Some f) ->
     (match i with O => prev = 1%Z | S i' => nth_error factors i' = Some prev end) ->
     power_chain (ds_div_factor c) prev l).
  { intros i l. revert i. induction l as [|f t IH]; intros i prev Hl Hi; [exact I|]. split.
    - pose proof (Hl 0%nat f eq_refl) as Hf. rewrite Nat.add_0_r in Hf.
      destruct (setup_factor_at _ _ _ _ _ _ _ _ H Hp Hf) as (m & M1 & M2).
      destruct i as [|i].
      + subst prev. destruct (factor_power _ _ _ _ _ _ M2) as [k Ek]. exists k. rewrite Ek. ring.
      + destruct (setup_factor_at _ _ _ _ _ _ _ _ H Hp Hi) as (m0 & M3 & M4).
        apply (factor_mono rnd fuel (ds_div_factor c) fs m0 m prev f G); [|exact M4|exact M2].
        apply (Hm (Z.of_nat i) m0 m); [lia|exact M3|]. replace (Z.of_nat i + 1)%Z with (Z.of_nat (S i)) by lia. exact M1.
    - apply (IH (S i) f).
      + intros j g Hg. replace (S i + j)%nat with (i + S j)%nat by lia. apply Hl. exact Hg.
      + pose proof (Hl 0%nat f eq_refl) as Hf. rewrite Nat.add_0_r in Hf. exact Hf. }
  apply (K 0%nat factors 1%Z); [|reflexivity]. intros j f Hj. exact Hj.
Qed.

(** the default frequencies descend *)
Lemma default_descend rnd pw fs n per : good_rnd rnd -> good_pow2half pw -> 0 < fs -> (0 <= per)%Z ->
  maxima_descend (get_eval_freqs_size rnd pw fs n) per.
Proof.
  intros G P Hf Hper i x y Hi [X1 X2] [Y1 Y2]. unfold level_freqs_of in *.
  assert (N : forall a b v, In v (firstn a (skipn b (get_eval_freqs_size rnd pw fs n))) ->
     exists j, (j < a)%nat /\ v = nth_eval_freq rnd pw fs (b + j) /\ (b + j < Z.to_nat n)%nat).
  { intros a b v Hv. apply In_nth_error in Hv. destruct Hv as [j Hj]. rewrite nth_error_firstn in Hj.
    destruct (Nat.ltb_spec j a); [|discriminate]. rewrite nth_error_skipn in Hj. exists j. split; [assumption|].
    unfold get_eval_freqs_size in Hj. rewrite nth_error_map in Hj.
    destruct (nth_error (seq 0 (Z.to_nat n)) (b + j)) eqn:E; [|discriminate]. cbn in Hj. injection Hj as <-.
    assert (L : (b + j < Z.to_nat n)%nat). { rewrite <- (seq_length (Z.to_nat n) 0). apply nth_error_Some. congruence. }
    rewrite (nth_error_nth' _ 0%nat) in E by (rewrite seq_length; exact L). rewrite seq_nth in E by exact L.
    injection E as <-. auto. }
  destruct (N _ _ _ X1) as (j & A1 & A2 & A3), (N _ _ _ Y1) as (k & B1 & B2 & B3). subst x y.
  assert (Ek : (Z.to_nat (per * (i + 1)) = Z.to_nat (per * i) + Z.to_nat per)%nat) by nia.
  pose proof (freq_lt rnd G pw P fs Hf (Z.to_nat (per * i) + j) (Z.to_nat (per * (i + 1)) + k) ltac:(lia)). lra.
Qed.

Lemma c27_increments : forall rnd pw fuel c fs p, good_rnd rnd -> (1 <= ds_div_factor c)%Z -> (0 <= ds_per_level c)%Z ->
  setup_run rnd pw fuel c fs = Ok p ->
  maxima_descend (dp_eval_freqs p) (ds_per_level c) ->
  Forall (fun f => (f <= 2 ^ 53)%Z) (dp_factors p) ->
  length (dp_increments p) = length (dp_factors p) /\
  forall i f, nth_error (dp_factors p) i = Some f ->
    (prodZ (firstn (S i) (dp_increments p)) = f)%Z /\
    exists x (d : nat), nth_error (dp_increments p) i = Some x /\ x = (ds_div_factor c ^ Z.of_nat d)%Z.
Proof.
  intros rnd pw fuel c fs p G Hdiv Hper H Hm Hb.
  destruct (setup_run_inv _ _ _ _ _ _ H) as (freqs & factors & E1 & E2 & E3 & E4 & ->). cbn in *.
  pose proof (setup_chain rnd fuel c fs freqs factors G E2 Hper Hm) as C.
  destruct (increments_chain rnd (ds_div_factor c) G Hdiv factors 1 ltac:(lia) C Hb) as [L N].
  split; [exact L|]. intros i f Hf. destruct (N i f Hf) as [N1 N2]. split; [|exact N2].
  rewrite Z.mul_1_l in N1. exact N1.
Qed.

Lemma c27_default : forall rnd pw fuel c fs p, good_rnd rnd -> good_pow2half pw -> 0 < fs ->
  (1 <= ds_div_factor c)%Z -> (0 <= ds_per_level c)%Z -> ds_eval_freqs c = None ->
  setup_run rnd pw fuel c fs = Ok p -> maxima_descend (dp_eval_freqs p) (ds_per_level c).
Proof.
  intros rnd pw fuel c fs p G P Hf Hdiv Hper Hn H.
  destruct (setup_run_inv _ _ _ _ _ _ H) as (freqs & factors & E1 & _ & _ & _ & ->). cbn.
  unfold setup_eval_freqs in E1. rewrite Hn in E1. injection E1 as <-. apply default_descend; assumption.
Qed.

Lemma Qabs_le_rel rnd x : good_rnd rnd -> 0 <= x -> rnd x <= x * (1 + u) /\ x * (1 - u) <= rnd x.
Proof. intros G H. destruct (rnd_pos_bounds rnd x G H). auto. Qed.

Lemma c27_fs : forall rnd pw fuel c fs p, good_rnd rnd -> 0 < fs -> (1 <= ds_div_factor c)%Z ->
  setup_run rnd pw fuel c fs = Ok p ->
  length (dp_dec_fs p) = length (dp_factors p) /\
  forall i f g, nth_error (dp_factors p) i = Some f -> nth_error (dp_dec_fs p) i = Some g -> (f <= 2 ^ 53)%Z ->
    Qabs (g - fs / inject_Z f) <= fs / inject_Z f * (1 # 2251799813685248) /\
    (ds_div_factor c = 2%Z -> is_float fs -> g == fs / inject_Z f).
Proof.
  intros rnd pw fuel c fs p G Hf Hdiv H.
  destruct (setup_run_inv _ _ _ _ _ _ H) as (freqs & factors & E1 & E2 & E3 & E4 & ->). cbn [dp_dec_fs dp_factors].
  split; [unfold dec_fs; rewrite map_length; reflexivity|].
  intros i f g Hi Hg Hb. unfold dec_fs in Hg. rewrite nth_error_map, Hi in Hg. cbn in Hg. injection Hg as <-.
  unfold setup_factors in E2. apply mapM_ok in E2. destruct (Forall2_nth_error_r _ _ _ i f E2 Hi) as (lev & _ & K).
  destruct (np_max lev) as [m|e]; cbn [bind] in K; [|discriminate].
  destruct (factor_power _ _ _ _ _ _ K) as [k Ek].
  assert (F1 : (1 <= f)%Z). { rewrite Ek. apply (Z.pow_le_mono_r (ds_div_factor c) 0 (Z.of_nat k)); lia. }
  assert (Q1 : 1 <= inject_Z f) by (change 1 with (inject_Z 1); apply (proj1 (inject_Z_le _ _)); exact F1).
  assert (R1 : rnd (inject_Z f) == inject_Z f) by (apply (gr_int G); lia).
  assert (E : 1 / rnd (inject_Z f) == 1 / inject_Z f) by (rewrite R1; reflexivity).
  set (a := rnd (1 / rnd (inject_Z f))).
  assert (Ea : a == rnd (1 / inject_Z f)) by (apply (gr_comp _ G); exact E).
  assert (H0 : 0 < 1 / inject_Z f) by (apply Qlt_shift_div_l; lra).
  assert (Hfi : fs / inject_Z f == fs * (1 / inject_Z f)) by (field; lra).
  split.
  - destruct (rnd_pos_bounds rnd (1 / inject_Z f) G ltac:(lra)) as [A1 A2]. rewrite <- Ea in A1, A2.
    set (r := 1 / inject_Z f) in *. rewrite Hfi. 
    assert (Ha0 : 0 <= a) by lra. assert (H1 : 0 <= fs * a) by nra.
    destruct (rnd_pos_bounds rnd (fs * a) G H1) as [B1 B2].
    assert (C1 : fs * (r * (1 - u)) <= fs * a) by (apply Qmult_le_l; assumption).
    assert (C2 : fs * a <= fs * (r * (1 + u))) by (apply Qmult_le_l; assumption).
    assert (D1 : fs * (r * (1 - u)) == fs * r * (1 - u)) by ring. rewrite D1 in C1.
    assert (D2 : fs * (r * (1 + u)) == fs * r * (1 + u)) by ring. rewrite D2 in C2.
    assert (Hz : 0 <= fs * r) by nra. apply (proj2 (Qabs_Qle_condition _ _)).
    set (z := fs * r) in *. set (y := rnd (fs * a)) in *. set (x := fs * a) in *. clearbody x y z. split; lra.
  - intros D2 FF. subst f. rewrite D2 in *. 
    assert (P2 : inject_Z (2 ^ Z.of_nat k) == pow2 (Z.of_nat k)) by (symmetry; apply pow2_Z; lia).
    assert (I2 : 1 / inject_Z (2 ^ Z.of_nat k) == pow2 (- Z.of_nat k)). { rewrite P2. unfold Qdiv. rewrite pow2_inv. ring. }
    assert (Ra : a == pow2 (- Z.of_nat k)).
    { rewrite Ea. rewrite (gr_comp _ G _ _ I2). apply (is_float_rnd rnd _ G). exists 1%Z, (- Z.of_nat k)%Z.
      split; [lia|]. change (inject_Z 1) with 1. ring. }
    assert (X : fs * a == fs * pow2 (- Z.of_nat k)) by (rewrite Ra; reflexivity).
    rewrite (gr_comp _ G _ _ X). rewrite Hfi, I2. apply is_float_rnd; [exact G|]. apply is_float_scale. exact FF.
Qed.

(** for user frequencies that do not descend the increments are wrong *)
Lemma c27_refuted : exists c p, setup_run b64 pw64 100 c 128 = Ok p /\
  ds_eval_freqs c = Some [32; 1; 4] /\ dp_factors p = [1; 32; 8]%Z /\ dp_increments p = [1; 32; 0]%Z.
Proof.
  exists (mkDecSetup 3 1 256 2 (Some [32; 1; 4])). eexists. split; [vm_compute; reflexivity|]. repeat split.
Qed.

(** ** C29 *)
Lemma c29_lookup : forall p level idx, (0 <= dp_per_level p)%Z ->
  Z.of_nat (length (dp_eval_freqs p)) = (dp_n_levels p * dp_per_level p)%Z ->
  (0 <= level < dp_n_levels p)%Z ->
  exists l, level_eval_freqs p level = Ok l /\ Z.of_nat (length l) = dp_per_level p /\
   ((0 <= idx < dp_per_level p)%Z -> exists f, level_eval_freq p level idx = Ok f /\ nth_error l (Z.to_nat idx) = Some f) /\
   ((idx < 0 \/ dp_per_level p <= idx)%Z -> level_eval_freq p level idx = Err ValueError).
Proof.
  intros p level idx Hper L Hl. unfold level_eval_freqs, level_eval_freq, check_level, check_eval_idx.
  replace ((level <? 0) || (level >=? dp_n_levels p))%Z with false by lia. cbn [bind].
  eexists. split; [reflexivity|].
  split; [rewrite slice_length; nia|]. split.
  - intros Hi. replace ((idx <? 0) || (idx >=? dp_per_level p))%Z with false by lia. cbn [bind].
    rewrite nth_error_slice by nia.
    rewrite Z2Nat.id by lia.
    destruct (Z.ltb_spec idx (dp_per_level p * level + dp_per_level p - dp_per_level p * level)); [|lia].
    destruct (nth_error (dp_eval_freqs p) (Z.to_nat (dp_per_level p * level + idx))) as [f|] eqn:E; [eauto|].
    apply nth_error_None in E. exfalso. nia.
  - intros Hi. replace ((idx <? 0) || (idx >=? dp_per_level p))%Z with true by lia. reflexivity.
Qed.
Lemma c29_reject : forall p level idx, (level < 0 \/ dp_n_levels p <= level)%Z ->
  level_eval_freqs p level = Err ValueError /\ level_eval_freq p level idx = Err ValueError /\
  get_fs p level = Err ValueError /\ get_total_factor p level = Err ValueError /\ get_incremental_factor p level = Err ValueError.
Proof.
  intros p level idx H. unfold level_eval_freqs, level_eval_freq, get_fs, get_total_factor, get_incremental_factor, at_level, check_level.
  replace ((level <? 0) || (level >=? dp_n_levels p))%Z with true by lia. repeat split.
Qed.
(** the levels partition the list *)
Fixpoint collect_levels (p : dec_params) (n : nat) (level : Z) : res (list Q) :=
  match n with
  | O => Ok []
  | S k => l <- level_eval_freqs p level ;; r <- collect_levels p k (level + 1) ;; Ok (l ++ r)
  end.
Lemma slice_app {A} a b c (l : list A) : (0 <= a)%Z -> (a <= b)%Z -> (b <= c)%Z -> slice a b l ++ slice b c l = slice a c l.
Proof.
  intros Ha Hb Hc. unfold slice.
  assert (S : forall (x y : nat) (l : list A), skipn (x + y) l = skipn y (skipn x l)).
  { intros x. induction x as [|x IH]; intros y m; [reflexivity|]. destruct m; [rewrite !skipn_nil; reflexivity|]. cbn. apply IH. }
  replace (Z.to_nat b) with (Z.to_nat a + Z.to_nat (b - a))%nat by lia. rewrite S.
  replace (Z.to_nat (c - a)) with (Z.to_nat (b - a) + Z.to_nat (c - b))%nat by lia.
  generalize (skipn (Z.to_nat a) l) as m. intros m. revert m. induction (Z.to_nat (b - a)) as [|k IH]; intros m; [reflexivity|].
  destruct m; [cbn [skipn]; rewrite !firstn_nil; reflexivity|]. cbn. f_equal. apply IH.
Qed.
Lemma c29_partition : forall p, (0 <= dp_per_level p)%Z -> (0 <= dp_n_levels p)%Z ->
  Z.of_nat (length (dp_eval_freqs p)) = (dp_n_levels p * dp_per_level p)%Z ->
  exists ls, length ls = Z.to_nat (dp_n_levels p) /\ concat ls = dp_eval_freqs p /\
    forall i l, nth_error ls i = Some l -> level_eval_freqs p (Z.of_nat i) = Ok l.
Proof.
  intros p Hper Hn L.
  set (lev := fun i : nat => slice (dp_per_level p * Z.of_nat i) (dp_per_level p * Z.of_nat i + dp_per_level p) (dp_eval_freqs p)).
  exists (map lev (seq 0 (Z.to_nat (dp_n_levels p)))). split; [rewrite map_length, seq_length; reflexivity|].
  split.
  - assert (K : forall n a, (Z.of_nat (a + n) <= dp_n_levels p)%Z ->
       concat (map lev (seq a n)) = slice (dp_per_level p * Z.of_nat a) (dp_per_level p * Z.of_nat (a + n)) (dp_eval_freqs p)).
    { induction n as [|n IH]; intros a Ha.
      - cbn. rewrite Nat.add_0_r. unfold slice. rewrite Z.sub_diag. reflexivity.
      - cbn [seq map concat]. rewrite IH by lia. unfold lev.
        replace (dp_per_level p * Z.of_nat a + dp_per_level p)%Z with (dp_per_level p * Z.of_nat (S a))%Z by lia.
        rewrite slice_app by nia. f_equal. nia. }
    rewrite K by lia. unfold slice. rewrite Z.mul_0_r. cbn [Z.to_nat skipn]. apply firstn_all2. nia.
  - intros i l Hi. rewrite nth_error_map in Hi.
    destruct (nth_error (seq 0 (Z.to_nat (dp_n_levels p))) i) eqn:E; [|discriminate]. cbn in Hi. injection Hi as <-.
    assert (Li : (i < Z.to_nat (dp_n_levels p))%nat). { rewrite <- (seq_length (Z.to_nat (dp_n_levels p)) 0). apply nth_error_Some. congruence. }
    rewrite (nth_error_nth' _ 0%nat) in E by (rewrite seq_length; exact Li). rewrite seq_nth in E by exact Li. injection E as <-.
    unfold level_eval_freqs, check_level.
    replace ((Z.of_nat i <? 0) || (Z.of_nat i >=? dp_n_levels p))%Z with false by lia. reflexivity.
Qed.
