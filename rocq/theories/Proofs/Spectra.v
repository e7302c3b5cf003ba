(** C40-C42 *)
From Coq Require Import String.
From Verif Require Import Base.Prelude Base.Rounding Base.ListUtil Base.Interp Base.NdArray Base.Cplx
  Model.Sampling Model.Time Model.Decimate Model.Window Model.Spectra Spec.Time Spec.Decimate Spec.Spectra
  Proofs.Sampling Proofs.TimeMeta Proofs.EvalFreqs Proofs.DecFactors Proofs.DecParams Proofs.WindowRun Proofs.WindowFinal.
Open Scope Q_scope.

Lemma ascending_tail x l : ascending (x :: l) -> ascending l.
Proof. intros H i j a b L Ha Hb. apply (H (S i) (S j) a b); [lia|exact Ha|exact Hb]. Qed.
Lemma combine_nil_r {A B} (l : list A) : combine l (@nil B) = [].
Proof. destruct l; reflexivity. Qed.
Lemma ascending_increasing l : ascending l -> forall ys, increasing (combine l ys).
Proof.
  intros H. destruct l as [|x l]; [intros; exact I|]. intros [|y ys]; [exact I|]. cbn.
  revert x y ys H. induction l as [|x1 l IH]; intros x y ys H; [exact I|]. destruct ys as [|y1 ys]; [exact I|]. cbn. split.
  - apply (H 0%nat 1%nat); [lia|reflexivity|reflexivity].
  - apply (IH x1 y1 ys). eapply ascending_tail. exact H.
Qed.
Lemma nth_combine {A B} (l : list A) (l' : list B) i a b : nth_error (combine l l') i = Some (a, b) <->
  nth_error l i = Some a /\ nth_error l' i = Some b.
Proof.
  revert l' i. induction l as [|x l IH]; intros l' i.
  - cbn. split; [destruct i; discriminate|intros [H _]; destruct i; discriminate].
  - destruct l' as [|y l']; [split; [destruct i; discriminate|intros [_ H]; destruct i; discriminate]|].
    destruct i as [|i]; cbn; [|apply IH]. split; [intros H; injection H as -> ->; auto|intros [H1 H2]; congruence].
Qed.
Lemma py_nth_nat {A} (l : list A) i : (0 <= i)%Z -> py_nth l i = nth_error l (Z.to_nat i).
Proof. intros H. unfold py_nth. destruct (Z.ltb_spec i 0); [lia|]. destruct (Z.ltb_spec i 0); [lia|]. reflexivity. Qed.

(** the value taken at a fractional position *)
Lemma between_pos (v : list cq) (i : nat) (t pos : Q) a b z : 0 <= t -> t <= 1 -> pos == inject_Z (Z.of_nat i) + t ->
  nth_error v i = Some a -> nth_error v (S i) = Some b ->
  match py_nth v (qceil pos), py_nth v (qfloor pos) with
    | Some c, Some b => Ok (cplus b (cscale (pos - inject_Z (qfloor pos)) (cminus c b)))
    | _, _ => Err IndexError
  end = Ok z -> re z == re a + (re b - re a) * t /\ im z == im a + (im b - im a) * t.
Proof.
  intros T0 T1 P Ea Eb H.
  assert (SI : inject_Z (Z.of_nat (S i)) == inject_Z (Z.of_nat i) + 1).
  { rewrite Nat2Z.inj_succ. unfold Z.succ. rewrite inject_Z_plus. reflexivity. }
  destruct (Qlt_le_dec 0 t) as [L|L]; [destruct (Qlt_le_dec t 1) as [L'|L']|].
  - rewrite (qceil_unique pos (Z.of_nat (S i))) in H by (rewrite P, ?SI; lra).
    rewrite (qfloor_unique pos (Z.of_nat i)) in H by (rewrite P; lra).
    rewrite !py_nth_nat, !Nat2Z.id, Ea, Eb in H by lia. injection H as <-. cbn. rewrite P. split; ring.
  - assert (T : t == 1) by lra. assert (P' : pos == inject_Z (Z.of_nat (S i))) by (rewrite P, SI, T; reflexivity).
    rewrite (qceil_comp pos _ P'), (qfloor_comp pos _ P'), qceil_Z, qfloor_Z in H.
    rewrite !py_nth_nat, !Nat2Z.id, Eb in H by lia. injection H as <-. cbn. rewrite P', T. split; ring.
  - assert (T : t == 0) by lra. assert (P' : pos == inject_Z (Z.of_nat i)) by (rewrite P, T; ring).
    rewrite (qceil_comp pos _ P'), (qfloor_comp pos _ P'), qceil_Z, qfloor_Z in H.
    rewrite !py_nth_nat, !Nat2Z.id, Ea in H by lia. injection H as <-. cbn. rewrite P', T. split; ring.
Qed.
Lemma at_pos (v : list cq) (i : nat) (pos : Q) a z : pos == inject_Z (Z.of_nat i) ->
  nth_error v i = Some a ->
  match py_nth v (qceil pos), py_nth v (qfloor pos) with
    | Some c, Some b => Ok (cplus b (cscale (pos - inject_Z (qfloor pos)) (cminus c b)))
    | _, _ => Err IndexError
  end = Ok z -> re z == re a /\ im z == im a.
Proof.
  intros P Ea H. rewrite (qceil_comp pos _ P), (qfloor_comp pos _ P), qceil_Z, qfloor_Z in H. rewrite !py_nth_nat, !Nat2Z.id, Ea in H by lia.
  injection H as <-. cbn. rewrite P. split; ring.
Qed.

Lemma eval_at_interpolates freqs v f z : ascending freqs -> length v = length freqs ->
  eval_at freqs v f = Ok z -> interpolates_c freqs v f z.
Proof.
  intros HA HL H. unfold eval_at in H. apply bind_ok in H. destruct H as (pos & Hp & H).
  pose proof (ascending_increasing freqs HA) as HI. apply np_interp_spec in Hp; [|apply HI].
  set (ix := map inject_Z (arange (Z.of_nat (length freqs)))) in *.
  assert (Lix : length ix = length freqs) by (unfold ix; rewrite map_length, arange_length; lia).
  assert (NV : forall i, (i < length freqs)%nat -> exists a, nth_error v i = Some a).
  { intros i Hi. destruct (nth_error v i) eqn:E; [eauto|]. apply nth_error_None in E. lia. }
  assert (NI : forall i x, nth_error ix i = Some x -> x = inject_Z (Z.of_nat i)).
  { intros i x E. unfold ix in E. rewrite nth_error_map in E. destruct (Nat.lt_ge_cases i (length freqs)) as [L|L].
    - rewrite arange_nth in E by lia. cbn in E. congruence.
    - assert (nth_error (arange (Z.of_nat (length freqs))) i = None) as N by (apply nth_error_None; rewrite arange_length; lia).
      rewrite N in E. discriminate. }
  assert (LT : forall i x, nth_error ix i = Some x -> (i < length freqs)%nat).
  { intros i x E. rewrite <- Lix. apply nth_error_Some. congruence. }
  destruct Hp as [x0 y0 A B C|n x0 y0 A A' B C|i xa ya xb yb A B C D E F].
  - apply nth_combine in A. destruct A as [A1 A2]. pose proof (NI _ _ A2) as ->. pose proof (LT _ _ A2) as L.
    destruct (NV 0%nat L) as [a Ea]. destruct (at_pos v 0 pos a z C Ea H) as [R1 R2].
    split; (eapply int_below; [apply nth_combine; split; [exact A1|rewrite nth_error_map, Ea; reflexivity]|exact B|assumption]).
  - apply nth_combine in A. destruct A as [A1 A2]. pose proof (NI _ _ A2) as ->. pose proof (LT _ _ A2) as L.
    destruct (NV n L) as [a Ea]. destruct (at_pos v n pos a z C Ea H) as [R1 R2].
    assert (SN : length freqs = S n).
    { apply nth_error_None in A'. rewrite combine_length, Lix in A'. lia. }
    split; (eapply int_above; [apply nth_combine; split; [exact A1|rewrite nth_error_map, Ea; reflexivity]| |exact B|assumption]);
      apply nth_error_None; rewrite combine_length, map_length; lia.
  - apply nth_combine in A. destruct A as [A1 A2]. pose proof (NI _ _ A2) as ->.
    apply nth_combine in B. destruct B as [B1 B2]. pose proof (NI _ _ B2) as ->. pose proof (LT _ _ B2) as L.
    destruct (NV i ltac:(lia)) as [a Ea]. destruct (NV (S i) L) as [b Eb].
    set (t := (f - xa) / (xb - xa)) in *.
    assert (T0 : 0 <= t) by (unfold t; apply Qle_shift_div_l; lra).
    assert (T1 : t <= 1) by (unfold t; apply Qle_shift_div_r; lra).
    assert (P : pos == inject_Z (Z.of_nat i) + t).
    { rewrite F. rewrite Nat2Z.inj_succ. unfold Z.succ. rewrite inject_Z_plus. change (inject_Z 1) with 1. ring. }
    destruct (between_pos v i t pos a b z T0 T1 P Ea Eb H) as [R1 R2].
    split; (eapply int_between; [apply nth_combine; split; [exact A1|rewrite nth_error_map, Ea; reflexivity]
        |apply nth_combine; split; [exact B1|rewrite nth_error_map, Eb; reflexivity]|lra|lra|lra|assumption]).
Qed.

(** it never fails for a spectrum of the right length *)
Lemma eval_at_total freqs v f : ascending freqs -> freqs <> [] -> length v = length freqs -> exists z, eval_at freqs v f = Ok z.
Proof.
  intros HA HN HL. unfold eval_at.
  set (ix := map inject_Z (arange (Z.of_nat (length freqs)))).
  assert (Lix : length ix = length freqs) by (unfold ix; rewrite map_length, arange_length; lia).
  destruct (np_interp_total (combine freqs ix) f) as [pos Hp].
  { destruct freqs; [congruence|]. destruct ix; [discriminate|]. discriminate. }
  rewrite Hp. cbn [bind]. apply np_interp_spec in Hp; [|apply ascending_increasing; exact HA].
  assert (B : 0 <= pos /\ pos <= inject_Z (Z.of_nat (length freqs) - 1)).
  { assert (NI : forall i x y, nth_error (combine freqs ix) i = Some (x, y) -> y = inject_Z (Z.of_nat i) /\ (i < length freqs)%nat).
    { intros i x y E. apply nth_combine in E. destruct E as [_ E]. assert (L : (i < length ix)%nat) by (apply nth_error_Some; congruence).
      rewrite Lix in L. split; [|exact L]. unfold ix in E. rewrite nth_error_map, arange_nth in E by lia. cbn in E. congruence. }
    assert (J : forall i : nat, (i < length freqs)%nat -> 0 <= inject_Z (Z.of_nat i) /\ inject_Z (Z.of_nat i) <= inject_Z (Z.of_nat (length freqs) - 1)).
    { intros i Hi. split; [change 0 with (inject_Z 0)|]; apply (proj1 (inject_Z_le _ _)); lia. }
    destruct Hp as [x0 y0 A B C|n x0 y0 A A' B C|i xa ya xb yb A B C D E F].
    - destruct (NI _ _ _ A) as [-> L]. rewrite C. apply J. exact L.
    - destruct (NI _ _ _ A) as [-> L]. rewrite C. apply J. exact L.
    - destruct (NI _ _ _ A) as [-> L]. destruct (NI _ _ _ B) as [-> L']. destruct (J _ L) as [J1 J2]. destruct (J _ L') as [J3 J4].
      set (t := (f - xa) / (xb - xa)) in *.
      assert (T0 : 0 <= t) by (unfold t; apply Qle_shift_div_l; lra).
      assert (T1 : t <= 1) by (unfold t; apply Qle_shift_div_r; lra).
      rewrite F. rewrite Nat2Z.inj_succ in J4 |- *. unfold Z.succ in J4 |- *. rewrite inject_Z_plus in J4 |- *. change (inject_Z 1) with 1 in *.
      set (n := inject_Z (Z.of_nat i)) in *. assert (E2 : n + (n + 1 - n) * t == n + t) by ring. rewrite E2. split; lra. }
  destruct B as [B1 B2].
  assert (C1 : (0 <= qfloor pos)%Z).
  { destruct (qfloor_spec pos) as [_ K]. assert (inject_Z (-1) < inject_Z (qfloor pos)) by (change (inject_Z (-1)) with (-1); lra).
    apply (proj2 (inject_Z_lt _ _)) in H. lia. }
  assert (C2 : (qceil pos <= Z.of_nat (length freqs) - 1)%Z).
  { destruct (qceil_spec pos) as [K _]. destruct (Z.le_gt_cases (qceil pos) (Z.of_nat (length freqs) - 1)) as [|L]; [assumption|].
    assert (M : inject_Z (Z.of_nat (length freqs) - 1 + 1) <= inject_Z (qceil pos)) by (apply (proj1 (inject_Z_le _ _)); lia).
    rewrite inject_Z_plus in M. change (inject_Z 1) with 1 in M. lra. }
  assert (C3 : (qfloor pos <= qceil pos)%Z).
  { apply (proj2 (inject_Z_le _ _)). destruct (qfloor_spec pos). destruct (qceil_spec pos). lra. }
  rewrite !py_nth_nat by lia.
  destruct (nth_error v (Z.to_nat (qceil pos))) eqn:E1; [|apply nth_error_None in E1; lia].
  destruct (nth_error v (Z.to_nat (qfloor pos))) eqn:E2; [|apply nth_error_None in E2; lia]. eauto.
Qed.

(** ** levels *)
Lemma mapM_nth {A B} (f : A -> res B) l r i x : mapM f l = Ok r -> nth_error l i = Some x ->
  exists y, nth_error r i = Some y /\ f x = Ok y.
Proof. intros H N. apply mapM_ok in H. exact (Forall2_nth_error _ _ _ _ _ H N). Qed.
Lemma make_spec_ok {A} m (l : list (Z * nd A)) d : make_spec m l = Ok d -> d = mkSpec m l.
Proof. unfold make_spec. destruct (find _ l); [intros H; injection H as <-; reflexivity|discriminate]. Qed.

Lemma levels_map {A B} (f : Z -> res ((Z * A) * B)) n r : (forall i y, f i = Ok y -> fst (fst y) = i) ->
  mapM f (arange n) = Ok r -> map fst (map fst r) = arange n.
Proof.
  intros Hf H. apply mapM_ok in H. induction H as [|i y l r' E F IH]; [reflexivity|]. cbn. rewrite (Hf _ _ E), IH. reflexivity.
Qed.

Lemma evals_level_at p d d' level : evals_run p d = Ok d' -> (0 <= level < sm_n_levels (sd_md d))%Z ->
  exists m evals x y, sd_level_md d level = Ok m /\ level_eval_freqs p level = Ok evals /\ sd_get_level d level = Ok x /\
    nd_last (eval_vec (sl_freqs m) evals) x = Ok y /\ sd_get_level d' level = Ok y /\
    sd_level_md d' level = Ok (mkSpecLevel (sl_fs m) (sl_n_wins m) (sl_win_size m) (sl_olap_size m) (sl_offset m)
                       (Z.of_nat (length evals)) evals).
Proof.
  intros H Hl. unfold evals_run in H. apply bind_ok in H. destruct H as (r & Hr & H). apply make_spec_ok in H. subst d'.
  assert (N : nth_error (arange (sm_n_levels (sd_md d))) (Z.to_nat level) = Some level).
  { rewrite arange_nth by lia. f_equal. lia. }
  destruct (mapM_nth _ _ _ _ _ Hr N) as (y & Ny & Hy). pose proof Hy as Hy0. unfold eval_level in Hy.
  apply bind_ok in Hy. destruct Hy as (m & Hm & Hy).
  apply bind_ok in Hy. destruct Hy as (evals & He & Hy).
  apply bind_ok in Hy. destruct Hy as (x & Hx & Hy).
  apply bind_ok in Hy. destruct Hy as (z & Hz & Hy). injection Hy as <-.
  exists m, evals, x, z. split; [exact Hm|]. split; [exact He|]. split; [exact Hx|]. split; [exact Hz|].
  assert (F : map fst (map fst r) = arange (sm_n_levels (sd_md d))).
  { apply (levels_map (eval_level p d)); [|exact Hr]. intros i y E. unfold eval_level in E.
    repeat (apply bind_ok in E; destruct E as (? & ? & E)). injection E as <-. reflexivity. }
  assert (N1 : nth_error (map fst r) (Z.to_nat level) = Some (level, z)) by (rewrite nth_error_map, Ny; reflexivity).
  destruct (find_key _ _ _ _ F N1) as [_ K]. rewrite Z2Nat.id in K by lia.
  split.
  - unfold sd_get_level, sd_at. cbn [sd_md sm_n_levels sd_data]. replace (level >=? sm_n_levels (sd_md d))%Z with false by lia.
    rewrite K. reflexivity.
  - unfold sd_level_md. cbn [sd_md sm_levels]. rewrite py_nth_nat by lia. rewrite nth_error_map, Ny. reflexivity.
Qed.

Lemma c40 : forall p d d' level, evals_run p d = Ok d' -> (0 <= level < sm_n_levels (sd_md d))%Z ->
  exists m m' x y evals, sd_level_md d level = Ok m /\ sd_get_level d level = Ok x /\
    level_eval_freqs p level = Ok evals /\ sd_level_md d' level = Ok m' /\ sd_get_level d' level = Ok y /\
    sl_freqs m' = evals /\ sl_n_freqs m' = Z.of_nat (length evals) /\
    sl_fs m' = sl_fs m /\ sl_n_wins m' = sl_n_wins m /\ sl_offset m' = sl_offset m /\
    forall idx, 
      (forall w, nd_vec y idx = Some w -> exists v, nd_vec x idx = Some v) /\
      (forall v, nd_vec x idx = Some v -> exists w, nd_vec y idx = Some w /\ length w = length evals /\
        (ascending (sl_freqs m) -> length v = length (sl_freqs m) ->
         forall j f z, nth_error evals j = Some f -> nth_error w j = Some z -> interpolates_c (sl_freqs m) v f z)).
Proof.
  intros p d d' level H Hl. destruct (evals_level_at p d d' level H Hl) as (m & evals & x & y & H1 & H2 & H3 & H4 & H5 & H6).
  do 5 eexists. split; [exact H1|]. split; [exact H3|]. split; [exact H2|]. split; [exact H6|]. split; [exact H5|].
  do 5 (split; [reflexivity|]). intros idx. split.
  - intros w Hw. destruct (nd_last_vec_r _ _ _ _ _ H4 Hw) as (v & _ & V). eauto.
  - intros v Hv. destruct (nd_last_vec _ _ _ _ _ H4 Hv) as (w & W & V). exists w. split; [exact V|].
    unfold eval_vec in W. split; [apply mapM_length in W; exact W|].
    intros HA HL j f z Hf Hz. destruct (mapM_nth _ _ _ _ _ W Hf) as (z' & Hz' & E).
    rewrite Hz in Hz'. injection Hz' as <-. apply eval_at_interpolates; assumption.
Qed.
