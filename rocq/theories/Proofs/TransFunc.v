(** Proofs about the definition of transfer functions. *)
From Coq Require Import String Ascii.
From Verif Require Import Base.Prelude Base.ListUtil Base.NdArray Base.Cplx
  Model.Sampling Model.Time Model.Decimate Model.Window Model.Spectra Model.Calibrate Model.Gather Model.Regression Model.TransFunc
  Spec.Regression Spec.TransFunc Proofs.TimeMeta Proofs.DecParams Proofs.Spectra Proofs.Calibrate Proofs.GatherData Proofs.Regression Proofs.RegressionFinal Proofs.RegressionQuick.
Open Scope list_scope. Open Scope Z_scope.

(** ** Construction *)
Lemma make_tf_counts k a t : make_tf k a = Ok t -> no_counts a -> counts_agree t.
Proof.
  intros H (A & B & C). unfold make_tf in H. rewrite A, B, C in H. unfold count_of in H.
  destruct (or_default (a_out a) (k_out k)) as [o|]; destruct (or_default (a_in a) (k_in k)) as [i|]; destruct (a_cross a) as [x|]; cbn [or_default bind] in H;
    try discriminate H; destruct (16 <? _) in H; try discriminate H; injection H as <-; split; [reflexivity|split; reflexivity| |]; try reflexivity; split; reflexivity.
Qed.
Lemma make_tf_ok k a o i : or_default (a_out a) (k_out k) = Some o -> or_default (a_in a) (k_in k) = Some i ->
  let v := match a_variation a with Some v => v | None => k_variation k end in
  let x := match a_cross a with Some x => x | None => i end in
  let n g (l : list chan) := match g with Some n => n | None => Z.of_nat (length l) end in
  make_tf k a = if (16 <? Z.of_nat (String.length v)) then Err ValidationError
    else Ok (mkTF (match a_name a with Some n => n | None => k_name k end) v o i x (n (a_n_out a) o) (n (a_n_in a) i) (n (a_n_cross a) x)).
Proof.
  intros A B v x n. unfold make_tf. rewrite A, B. unfold count_of. destruct (a_cross a); cbn [or_default bind]; destruct (a_n_out a); destruct (a_n_in a); destruct (a_n_cross a); reflexivity.
Qed.
Lemma make_tf_inv k a t : make_tf k a = Ok t -> exists o i, or_default (a_out a) (k_out k) = Some o /\ or_default (a_in a) (k_in k) = Some i.
Proof.
  intros H. unfold make_tf in H. destruct (or_default (a_out a) (k_out k)) as [o|], (or_default (a_in a) (k_in k)) as [i|].
  - exists o, i. split; reflexivity.
  - apply bind_ok in H. destruct H as (? & _ & H). apply bind_ok in H. destruct H as (? & _ & H). apply bind_ok in H. destruct H as (? & _ & H). apply bind_ok in H. destruct H as (? & _ & H). discriminate H.
  - apply bind_ok in H. destruct H as (? & _ & H). apply bind_ok in H. destruct H as (? & _ & H). apply bind_ok in H. destruct H as (? & _ & H). apply bind_ok in H. destruct H as (? & _ & H). discriminate H.
  - apply bind_ok in H. destruct H as (? & _ & H). apply bind_ok in H. destruct H as (? & _ & H). apply bind_ok in H. destruct H as (? & _ & H). apply bind_ok in H. destruct H as (? & _ & H). discriminate H.
Qed.
Lemma make_tf_fields k a t : make_tf k a = Ok t ->
  or_default (a_out a) (k_out k) = Some (t_out t) /\ or_default (a_in a) (k_in k) = Some (t_in t) /\
  t_cross t = match a_cross a with Some x => x | None => t_in t end /\
  (String.length (t_variation t) <= 16)%nat.
Proof.
  intros H. destruct (make_tf_inv k a t H) as (o & i & A & B). rewrite (make_tf_ok k a o i A B) in H. cbv zeta in H.
  destruct (Z.ltb_spec 16 (Z.of_nat (String.length match a_variation a with Some v => v | None => k_variation k end))) as [L|L]; [discriminate H|].
  injection H as <-. cbn [t_out t_in t_cross t_variation]. split; [exact A|]. split; [exact B|]. split; [reflexivity|lia].
Qed.
Lemma make_tf_again k k' a t : make_tf k a = Ok t -> make_tf k' (args_of_tf t) = Ok t.
Proof.
  intros H. destruct (make_tf_fields k a t H) as (_ & _ & _ & L). rewrite (make_tf_ok k' (args_of_tf t) (t_out t) (t_in t) eq_refl eq_refl). cbv zeta. cbn [args_of_tf a_variation a_name a_cross a_n_out a_n_in a_n_cross].
  destruct (Z.ltb_spec 16 (Z.of_nat (String.length (t_variation t)))); [lia|]. destruct t; reflexivity.
Qed.

(** ** Broadcasting *)
Lemma bcast_map {B C} (f : B -> C) n l l' : bcast n l = Ok l' -> bcast n (map f l) = Ok (map f l').
Proof.
  unfold bcast. rewrite map_length. destruct (Nat.eqb (length l) n); [intros H; injection H as <-; reflexivity|].
  destruct l as [|x [|y l]]; try discriminate. intros H. injection H as <-. cbn [map]. f_equal.
  clear. induction n as [|n IH]; [reflexivity|]. cbn [repeat map]. f_equal. exact IH.
Qed.
Lemma bcast_same {B} n (l : list B) : length l = n -> bcast n l = Ok l.
Proof. intros H. unfold bcast. rewrite H, Nat.eqb_refl. reflexivity. Qed.
Lemma bcast_length {B} n (l l' : list B) : bcast n l = Ok l' -> length l' = n.
Proof.
  unfold bcast. destruct (Nat.eqb_spec (length l) n); [intros H; injection H as <-; assumption|]. destruct l as [|x [|y l]]; try discriminate.
  intros H. injection H as <-. apply repeat_length.
Qed.
Lemma axis_nat n : axis (Z.of_nat n) = Ok n.
Proof. unfold axis. destruct (Z.ltb_spec (Z.of_nat n) 0); [lia|]. rewrite Nat2Z.id. reflexivity. Qed.

Section Same.
  Variables (cmul : cq -> cq -> cq) (junk1 : nat -> list Q) (junk2 : nat -> nat -> list (list Q)).
  Notation P := (fun irow crow => map (fun x => map (fun y => cmul x (conj_ y)) crow) irow).

  Lemma preds_win_n_eq t ni (chans : list chan) irow irow' crow : t_n_cross t = Z.of_nat (length (t_cross t)) -> t_n_in t = Z.of_nat ni -> length chans = ni ->
    length crow = length (t_cross t) -> bcast ni irow = Ok irow' ->
    preds_win_n junk2 t (P irow crow) = preds_win junk2 (mkTf (t_out t) chans (t_cross t)) (P irow' crow).
  Proof.
    intros Hc Hi Lc Lr B. unfold preds_win_n, preds_win. rewrite Hc, Hi, !axis_nat. cbn [bind tf_cross tf_in]. rewrite <- Lr, !(swap_ok (fun x c => cmul x (conj_ c))). cbn [bind].
    assert (BL : forall h : cq -> Q, (rows <- mapM (bcast ni) (map (map h) (map (fun c => map (fun x => cmul x (conj_ c)) irow) crow)) ;; bcast (length crow) rows)
       = Ok (map (map h) (map (fun c => map (fun x => cmul x (conj_ c)) irow') crow))).
    { intros h. rewrite !mapM_map. rewrite (mapM_eq _ (fun c => map h (map (fun x => cmul x (conj_ c)) irow'))).
      - cbn [bind]. rewrite map_map. apply bcast_same. apply map_length.
      - intros c _. exact (bcast_map h ni _ _ (bcast_map (fun x => cmul x (conj_ c)) ni _ _ B)). }
    cbv zeta. assert (E : forall s : list (list cq), map (map Qopp) (map (map im) s) = map (map (fun z => Qopp (im z))) s).
    { intros s. rewrite map_map. apply map_ext. intros v. apply map_map. }
    rewrite !E, !BL. cbn [bind]. rewrite Lc. reflexivity.
  Qed.

  (** the window powers of data rows *)
  Definition pows (wins : list (list cq * list cq)) : list (list (list cq)) := map (fun x => P (fst x) (snd x)) wins.
  Lemma preds_loop_n_eq t ni (chans : list chan) (w : list cq -> list cq) : t_n_cross t = Z.of_nat (length (t_cross t)) -> t_n_in t = Z.of_nat ni -> length chans = ni ->
    forall wins, (forall x, In x wins -> length (snd x) = length (t_cross t) /\ bcast ni (fst x) = Ok (w (fst x))) -> forall k d,
    preds_loop_n junk2 t (2 * length (t_cross t)) (combine (seq k (length wins)) (pows wins)) d =
    preds_loop junk2 (mkTf (t_out t) chans (t_cross t)) (combine (seq k (length wins)) (pows (map (fun x => (w (fst x), snd x)) wins))) d.
  Proof.
    intros Hc Hi Lc. induction wins as [|x wins IH]; intros H k d; [reflexivity|].
    cbn [length seq combine pows map preds_loop_n preds_loop fst snd]. destruct (H x (or_introl eq_refl)) as [L B].
    pose proof (preds_win_n_eq t ni chans (fst x) (w (fst x)) (snd x) Hc Hi Lc L B) as E. cbv beta in E. rewrite E. cbn [tf_cross].
    destruct (preds_win junk2 (mkTf (t_out t) chans (t_cross t)) (P (w (fst x)) (snd x))) as [rows|e]; [|reflexivity]. cbn [bind].
    destruct (slice_set (k * (2 * length (t_cross t))) (k * (2 * length (t_cross t)) + 2 * length (t_cross t)) rows d) as [d'|e]; [|reflexivity]. cbn [bind].
    apply IH. intros y K. apply H. right. exact K.
  Qed.
  Lemma get_preds_n_eq t ni (chans : list chan) (w : list cq -> list cq) ins crosses : t_n_cross t = Z.of_nat (length (t_cross t)) -> t_n_in t = Z.of_nat ni -> length chans = ni ->
    length crosses = length ins -> wide (length (t_cross t)) crosses -> (forall irow, In irow ins -> bcast ni irow = Ok (w irow)) ->
    exists p p', powers cmul ins crosses = Ok p /\ powers cmul (map w ins) crosses = Ok p' /\
      get_preds_n junk2 t p = get_preds junk2 (mkTf (t_out t) chans (t_cross t)) p'.
  Proof.
    intros Hc Hi Lc L W B. eexists _, _. split; [apply powers_ok; exact L|]. split; [apply powers_ok; rewrite map_length; exact L|].
    unfold get_preds_n, get_preds, enum. rewrite !map_length, !combine_length, map_length, Hc, Hi, axis_nat. cbn [tf_cross tf_in].
    replace (Z.of_nat (Nat.min (length ins) (length crosses)) * (2 * Z.of_nat (length (t_cross t)))) with (Z.of_nat (Nat.min (length ins) (length crosses) * (2 * length (t_cross t)))) by lia.
    rewrite axis_nat. cbn [bind]. replace (Z.to_nat (2 * Z.of_nat (length (t_cross t)))) with (2 * length (t_cross t))%nat by lia. rewrite Lc.
    rewrite <- combine_length.
    rewrite (preds_loop_n_eq t ni chans w Hc Hi Lc (combine ins crosses)).
    - f_equal. f_equal. unfold pows. rewrite map_map.
      assert (C : combine (map w ins) crosses = map (fun x => (w (fst x), snd x)) (combine ins crosses)).
      { clear. revert crosses. induction ins as [|i ins IH]; intros [|c crosses]; try reflexivity. cbn [map combine fst snd]. f_equal. apply IH. }
      rewrite C, map_map. reflexivity.
    - intros [i c] K. split; [apply W; eapply in_combine_r; exact K|apply B; eapply in_combine_l; exact K].
  Qed.

  (** preparation with the counts is preparation for the channels [chans] and the broadcast inputs *)
  Lemma prepare_n_eq t ni (chans : list chan) (w : list cq -> list cq) g g' : t_n_cross t = Z.of_nat (length (t_cross t)) -> t_n_in t = Z.of_nat ni -> length chans = ni ->
    cb_eval_freqs (g_out g') = cb_eval_freqs (g_out g) ->
    (forall k, (k < length (cb_eval_freqs (g_out g)))%nat -> exists outs ins crosses, freq_data g k outs ins crosses /\ freq_data g' k outs (map w ins) crosses /\
       length ins = length outs /\ length crosses = length outs /\ wide (length (t_cross t)) crosses /\ forall irow, In irow ins -> bcast ni irow = Ok (w irow)) ->
    prepare_gathered_n cmul junk1 junk2 t g =
      match prepare_gathered cmul junk1 junk2 (mkTf (t_out t) chans (t_cross t)) g' with
      | Ok r => Ok (mkReg (channels t) (ri_freqs r) (ri_obs r) (ri_preds r))
      | Err e => Err e
      end.
  Proof.
    intros Hc Hi Lc F H. unfold prepare_gathered_n, prepare_gathered. rewrite F.
    rewrite (mapM_ext_in _ (fun x : nat * Q => pp <- cross_powers cmul g' (Z.of_nat (fst x)) ;; r <- prepare_freq junk1 junk2 (mkTf (t_out t) chans (t_cross t)) (fst pp) (snd pp) ;; Ok (snd x, r))).
    { destruct (mapM _ (enum (cb_eval_freqs (g_out g)))); reflexivity. }
    intros [k q] K. apply enum_in in K. destruct (H k) as (outs & ins & crosses & (D1 & D2 & D3) & (E1 & E2 & E3) & L1 & L2 & W & B); [apply nth_error_Some; congruence|].
    cbn [fst snd]. unfold cross_powers. rewrite D1, D2, D3, E1, E2, E3. cbn [bind].
    destruct (get_preds_n_eq t ni chans w ins crosses Hc Hi Lc) as (p & p' & P1 & P2 & P3); [congruence|exact W|exact B|].
    rewrite P1, P2. destruct (powers cmul outs crosses) as [po|e]; [|reflexivity]. cbn [bind fst snd]. unfold prepare_freq.
    change (get_obs junk1 (mkTf (t_out t) chans (t_cross t)) po) with (get_obs junk1 (channels t) po).
    destruct (get_obs junk1 (channels t) po) as [o|e]; [|reflexivity]. cbn [bind]. rewrite P3.
    destruct (get_preds junk2 (mkTf (t_out t) chans (t_cross t)) p'); reflexivity.
  Qed.
End Same.

(** ** Counts that agree *)
Lemma mapM_enum {B C} (f : B -> res C) (l : list B) n : (length l <= n)%nat ->
  mapM (fun c : nat * B => v <- f (snd c) ;; if Nat.ltb (fst c) n then Ok v else Err IndexError) (enum l) = mapM f l.
Proof.
  intros L. unfold enum. assert (G : forall k, (k + length l <= n)%nat -> mapM (fun c : nat * B => v <- f (snd c) ;; if Nat.ltb (fst c) n then Ok v else Err IndexError) (combine (seq k (length l)) l) = mapM f l).
  { clear L. induction l as [|x l IH]; intros k H; [reflexivity|]. cbn [length seq combine mapM fst snd]. cbn [length] in H. rewrite IH by lia.
    destruct (f x); [|reflexivity]. cbn [bind]. destruct (Nat.ltb_spec k n); [reflexivity|lia]. }
  apply G. lia.
Qed.
Lemma solve_n_eq fit t r : counts_agree t -> ri_tf r = channels t -> solve_n fit t r = solve fit r.
Proof.
  intros (A & B & C) E. unfold solve_n, solve. rewrite A, B, !axis_nat. cbn [bind]. rewrite E.
  rewrite (mapM_ext_in _ (fun eval_idx => mapM (fun c => x <- get_inputs r eval_idx c ;; coef <- fit (snd x) (fst x) ;; get_tensor (channels t) coef) (tf_out (channels t)))); [reflexivity|].
  intros k _. rewrite <- (mapM_enum _ (tf_out (channels t)) (length (t_out t))) by (cbn; lia). apply mapM_ext_in. intros [o c] _. cbn [fst snd].
  destruct (get_inputs r k c) as [x|]; [|reflexivity]. cbn [bind]. destruct (fit (snd x) (fst x)) as [coef|]; [|reflexivity]. cbn [bind].
  unfold get_tensor_n. rewrite B, axis_nat. reflexivity.
Qed.
Lemma regression_n_eq cmul junk1 junk2 fit t g : counts_agree t -> good_gathered (channels t) g ->
  regression_n fit cmul junk1 junk2 t g = (r <- prepare_gathered cmul junk1 junk2 (channels t) g ;; solve fit r).
Proof.
  intros CA GG. pose proof CA as (A & B & C). unfold regression_n.
  rewrite (prepare_n_eq cmul junk1 junk2 t (length (t_in t)) (t_in t) (fun r => r) g g C B eq_refl eq_refl).
  - fold (channels t). destruct (prepare_gathered cmul junk1 junk2 (channels t) g) as [r|e] eqn:E; [|reflexivity]. cbn [bind].
    assert (R : ri_tf r = channels t) by (unfold prepare_gathered in E; apply bind_ok in E; destruct E as (l & _ & E); injection E as <-; reflexivity).
    rewrite solve_n_eq by (exact CA || reflexivity). destruct r; cbn in *. subst. reflexivity.
  - intros k Hk. destruct (GG k Hk) as (outs & ins & crosses & F & L1 & L2 & W1 & W2 & W3). exists outs, ins, crosses. rewrite map_id.
    split; [exact F|]. split; [exact F|]. split; [exact L1|]. split; [exact L2|]. split; [exact W3|]. intros irow K. apply bcast_same. apply W2. exact K.
Qed.
Lemma sol_tensor_n_eq t s k : counts_agree t -> so_tf s = channels t -> sol_tensor_n t s k = sol_tensor s k.
Proof.
  intros (A & B & C) E. unfold sol_tensor_n. rewrite A, B, !axis_nat. cbn [bind]. destruct (sol_tensor s k) as [m|e] eqn:M; [|reflexivity]. cbn [bind].
  rewrite !Nat.ltb_irrefl. cbn [andb orb]. unfold sol_tensor in M. rewrite E in M. pose proof (mapM_length _ _ _ M) as L. cbn [channels tf_out] in L. rewrite L, Nat.sub_diag. cbn [repeat]. rewrite app_nil_r. f_equal.
  rewrite <- (map_id m) at 2. apply map_ext_in. intros row K. apply In_nth_error in K. destruct K as [j K]. apply mapM_ok in M.
  destruct (Forall2_nth_error_r _ _ _ _ _ M K) as (c & _ & F). apply mapM_length in F. cbn [channels tf_in] in F. rewrite F, Nat.sub_diag. apply app_nil_r.
Qed.
Lemma regression_n_recovers junk1 junk2 fit t g Zt : counts_agree t -> let tf := channels t in junk_shape junk1 junk2 -> least_squares fit -> good_gathered tf g ->
  NoDup (t_out t) -> NoDup (t_in t) -> t_in t <> [] -> keys_distinct tf ->
  (forall k, (k < length (cb_eval_freqs (g_out g)))%nat -> length (Zt k) = length (t_out t) /\ wide (length (t_in t)) (Zt k)) ->
  (forall k outs ins crosses, (k < length (cb_eval_freqs (g_out g)))%nat -> freq_data g k outs ins crosses ->
     generated_by (Zt k) outs ins /\ determined (length (t_in t)) ins crosses) ->
  exists s, regression_n fit ctimes junk1 junk2 t g = Ok s /\ so_freqs s = cb_eval_freqs (g_out g) /\
    forall k, (k < length (cb_eval_freqs (g_out g)))%nat -> exists m, sol_tensor_n t s (Z.of_nat k) = Ok m /\ Forall2 (Forall2 ceq) m (Zt k).
Proof.
  intros CA tf J LS GG ND1 ND2 NE KD HZ HG. destruct (c50_end junk1 junk2 fit tf g Zt J LS GG ND1 ND2 NE KD HZ HG) as (r & s & A & B & C & D).
  exists s. rewrite (regression_n_eq ctimes junk1 junk2 fit t g CA GG). fold tf. rewrite A. cbn [bind]. split; [exact B|]. split; [exact C|].
  assert (T : so_tf s = tf).
  { unfold prepare_gathered in A. apply bind_ok in A. destruct A as (l & _ & A). injection A as <-. unfold solve in B. apply bind_ok in B. destruct B as (ts & _ & B). cbn [ri_tf] in B.
    unfold get_solution in B. apply bind_ok in B. destruct B as (cs & _ & B). injection B as <-. reflexivity. }
  intros k Hk. destruct (D k Hk) as (m & M1 & M2). exists m. split; [|exact M2]. rewrite (sol_tensor_n_eq t s _ CA T). exact M1.
Qed.

(** ** Counts that do not agree *)
Lemma swap_rows n m s : swap n m = Ok s -> length s = n /\ forall row, In row s -> length row = length m.
Proof.
  unfold swap. intros H. split; [apply mapM_length in H; rewrite seq_length in H; exact H|]. intros row K. apply In_nth_error in K. destruct K as [j K]. apply mapM_ok in H.
  destruct (Forall2_nth_error_r _ _ _ _ _ H K) as (c & _ & F). apply mapM_length in F. exact F.
Qed.
Lemma preds_win_n_counts junk2 t m r : preds_win_n junk2 t m = Ok r ->
  (t_n_cross t = Z.of_nat (length (t_cross t)) \/ length (t_cross t) = 1%nat) /\
  (t_cross t <> [] -> t_n_in t = Z.of_nat (length m) \/ length m = 1%nat).
Proof.
  unfold preds_win_n. intros H. apply bind_ok in H. destruct H as (nc & H1 & H). apply bind_ok in H. destruct H as (ni & H2 & H). apply bind_ok in H. destruct H as (s & H3 & H).
  apply bind_ok in H. destruct H as (rr & H4 & _). destruct (swap_rows _ _ _ H3) as [L1 L2]. apply bind_ok in H4. destruct H4 as (rows & H4 & H5).
  assert (LR : length rows = length (t_cross t)) by (apply mapM_length in H4; rewrite map_length in H4; congruence).
  assert (AX : forall n k, axis n = Ok k -> n = Z.of_nat k) by (intros n k E; unfold axis in E; destruct (Z.ltb_spec n 0); [discriminate|]; injection E as <-; lia).
  apply AX in H1, H2. split.
  - unfold bcast in H5. destruct (Nat.eqb_spec (length rows) nc) as [E|N]; [left; congruence|]. destruct rows as [|x [|y rows]]; try discriminate. right. cbn in LR. congruence.
  - intros NE. destruct s as [|row s]; [cbn in L1; destruct (t_cross t); [congruence|discriminate]|]. cbn [map mapM] in H4. apply bind_ok in H4. destruct H4 as (r0 & H4 & _).
    unfold bcast in H4. rewrite map_length, (L2 row (or_introl eq_refl)) in H4. destruct (Nat.eqb_spec (length m) ni) as [E|N]; [left; congruence|].
    destruct m as [|x [|y m]]; [| right; reflexivity |].
    + pose proof (L2 row (or_introl eq_refl)) as L. cbn in L. destruct row; [discriminate H4|discriminate L].
    + pose proof (L2 row (or_introl eq_refl)) as L. cbn in L. destruct row as [|a [|b row]]; try discriminate L. discriminate H4.
Qed.
Lemma prepare_n_counts cmul junk1 junk2 t g r k outs ins crosses : prepare_gathered_n cmul junk1 junk2 t g = Ok r ->
  (k < length (cb_eval_freqs (g_out g)))%nat -> freq_data g k outs ins crosses -> length crosses = length ins -> wide (length (t_in t)) ins -> ins <> [] ->
  (t_n_cross t = Z.of_nat (length (t_cross t)) \/ length (t_cross t) = 1%nat) /\
  (t_cross t <> [] -> t_n_in t = Z.of_nat (length (t_in t)) \/ length (t_in t) = 1%nat).
Proof.
  intros H Hk (D1 & D2 & D3) L W NE. unfold prepare_gathered_n in H. apply bind_ok in H. destruct H as (l & H & _).
  destruct (nth_error (cb_eval_freqs (g_out g)) k) as [q|] eqn:Eq; [|apply nth_error_None in Eq; lia].
  destruct (mapM_nth _ _ _ _ _ H (enum_nth _ _ _ Eq)) as (y & _ & F). cbn [fst snd] in F. clear H.
  apply bind_ok in F. destruct F as (pp & F1 & F). apply bind_ok in F. destruct F as (o & _ & F). apply bind_ok in F. destruct F as (p & F2 & _).
  unfold cross_powers in F1. rewrite D1, D2, D3 in F1. cbn [bind] in F1. apply bind_ok in F1. destruct F1 as (po & _ & F1). rewrite (powers_ok cmul ins crosses L) in F1. cbn [bind] in F1. injection F1 as <-.
  cbn [snd] in F2. destruct ins as [|irow ins]; [congruence|]. destruct crosses as [|crow crosses]; [discriminate|]. cbn [combine map fst snd] in F2.
  unfold get_preds_n in F2. apply bind_ok in F2. destruct F2 as (rows & _ & F2). apply bind_ok in F2. destruct F2 as (ni & _ & F2). unfold enum in F2. cbn [length seq combine preds_loop_n] in F2.
  apply bind_ok in F2. destruct F2 as (wr & F2 & _). apply preds_win_n_counts in F2. rewrite map_length, (W irow (or_introl eq_refl)) in F2. exact F2.
Qed.

(** ** One input channel and a larger count *)
Fixpoint csum (Z : list cq) : cq := match Z with [] => c0 | z :: t => cplus z (csum t) end.
Lemma cdot_repeat Z p : ceq (cdot Z (repeat p (length Z))) (ctimes (csum Z) p).
Proof. induction Z as [|z Z IH]; [split; cbn; ring|]. cbn [length repeat cdot csum]. rewrite IH. split; cbn; ring. Qed.
Lemma dot_interleaved Z : (dot (interleaved Z) (interleaved Z) == fold_right (fun z a => normsq z + a) 0 Z)%Q.
Proof. induction Z as [|z Z IH]; [reflexivity|]. unfold interleaved in *. cbn [map concat app dot fold_right]. rewrite IH. unfold normsq. ring. Qed.
Lemma csum_repeat z n : ceq (csum (repeat z n)) (cscale (inject_Z (Z.of_nat n)) z).
Proof.
  induction n as [|n IH]; [split; cbn; ring|]. cbn [repeat csum]. rewrite IH. rewrite Nat2Z.inj_succ, <- Z.add_1_l.
  split; cbn [cplus cscale re im]; rewrite inject_Z_plus; change (inject_Z 1) with 1%Q; ring.
Qed.
(** the distances from [m], summed *)
Lemma sum_dist Z m : (fold_right (fun z a => normsq (cminus z m) + a) 0 Z ==
  fold_right (fun z a => normsq z + a) 0 Z - 2 * (re m * re (csum Z) + im m * im (csum Z)) + inject_Z (Z.of_nat (length Z)) * normsq m)%Q.
Proof.
  induction Z as [|z Z IH]; [cbn; ring|]. cbn [fold_right csum length]. rewrite IH. rewrite Nat2Z.inj_succ, <- Z.add_1_l, inject_Z_plus. change (inject_Z 1) with 1%Q.
  unfold normsq. cbn [cminus cplus re im]. ring.
Qed.
Lemma normsq_pos z : (0 <= normsq z)%Q.
Proof. unfold normsq. pose proof (Qle_refl 0). nra. Qed.
Lemma normsq_zero z : (normsq z <= 0)%Q -> ceq z c0.
Proof. unfold normsq. intros H. split; cbn; nra. Qed.
Lemma all_close Z m : (fold_right (fun z a => normsq (cminus z m) + a) 0 Z <= 0)%Q -> Forall (fun z => ceq z m) Z.
Proof.
  induction Z as [|z Z IH]; intros H; [constructor|]. cbn [fold_right] in H.
  assert (P : (0 <= fold_right (fun z a => normsq (cminus z m) + a) 0 Z)%Q) by (clear; induction Z as [|z Z IH]; [apply Qle_refl|]; cbn [fold_right]; pose proof (normsq_pos (cminus z m)); lra).
  pose proof (normsq_pos (cminus z m)). constructor.
  - destruct (normsq_zero (cminus z m)) as [A B]; [lra|]. cbn in A, B. split; lra.
  - apply IH. lra.
Qed.
Lemma shortest_equal Z z n : (1 <= n)%nat -> length Z = n -> ceq (csum Z) z ->
  (fold_right (fun z a => normsq z + a) 0 Z <= fold_right (fun z a => normsq z + a) 0 (repeat (cscale (1 / inject_Z (Z.of_nat n)) z) n))%Q ->
  Forall (fun v => ceq (cscale (inject_Z (Z.of_nat n)) v) z) Z.
Proof.
  intros Hn L [S1 S2] H. set (N := inject_Z (Z.of_nat n)) in *. assert (NP : (0 < N)%Q) by (unfold N; change 0%Q with (inject_Z 0); rewrite <- Zlt_Qlt; lia).
  set (m := cscale (1 / N) z) in *.
  assert (R : forall k w, (fold_right (fun z a => normsq z + a) 0 (repeat w k) == inject_Z (Z.of_nat k) * normsq w)%Q).
  { clear. induction k as [|k IH]; intros w; [cbn; ring|]. cbn [repeat fold_right]. rewrite IH, Nat2Z.inj_succ, <- Z.add_1_l, inject_Z_plus. change (inject_Z 1) with 1%Q. ring. }
  assert (M1 : (N * re m == re z)%Q) by (unfold m; cbn [cscale re]; field; intros E; rewrite E in NP; lra).
  assert (M2 : (N * im m == im z)%Q) by (unfold m; cbn [cscale im]; field; intros E; rewrite E in NP; lra).
  assert (C : Forall (fun v => ceq v m) Z).
  { apply all_close. rewrite sum_dist, L. fold N. rewrite S1, S2, <- M1, <- M2. rewrite R in H. fold N in H. unfold normsq in *. lra. }
  eapply Forall_impl; [|exact C]. intros v [A B]. split; cbn [cscale re im]; [rewrite A; exact M1|rewrite B; exact M2].
Qed.
Definition spread (n : nat) (irow : list cq) : list cq := match irow with [x] => repeat x n | _ => irow end.
Definition spread_data (n : nat) (g : gathered cq) : gathered cq :=
  mkGathered (g_out g) (mkComb (cb_chans (g_in g)) (cb_eval_freqs (g_in g)) (cb_n_evals (g_in g)) (cb_meas (g_in g))
    (map (fun kv => (fst kv, map (spread n) (snd kv))) (cb_data (g_in g)))) (g_cross g).
Lemma dict_get_map {B C} (f : B -> C) k d x : dict_get k d = Ok x -> dict_get k (map (fun kv => (fst kv, f (snd kv))) d) = Ok (f x).
Proof.
  unfold dict_get. induction d as [|[j v] d IH]; [discriminate|]. cbn [map find fst snd]. destruct (Z.eqb j k); [intros H; injection H as <-; reflexivity|exact IH].
Qed.
Lemma spread_one n irow : length irow = 1%nat -> bcast n irow = Ok (spread n irow) /\ exists x, irow = [x] /\ spread n irow = repeat x n.
Proof.
  destruct irow as [|x [|y irow]]; try discriminate. intros _. split; [|exists x; split; reflexivity]. unfold bcast, spread. cbn [length].
  destruct (Nat.eqb_spec 1 n) as [<-|]; reflexivity.
Qed.
Lemma get_solution_trunc tf freqs tensors : length (tf_in tf) = 1%nat ->
  get_solution tf freqs tensors = get_solution tf freqs (map (map (firstn 1)) tensors).
Proof.
  intros L. unfold get_solution. f_equal.
  assert (G : forall pairs, (forall p, In p pairs -> fst (snd p) = 0%nat) -> forall d, set_components tensors pairs d = set_components (map (map (firstn 1)) tensors) pairs d).
  { induction pairs as [|[[o oc] [i ic]] pairs IH]; intros H d; [reflexivity|]. cbn [set_components]. pose proof (H _ (or_introl eq_refl)) as E. cbn in E. subst i.
    assert (C : column tensors o 0 = column (map (map (firstn 1)) tensors) o 0).
    { unfold column. rewrite mapM_map. apply mapM_ext_in. intros t _. unfold nth_res. rewrite nth_error_map. destruct (nth_error t o) as [row|]; [|reflexivity]. cbn [option_map bind].
      destruct row; reflexivity. }
    rewrite <- C. destruct (column tensors o 0) as [v|]; [|reflexivity]. cbn [bind]. apply IH. intros p K. apply H. right. exact K. }
  apply G. intros [[o oc] [i ic]] K. apply in_prod_iff in K. destruct K as [_ K]. destruct (tf_in tf) as [|x [|y l]]; try discriminate L. cbn in K. destruct K as [K|[]]. injection K as <- <-. reflexivity.
Qed.

Lemma single_input junk1 junk2 fit t g n i s Zt : junk_shape junk1 junk2 -> shortest_solution fit ->
  t_in t = [i] -> (1 <= n)%nat -> t_n_in t = Z.of_nat n -> t_n_out t = Z.of_nat (length (t_out t)) -> t_n_cross t = Z.of_nat (length (t_cross t)) ->
  NoDup (t_out t) -> keys_distinct (channels t) -> good_gathered (channels t) g ->
  (forall k, (k < length (cb_eval_freqs (g_out g)))%nat -> length (Zt k) = length (t_out t)) ->
  (forall k outs ins crosses, (k < length (cb_eval_freqs (g_out g)))%nat -> freq_data g k outs ins crosses ->
     generated_by (map (fun z => [z]) (Zt k)) outs ins /\ determined 1 ins crosses) ->
  regression_n fit ctimes junk1 junk2 t g = Ok s ->
  forall k o oc z, (k < length (cb_eval_freqs (g_out g)))%nat -> nth_error (t_out t) o = Some oc -> nth_error (Zt k) o = Some z ->
    exists comp v, get_component s (component_key oc i) = Ok comp /\ nth_error comp k = Some v /\ ceq (cscale (inject_Z (Z.of_nat n)) v) z.
Proof.
  intros J SS Ti Hn Hi Ho Hc ND KD GG LZ HG H.
  set (tf' := mkTf (t_out t) (repeat i n) (t_cross t)). set (g' := spread_data n g).
  assert (FD : forall k outs ins crosses, freq_data g k outs ins crosses -> freq_data g' k outs (map (spread n) ins) crosses).
  { intros k outs ins crosses (A & B & C). split; [exact A|]. split; [|exact C]. unfold g', spread_data. cbn [g_in cb_data]. apply (dict_get_map (map (spread n))). exact B. }
  assert (W1 : forall k outs ins crosses, (k < length (cb_eval_freqs (g_out g)))%nat -> freq_data g k outs ins crosses ->
     length ins = length outs /\ length crosses = length outs /\ wide (length (t_out t)) outs /\ wide 1 ins /\ wide (length (t_cross t)) crosses).
  { intros k outs ins crosses Hk F. destruct (GG k Hk) as (outs' & ins' & crosses' & F' & L1 & L2 & A & B & C).
    destruct F as (D1 & D2 & D3), F' as (E1 & E2 & E3). assert (outs' = outs) as -> by congruence. assert (ins' = ins) as -> by congruence. assert (crosses' = crosses) as -> by congruence.
    cbn [channels tf_in tf_out tf_cross] in A, B, C. rewrite Ti in B. split; [exact L1|]. split; [exact L2|]. split; [exact A|]. split; [exact B|exact C]. }
  assert (GG' : good_gathered tf' g').
  { intros k Hk. change (cb_eval_freqs (g_out g')) with (cb_eval_freqs (g_out g)) in Hk. destruct (GG k Hk) as (outs & ins & crosses & F & _).
    destruct (W1 k outs ins crosses Hk F) as (L1 & L2 & A & B & C). exists outs, (map (spread n) ins), crosses. split; [apply FD; exact F|]. rewrite map_length. split; [exact L1|]. split; [exact L2|]. split; [exact A|].
    split; [|exact C]. intros row K. apply in_map_iff in K. destruct K as (ir & <- & K). destruct (spread_one n ir (B ir K)) as (_ & x & _ & ->). cbn [tf' tf_in]. rewrite !repeat_length. reflexivity. }
  destruct (c50_prepare ctimes junk1 junk2 J tf' g' GG' ND) as (r & Hr & HF & HT & HI). change (cb_eval_freqs (g_out g')) with (cb_eval_freqs (g_out g)) in HF.
  unfold regression_n in H. rewrite (prepare_n_eq ctimes junk1 junk2 t n (repeat i n) (spread n) g g' Hc Hi (repeat_length _ _) eq_refl) in H.
  2:{ intros k Hk. destruct (GG k Hk) as (outs & ins & crosses & F & _). destruct (W1 k outs ins crosses Hk F) as (L1 & L2 & A & B & C). exists outs, ins, crosses.
      split; [exact F|]. split; [apply FD; exact F|]. split; [exact L1|]. split; [exact L2|]. split; [exact C|]. intros irow K. exact (proj1 (spread_one n irow (B irow K))). }
  fold tf' in H. rewrite Hr in H. cbn [bind] in H. set (r2 := mkReg (channels t) (ri_freqs r) (ri_obs r) (ri_preds r)) in H.
  assert (GI : forall k c, get_inputs r2 k c = get_inputs r k c) by reflexivity.
  unfold solve_n in H. rewrite Ho, Hi, !axis_nat in H. cbn [bind] in H. apply bind_ok in H. destruct H as (tensors & HM & H).
  change (ri_freqs r2) with (ri_freqs r) in HM, H.
  (* one frequency and output *)
  assert (ROW : forall k o oc z row, (k < length (ri_freqs r))%nat -> nth_error (t_out t) o = Some oc -> nth_error (Zt k) o = Some z ->
     (x <- get_inputs r2 k oc ;; coef <- fit (snd x) (fst x) ;; v <- get_tensor_n t coef ;; if Nat.ltb o (length (t_out t)) then Ok v else Err IndexError) = Ok row ->
     length row = n /\ Forall (fun v => ceq (cscale (inject_Z (Z.of_nat n)) v) z) row).
  { intros k o oc z row Hk Hoc Hz E. pose proof Hk as Hk'. rewrite HF in Hk'. destruct (GG k Hk') as (outs & ins & crosses & F & _). destruct (W1 k outs ins crosses Hk' F) as (L1 & L2 & A & B & C).
    destruct (HI k outs (map (spread n) ins) crosses o oc Hk (FD _ _ _ _ F) Hoc) as (obs & preds & Eg & Lp & Lo & Eq).
    rewrite GI, Eg in E. cbn [bind fst snd] in E. apply bind_ok in E. destruct E as (coef & Ef & E). apply bind_ok in E. destruct E as (v & Ev & E).
    destruct (Nat.ltb o (length (t_out t))) in E; [|discriminate E]. injection E as ->.
    cbn [tf' tf_in] in Lp, Eq. rewrite repeat_length in Lp, Eq. destruct (SS preds obs coef (2 * n)%nat Ef Lp Lo) as [Lc Sc]. destruct (Eq coef Lc) as (Z & GZ & LZ' & IZ & IF).
    assert (v0 : row = Z).
    { unfold get_tensor_n in Ev. rewrite Hi, axis_nat in Ev. cbn [bind] in Ev. unfold get_tensor in GZ. cbn [tf' tf_in] in GZ. rewrite repeat_length in GZ. congruence. }
    subst row. split; [exact LZ'|].
    destruct (HG k outs ins crosses Hk' F) as [GB DT].
    assert (SYS : forall Y, length Y = n -> complex_system ctimes Y o outs (map (spread n) ins) crosses <-> ceq (csum Y) z).
    { intros Y LY. split.
      - intros CS. assert (CS1 : complex_system ctimes [csum Y] o outs ins crosses).
        { intros w orow irow crow q c A1 A2 A3 A4 A5. destruct (spread_one n irow (B irow (nth_error_In _ _ A2))) as (_ & x & -> & Sx).
          specialize (CS w orow (spread n [x]) crow q c A1). rewrite nth_error_map, A2 in CS. specialize (CS eq_refl A3 A4 A5). rewrite <- CS, Sx, (cdot_scale Y). rewrite <- LY, cdot_repeat. split; cbn; ring. }
        assert (CS2 : complex_system ctimes [z] o outs ins crosses) by (apply (generated_system (map (fun z => [z]) (Zt k)) outs ins crosses o [z] GB L1); rewrite nth_error_map, Hz; reflexivity).
        assert (U : Forall2 ceq [csum Y] [z]).
        { apply (system_unique 1 o outs ins crosses); try reflexivity; try assumption. intros orow K. rewrite (A orow K). apply nth_error_Some. congruence. }
        inversion U; subst. assumption.
      - intros E w orow irow crow q c A1 A2 A3 A4 A5. rewrite nth_error_map in A2. destruct (nth_error ins w) as [ir|] eqn:Ei; [|discriminate A2]. injection A2 as <-.
        destruct (spread_one n ir (B ir (nth_error_In _ _ Ei))) as (_ & x & -> & Sx). rewrite Sx, (cdot_scale Y), <- LY, cdot_repeat, E.
        assert (CS2 : complex_system ctimes [z] o outs ins crosses) by (apply (generated_system (map (fun z => [z]) (Zt k)) outs ins crosses o [z] GB L1); rewrite nth_error_map, Hz; reflexivity).
        rewrite <- (CS2 w orow [x] crow q c A1 Ei A3 A4 A5). split; cbn; ring. }
    set (m := cscale (1 / inject_Z (Z.of_nat n)) z).
    assert (NP : ~ (inject_Z (Z.of_nat n) == 0)%Q) by (change 0%Q with (inject_Z 0); rewrite inject_Z_injective; lia).
    assert (SM : ceq (csum (repeat m n)) z). { rewrite csum_repeat. unfold m. split; cbn [cscale re im]; field; exact NP. }
    assert (YS : real_system preds (interleaved (repeat m n)) obs).
    { destruct (Eq (interleaved (repeat m n))) as (Y & GY & LY & IY & IFY); [rewrite interleaved_length, repeat_length; reflexivity|]. apply IFY.
      assert (Y = repeat m n) as ->. { unfold get_tensor in GY. assert (G2 : get_tensor tf' (interleaved (repeat m n)) = Ok (repeat m n)) by (apply get_tensor_interleaved; cbn [tf' tf_in]; rewrite !repeat_length; reflexivity). unfold get_tensor in G2. congruence. }
      apply SYS; [apply repeat_length|exact SM]. }
    destruct Sc as [Sc1 Sc2]; [exists (interleaved (repeat m n)); split; [rewrite interleaved_length, repeat_length; reflexivity|exact YS]|].
    apply (shortest_equal Z z n Hn LZ').
    - apply SYS; [exact LZ'|]. apply IF. exact Sc1.
    - specialize (Sc2 (interleaved (repeat m n))). rewrite <- IZ, !dot_interleaved in Sc2. apply Sc2; [rewrite interleaved_length, repeat_length; reflexivity|exact YS]. }
  assert (TK : forall k, (k < length (ri_freqs r))%nat -> exists tt, nth_error tensors k = Some tt /\
     mapM (fun c : nat * chan => x <- get_inputs r2 k (snd c) ;; coef <- fit (snd x) (fst x) ;; v <- get_tensor_n t coef ;; if Nat.ltb (fst c) (length (t_out t)) then Ok v else Err IndexError) (enum (t_out t)) = Ok tt).
  { intros k Hk. assert (N : nth_error (seq 0 (length (ri_freqs r))) k = Some k).
    { rewrite (nth_error_nth' _ 0%nat) by (rewrite seq_length; lia). rewrite seq_nth by lia. reflexivity. }
    exact (mapM_nth _ _ _ _ _ HM N). }
  assert (LT : length tensors = length (ri_freqs r)) by (apply mapM_length in HM; rewrite seq_length in HM; exact HM).
  assert (RR : forall k tt o row, nth_error tensors k = Some tt -> nth_error tt o = Some row -> exists oc z, nth_error (t_out t) o = Some oc /\ nth_error (Zt k) o = Some z /\
     length row = n /\ Forall (fun v => ceq (cscale (inject_Z (Z.of_nat n)) v) z) row).
  { intros k tt o row Hk Hrow. assert (Lk : (k < length (ri_freqs r))%nat) by (rewrite <- LT; apply nth_error_Some; congruence).
    destruct (TK k Lk) as (t2 & E2 & M). rewrite Hk in E2. injection E2 as <-. apply mapM_ok in M. destruct (Forall2_nth_error_r _ _ _ _ _ M Hrow) as ([o2 oc] & K & E).
    pose proof (enum_in _ _ _ (nth_error_In _ _ K)) as Q. assert (o2 = o) as ->.
    { assert (X : (o < length (enum (t_out t)))%nat) by (apply nth_error_Some; rewrite K; discriminate). rewrite enum_length in X.
      destruct (nth_error (t_out t) o) as [c'|] eqn:Ec; [|apply nth_error_None in Ec; lia]. pose proof (enum_nth _ _ _ Ec) as En. congruence. }
    cbn [fst snd] in E. destruct (nth_error (Zt k) o) as [z|] eqn:Ez.
    - exists oc, z. split; [exact Q|]. split; [reflexivity|]. exact (ROW k o oc z row Lk Q Ez E).
    - apply nth_error_None in Ez. rewrite HF in Lk. rewrite (LZ k Lk) in Ez. assert (o < length (t_out t))%nat by (apply nth_error_Some; congruence). lia. }
  rewrite get_solution_trunc in H by (cbn; rewrite Ti; reflexivity).
  assert (TS : tensor_shape (channels t) (length (ri_freqs r)) (map (map (firstn 1)) tensors)).
  { split; [rewrite map_length; exact LT|]. intros t1 K. apply in_map_iff in K. destruct K as (tt & <- & K). apply In_nth_error in K. destruct K as [k K].
    assert (Lk : (k < length (ri_freqs r))%nat) by (rewrite <- LT; apply nth_error_Some; congruence). split.
    - rewrite map_length. destruct (TK k Lk) as (t2 & E2 & M). rewrite K in E2. injection E2 as <-. apply mapM_length in M. rewrite enum_length in M. exact M.
    - intros row Kr. apply in_map_iff in Kr. destruct Kr as (row2 & <- & Kr). apply In_nth_error in Kr. destruct Kr as [o Kr]. destruct (RR k tt o row2 K Kr) as (oc & z & _ & _ & L & _).
      rewrite firstn_length, L. cbn [channels tf_in]. rewrite Ti. cbn [length]. lia. }
  assert (NDi : NoDup (tf_in (channels t))) by (cbn; rewrite Ti; constructor; [intros []|constructor]).
  destruct (c52 (channels t) (ri_freqs r) _ TS ND NDi KD) as (s' & Es & _ & _ & _ & HC). assert (s' = s) as -> by congruence.
  intros k o oc z Hk Hoc Hz. destruct (HC o 0%nat oc i Hoc) as (comp & G1 & _ & G2); [cbn; rewrite Ti; reflexivity|]. rewrite HF in G2. destruct (G2 k Hk) as (v & N1 & N2).
  exists comp, v. split; [exact G1|]. split; [exact N1|]. unfold entry3 in N2. rewrite nth_error_map in N2. destruct (nth_error tensors k) as [tt|] eqn:Et; [|discriminate N2]. cbn [option_map] in N2.
  rewrite nth_error_map in N2. destruct (nth_error tt o) as [row|] eqn:Er; [|discriminate N2]. cbn [option_map] in N2.
  destruct (RR k tt o row Et Er) as (oc2 & z2 & _ & Q2 & L & FA). assert (z2 = z) as -> by congruence. destruct row as [|v0 row]; [discriminate N2|]. cbn in N2. injection N2 as ->.
  inversion FA; subst. assumption.
Qed.
