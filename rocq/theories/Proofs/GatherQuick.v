(** C49: quick gathering *)
From Coq Require Import String Ascii Sorted Permutation.
From Verif Require Import Base.Prelude Base.ListUtil Base.NdArray
  Model.Sampling Model.Time Model.Decimate Model.Window Model.Spectra Model.Calibrate Model.Gather Spec.Calibrate Spec.Gather
  Proofs.Sampling Proofs.TimeMeta Proofs.Spectra Proofs.Calibrate Proofs.CalibrateFinal Base.SortNames Proofs.Gather Proofs.GatherData Proofs.GatherFinal.
Open Scope list_scope. Open Scope Z_scope.

Lemma find_dict {B} k (l : list (Z * B)) v : dict_get k l = Ok v <-> find (fun kv => Z.eqb (fst kv) k) l = Some (k, v).
Proof.
  unfold dict_get. destruct (find (fun kv : Z * B => fst kv =? k) l) as [[j x]|] eqn:E.
  - pose proof (find_some _ _ E) as [_ K]. cbn in K. apply Z.eqb_eq in K. subst j. split; intros H; congruence.
  - split; discriminate.
Qed.
Lemma dict_get_app {B} k (l l' : list (Z * B)) : dict_get k (l ++ l') = match dict_get k l with Ok v => Ok v | Err _ => dict_get k l' end.
Proof.
  unfold dict_get. induction l as [|[j x] t IH]; [reflexivity|]. cbn [app find fst]. destruct (j =? k); [reflexivity|exact IH].
Qed.
Lemma dict_get_set {B} k j (v : B) l : dict_get j (dict_set k v l) = if j =? k then Ok v else dict_get j l.
Proof.
  unfold dict_set. destruct (existsb (fun kv => Z.eqb (fst kv) k) l) eqn:E.
  - apply dict_get_upd. apply existsb_exists in E. destruct E as ([k' y] & Hin & E). cbn in E. apply Z.eqb_eq in E. subst k'.
    unfold dict_get. destruct (find (fun kv : Z * B => fst kv =? k) l) as [[a b]|] eqn:F; [eauto|].
    exfalso. apply (find_none _ _ F) in Hin. cbn in Hin. rewrite Z.eqb_refl in Hin. discriminate.
  - rewrite dict_get_app. destruct (Z.eqb_spec j k) as [->|Hn].
    + assert (dict_get k l = Err KeyError) as ->.
      { unfold dict_get. destruct (find (fun kv : Z * B => fst kv =? k) l) as [[a b]|] eqn:F; [|reflexivity].
        pose proof (find_some _ _ F) as [F1 F2]. assert (existsb (fun kv : Z * B => fst kv =? k) l = true) by (apply existsb_exists; eauto). congruence. }
      unfold dict_get. cbn. rewrite Z.eqb_refl. reflexivity.
    + destruct (dict_get j l) as [v'|e] eqn:D; [reflexivity|]. unfold dict_get in *. cbn. destruct (Z.eqb_spec k j); [congruence|].
      destruct (find _ l) as [[? ?]|]; [discriminate|]. congruence.
Qed.

Lemma sorted_unique_z (l l' : list Z) : StronglySorted Z.lt l -> StronglySorted Z.lt l' -> (forall x, In x l <-> In x l') -> l = l'.
Proof.
  revert l'. induction l as [|x t IH]; intros l' S S' H.
  - destruct l' as [|y l']; [reflexivity|]. exfalso. apply (H y). left. reflexivity.
  - destruct l' as [|y t']; [exfalso; apply (H x); left; reflexivity|].
    inversion S as [|? ? S1 F1]; inversion S' as [|? ? S2 F2]; subst. rewrite Forall_forall in F1, F2.
    assert (x = y).
    { destruct (proj1 (H x) (or_introl eq_refl)) as [E|E]; [congruence|]. destruct (proj2 (H y) (or_introl eq_refl)) as [E'|E']; [congruence|].
      specialize (F1 _ E'). specialize (F2 _ E). lia. }
    subst y. f_equal. apply IH; auto. intros z. specialize (H z). cbn in H. split; intros K.
    + destruct (proj1 H (or_intror K)) as [<-|]; [specialize (F1 _ K); lia|assumption].
    + destruct (proj2 H (or_intror K)) as [<-|]; [specialize (F2 _ K); lia|assumption].
Qed.

Section Quick.
  Context {A : Type}.

  Lemma Forall2_fun {B C} (R : B -> C -> Prop) l r r' : (forall x y y', R x y -> R x y' -> y = y') -> Forall2 R l r -> Forall2 R l r' -> r = r'.
  Proof.
    intros H F. revert r'. induction F as [|x y l r E F IH]; intros r' F'; inversion F'; subst; [reflexivity|]. f_equal; [eapply H; eassumption|apply IH; assumption].
  Qed.
  Lemma nd3_inj (x y : list (list (list A))) : nd3 x = nd3 y -> x = y.
  Proof.
    assert (I1 : forall a b : list A, nd1 a = nd1 b -> a = b).
    { intros a b H. unfold nd1 in H. injection H as H. revert b H. induction a as [|p a IH]; intros [|q b] H; try discriminate; [reflexivity|].
      cbn in H. injection H as -> H. f_equal. apply IH. exact H. }
    assert (I2 : forall a b : list (list A), nd2 a = nd2 b -> a = b).
    { intros a b H. unfold nd2 in H. assert (map nd1 a = map nd1 b) by congruence. clear H. revert b H0. induction a as [|p a IH]; intros [|q b] H; try discriminate; [reflexivity|].
      cbn [map] in H. f_equal; [apply I1; congruence|apply IH; congruence]. }
    intros H. unfold nd3 in H. assert (map nd2 x = map nd2 y) by congruence. clear H. revert y H0. induction x as [|p a IH]; intros [|q b] H; try discriminate; [reflexivity|].
    cbn [map] in H. f_equal; [apply I2; congruence|apply IH; congruence].
  Qed.
  Lemma window_row_fun (d : spec_data A) chans l w f r r' : window_row d chans l w f r -> window_row d chans l w f r' -> r = r'.
  Proof.
    intros (x & Hx & F) (x' & Hx' & F'). assert (x' = x) as -> by (apply nd3_inj; congruence).
    revert F'. apply Forall2_fun; [|exact F]. intros c z z' (i & I1 & I2 & I3) (j & J1 & J2 & J3).
    assert (i = j); [|subst; congruence]. destruct (Nat.lt_trichotomy i j) as [L|[L|L]]; [exfalso; apply (J2 i L); exact I1|exact L|exfalso; apply (I2 j L); exact J1].
  Qed.

  (** the rows of all windows of a level *)
  Definition all_rows (d : spec_data A) (chans : list chan) (l f : Z) (rows : list (list A)) : Prop :=
    exists m, nth_error (sm_levels (sd_md d)) (Z.to_nat l) = Some m /\ Z.of_nat (length rows) = sl_n_wins m /\
      forall w row, nth_error rows w = Some row -> window_row d chans l (Z.of_nat w) f row.

  Lemma nd_last_at_nd3 f (y : list (list (list A))) k : 0 <= f -> y <> [] -> (0 < k)%nat -> (forall win, In win y -> length win = k) ->
    (forall w, (w < length y)%nat -> exists row, row_at (nd3 y) (Z.of_nat w) f = Ok row) ->
    exists rows, nd_last_at f (nd3 y) = Ok (nd2 rows) /\ length rows = length y /\
      forall w row, nth_error rows w = Some row -> row_at (nd3 y) (Z.of_nat w) f = Ok row.
  Proof.
    intros Hf Hy Hk LW H.
    assert (EQ : nd_last_at f (nd3 y) = (r <- mapM (nd_last_at f) (map nd2 y) ;; Ok (Ax r))) by (apply nd_last_at_ax; destruct y; [congruence|reflexivity]).
    rewrite EQ.
    assert (RA : forall w, row_at (nd3 y) (Z.of_nat w) f = match nth_error y w with None => Err IndexError | Some win => 
               z <- nd_last_at f (nd2 win) ;; match z with Ax l => match scalars l with Some v => Ok v | None => Err ValueError end | Sc _ => Err ValueError end end).
    { intros w. unfold row_at, nd3. rewrite py_nth_nat by lia. rewrite Nat2Z.id, nth_error_map. destruct (nth_error y w); reflexivity. }
    assert (M : exists rows, mapM (nd_last_at f) (map nd2 y) = Ok (map nd1 rows) /\ length rows = length y /\ forall w row, nth_error rows w = Some row ->
       (exists win, nth_error y w = Some win /\ nd_last_at f (nd2 win) = Ok (nd1 row))).
    { assert (H' : forall w win, nth_error y w = Some win -> exists row, nd_last_at f (nd2 win) = Ok (nd1 row)).
      { intros w win Hw. destruct (H w) as [row Hr]; [apply nth_error_Some; congruence|]. rewrite RA, Hw in Hr. apply bind_ok in Hr. destruct Hr as (z & Hz & Hr).
        destruct z as [|l]; [discriminate|]. destruct (scalars l) as [v|] eqn:E; [|discriminate]. apply scalars_some in E. subst l. exists v. exact Hz. }
      clear - H'. induction y as [|win y IH]; [exists []; split; [reflexivity|]; split; [reflexivity|]; intros [|w] row; discriminate|].
      destruct (H' 0%nat win eq_refl) as [row0 E0]. destruct IH as (rows & E & L & N); [intros w win' Hw; apply (H' (S w) win' Hw)|].
      exists (row0 :: rows). cbn [map mapM]. rewrite E0, E. split; [reflexivity|]. split; [cbn; congruence|].
      intros [|w] row Hw; cbn in Hw; [injection Hw as <-; exists win; split; [reflexivity|exact E0]|]. cbn. apply N. exact Hw. }
    destruct M as (rows & M & L & N). exists rows. split; [rewrite M; reflexivity|]. split; [exact L|].
    intros w row Hw. destruct (N w row Hw) as (win & W1 & W2). rewrite RA, W1, W2. cbn [bind]. unfold nd1. rewrite scalars_map. reflexivity.
  Qed.
  Lemma as_rows_nd2 (rows : list (list A)) : as_rows (nd2 rows) = Ok rows.
  Proof.
    unfold as_rows, nd2. rewrite mapM_map. rewrite (mapM_eq _ (fun x => x)); [rewrite map_id; reflexivity|].
    intros r _. unfold nd1. rewrite scalars_map. reflexivity.
  Qed.

  Lemma quick_freqs_ok P l (x : nd A) (R : Z -> list (list A) -> Prop) :
    0 <= P -> forall ifreqs data, (forall f, In f ifreqs -> 0 <= f < P /\ exists y rows, nd_last_at f x = Ok y /\ as_rows y = Ok rows /\ R f rows) ->
    exists data', quick_freqs P l x ifreqs data = Ok data' /\
      (forall f, In f ifreqs -> exists rows, dict_get (P * l + f) data' = Ok rows /\ R f rows) /\
      (forall k, (forall f, In f ifreqs -> k <> P * l + f) -> dict_get k data' = dict_get k data).
  Proof.
    intros HP. induction ifreqs as [|f rest IH]; intros data H.
    - exists data. split; [reflexivity|]. split; [intros ? []|reflexivity].
    - destruct (H f (or_introl eq_refl)) as (Hf & y & rows & Ey & Er & HR).
      destruct (IH (dict_set (P * l + f) rows data) (fun f' K => H f' (or_intror K))) as (data' & E & S1 & S2).
      exists data'. split; [cbn [quick_freqs]; rewrite Ey; cbn [bind]; rewrite Er; cbn [bind]; exact E|]. split.
      + intros f' Hf'. destruct (in_dec Z.eq_dec f' rest) as [K|K]; [apply S1; exact K|]. destruct Hf' as [<-|Hf']; [|contradiction].
        exists rows. split; [|exact HR]. rewrite S2 by (intros f' K' E'; apply K; replace f with f' by lia; exact K'). rewrite dict_get_set, Z.eqb_refl. reflexivity.
      + intros k K. rewrite S2 by (intros f' K'; apply K; right; exact K'). rewrite dict_get_set. destruct (Z.eqb_spec k (P * l + f)) as [E'|]; [|reflexivity].
        exfalso. apply (K f (or_introl eq_refl)). exact E'.
  Qed.

  Lemma quick_levels_ok P (d : spec_data A) chans : 0 <= P -> good_evals P d -> quick_shape P d -> chans <> [] -> incl chans (sm_chans (sd_md d)) ->
    forall levels data, (forall l, In l levels -> 0 <= l < sm_n_levels (sd_md d)) ->
    exists data', quick_levels P d chans levels data = Ok data' /\
      (forall l f, In l levels -> 0 <= f < P -> exists rows, dict_get (P * l + f) data' = Ok rows /\ all_rows d chans l f rows) /\
      (forall l f, ~ In l levels -> 0 <= f < P -> dict_get (P * l + f) data' = dict_get (P * l + f) data).
  Proof.
    intros HP GE QS Hc Hi. induction levels as [|l rest IH]; intros data Hl.
    - exists data. split; [reflexivity|]. split; [intros ? ? []|reflexivity].
    - pose proof (Hl l (or_introl eq_refl)) as Hl0. destruct (level_rows P d chans l GE Hc Hi Hl0) as (m & y & Hm & Hmd & Hy & Ly & LW & Hrow).
      destruct (QS l m Hl0 Hm) as [Hnf Hnw].
      destruct (quick_freqs_ok P l (nd3 y) (all_rows d chans l) HP (arange (sl_n_freqs m)) data) as (data1 & E1 & S1 & S2).
      { intros f Hf. apply arange_in in Hf. split; [lia|].
        destruct (nd_last_at_nd3 f y (length chans)) as (rows & Er & Lr & Nr).
        - lia.
        - intros ->. cbn in Ly. lia.
        - destruct chans; [congruence|cbn; lia].
        - exact LW.
        - intros w Hw. destruct (Hrow (Z.of_nat w) f) as (row & Hr & _); [lia|lia|]. eauto.
        - exists (nd2 rows), rows. split; [exact Er|]. split; [apply as_rows_nd2|]. exists m. split; [exact Hm|]. split; [congruence|].
          intros w row Hw. specialize (Nr w row Hw). assert ((w < length rows)%nat) by (apply nth_error_Some; congruence).
          destruct (Hrow (Z.of_nat w) f) as (row' & Hr & W); [lia|lia|]. rewrite Nr in Hr. injection Hr as <-. exact W. }
      destruct (IH data1 (fun l' K => Hl l' (or_intror K))) as (data' & E' & T1 & T2).
      assert (KI : forall l1 f1 l2 f2, 0 <= f1 < P -> 0 <= f2 < P -> P * l1 + f1 = P * l2 + f2 -> l1 = l2 /\ f1 = f2).
      { intros l1 f1 l2 f2 H1 H2 E. assert (l1 = l2); [|subst; lia]. destruct (Z.lt_trichotomy l1 l2) as [L|[L|L]]; [nia|exact L|nia]. }
      exists data'. split; [cbn [quick_levels]; rewrite Hmd; cbn [bind]; rewrite Hy; cbn [bind]; rewrite E1; cbn [bind]; exact E'|]. split.
      + intros l' f Hl' Hf. destruct (in_dec Z.eq_dec l' rest) as [K|K]; [apply T1; assumption|]. destruct Hl' as [<-|Hl']; [|contradiction].
        rewrite T2 by assumption. apply S1. apply arange_in. lia.
      + intros l' f Hl' Hf. rewrite T2 by (try assumption; intros K; apply Hl'; right; exact K).
        apply S2. intros f' Hf' E. apply arange_in in Hf'. destruct (KI l' f l f' Hf ltac:(lia) E) as [-> _]. apply Hl'. left. reflexivity.
  Qed.

  Definition quick_side (P : Z) (d : spec_data A) (chans : list chan) (data : list (Z * list (list A))) : Prop :=
    forall l f, 0 <= l < sm_n_levels (sd_md d) -> 0 <= f < P -> exists rows, dict_get (P * l + f) data = Ok rows /\ all_rows d chans l f rows.
  Lemma quick_combined_ok meas p (d : spec_data A) chans : 0 <= dp_per_level p -> good_evals (dp_per_level p) d -> quick_shape (dp_per_level p) d -> chans <> [] ->
    incl chans (sm_chans (sd_md d)) ->
    exists cb, quick_combined meas p d chans = Ok cb /\ quick_side (dp_per_level p) d chans (cb_data cb) /\ cb_chans cb = chans /\
      cb_eval_freqs cb = concat (map sl_freqs (sm_levels (sd_md d))).
  Proof.
    intros HP GE QS Hc Hi.
    destruct (quick_levels_ok (dp_per_level p) d chans HP GE QS Hc Hi (arange (sm_n_levels (sd_md d))) []) as (data & E & S1 & _).
    { intros l Hl. apply arange_in in Hl. exact Hl. }
    destruct GE as (_ & HL & _). unfold levels_ok in HL.
    assert (M : mapM (sd_level_md d) (arange (sm_n_levels (sd_md d))) = Ok (sm_levels (sd_md d))).
    { apply mapM_ok. assert (G : forall k (ms : list spec_level) , (forall i m, nth_error ms i = Some m -> nth_error (sm_levels (sd_md d)) (k + i) = Some m) ->
        Forall2 (fun x y => sd_level_md d x = Ok y) (map Z.of_nat (seq k (length ms))) ms).
      { intros k ms. revert k. induction ms as [|m ms IH]; intros k H; cbn [length seq map]; constructor.
        - unfold sd_level_md. rewrite py_nth_nat by lia. rewrite Nat2Z.id. specialize (H 0%nat m eq_refl). rewrite Nat.add_0_r in H. rewrite H. reflexivity.
        - apply IH. intros i m' Hm. specialize (H (S i) m' Hm). rewrite Nat.add_succ_r in H. exact H. }
      unfold arange. replace (Z.to_nat (sm_n_levels (sd_md d))) with (length (sm_levels (sd_md d))) by lia. apply G. intros i m Hm. exact Hm. }
    eexists. split; [unfold quick_combined; rewrite E; cbn [bind]; rewrite M; cbn [bind]; reflexivity|].
    cbn [cb_data cb_chans cb_eval_freqs]. split; [|split; reflexivity]. intros l f Hl Hf. apply S1; [apply arange_in; exact Hl|exact Hf].
  Qed.

  (** the table of a single measurement lists its windows in order *)
  Lemma single_table (proj : project A) site_name meas fs d p s level m : selector_run proj [site_name] p = Ok s ->
    find (fun x => String.eqb (fst x) site_name) proj = Some (site_name, [(meas, (fs, Ok d))]) -> Qeq_bool fs (dp_fs p) = true ->
    0 <= level < sel_n_levels s -> nth_error (sm_levels (sd_md d)) (Z.to_nat level) = Some m -> level < sm_n_levels (sd_md d) -> 0 <= sl_n_wins m ->
    exists t, sel_table s level = Ok t /\ Z.of_nat (length t) = sl_n_wins m /\
      forall r, (r < length t)%nat -> nth_error t r = Some (sl_offset m + Z.of_nat r, [meas]).
  Proof.
    intros H Hst HQ Hl Hm HL Hnw. destruct (c47 _ _ _ _ _ H) as (Hsites & HND & Hp & _ & Htab). destruct (Htab level Hl) as (t & Ht & Hinc & Hrow).
    assert (SS : sel_sites s = [site_name]).
    { unfold selector_run in H. apply bind_ok in H. destruct H as (sw & _ & H). destruct (Z.of_nat (length sw) =? 0); [discriminate|].
      apply bind_ok in H. destruct H as (u & _ & H). injection H as <-. reflexivity. }
    rewrite SS in Hrow.
    assert (IN : forall g nm, In (g, nm) t <-> nm = [meas] /\ sl_offset m <= g < sl_offset m + sl_n_wins m).
    { intros g nm. rewrite Hrow. split.
      - intros F. inversion F as [|? n ? nm' (ms & (st & E & Ems) & Sup) F']; subst. inversion F'; subst. rewrite Hst in E. injection E as <-.
        cbn [flat_map fst snd app] in Sup. rewrite HQ in Sup. cbn [app] in Sup. destruct Sup as (bf & md & af & Es & (_ & m' & Hm' & Hg) & _).
        destruct bf as [|b bf]; [|destruct bf; discriminate]. injection Es as <- <- <-. split; [reflexivity|]. rewrite Hm in Hm'. injection Hm' as <-. exact Hg.
      - intros (-> & Hg). constructor; [|constructor]. exists [(meas, sd_md d)]. split.
        + exists [(meas, (fs, Ok d))]. split; [exact Hst|]. cbn [flat_map fst snd app]. rewrite HQ. reflexivity.
        + exists [], (sd_md d), []. split; [reflexivity|]. split; [|intros ? ? []]. split; [exact HL|]. exists m. split; [exact Hm|exact Hg]. }
    assert (EQ : map fst t = map (fun k => sl_offset m + k) (arange (sl_n_wins m))).
    { apply sorted_unique_z; [exact Hinc| |].
      - generalize (arange_sorted (sl_n_wins m)). generalize (arange (sl_n_wins m)) as a. induction a as [|z a IH]; intros S; cbn [map]; [constructor|].
        inversion S as [|? ? S1 F1]; subst. constructor; [apply IH; exact S1|]. apply Forall_forall. intros y Hy. apply in_map_iff in Hy. destruct Hy as (u & <- & Hu).
        rewrite Forall_forall in F1. specialize (F1 u Hu). lia.
      - intros g. rewrite !in_map_iff. split.
        + intros ([g' nm] & E & Hg). cbn in E. subst g'. apply IN in Hg. exists (g - sl_offset m). split; [lia|]. apply arange_in. lia.
        + intros (k & <- & Hk). apply arange_in in Hk. exists (sl_offset m + k, [meas]). split; [reflexivity|]. apply IN. split; [reflexivity|lia]. }
    exists t. split; [exact Ht|]. assert (LT : length t = Z.to_nat (sl_n_wins m)).
    { rewrite <- (map_length fst t), EQ, map_length, arange_length. reflexivity. }
    split; [lia|]. intros r Hr. destruct (nth_error t r) as [[g nm]|] eqn:E; [|apply nth_error_None in E; lia].
    pose proof (proj1 (IN g nm) (nth_error_In _ _ E)) as [-> _]. f_equal. f_equal.
    assert (K : nth_error (map fst t) r = Some g) by (rewrite nth_error_map, E; reflexivity).
    rewrite EQ, nth_error_map, arange_nth in K by lia. cbn in K. congruence.
  Qed.

  Lemma same_data (proj : project A) site_name meas fs d p s chans data1 data2 : selector_run proj [site_name] p = Ok s ->
    find (fun x => String.eqb (fst x) site_name) proj = Some (site_name, [(meas, (fs, Ok d))]) -> Qeq_bool fs (dp_fs p) = true ->
    sel_n_levels s = sm_n_levels (sd_md d) -> levels_ok (sd_md d) ->
    gathered_from proj s site_name chans data1 -> quick_side (dp_per_level p) d chans data2 ->
    forall level f, 0 <= level < sm_n_levels (sd_md d) -> 0 <= f < dp_per_level p -> exists rows,
      dict_get (dp_per_level p * level + f) data1 = Ok rows /\ dict_get (dp_per_level p * level + f) data2 = Ok rows.
  Proof.
    intros H Hst HQ HN HL (st & col & Est & Ncol & G) Qs level f Hl Hf.
    destruct (c47 _ _ _ _ _ H) as (_ & _ & Hp & _ & _).
    destruct (Qs level f Hl Hf) as (rows2 & D2 & m & Hm & L2 & R2).
    assert (0 <= sl_n_wins m) by lia.
    destruct (single_table proj site_name meas fs d p s level m H Hst HQ ltac:(lia) Hm (proj2 Hl) H0) as (t & Ht & Lt & Nt).
    destruct (G level f t ltac:(lia) ltac:(rewrite Hp; exact Hf) Ht) as (rows1 & D1 & L1 & R1). rewrite Hp in D1.
    exists rows1. split; [apply find_dict; exact D1|]. assert (rows1 = rows2); [|subst; exact D2].
    apply nth_error_ext'. intros r. destruct (nth_error rows2 r) as [row2|] eqn:E2.
    - assert ((r < length t)%nat) by (assert ((r < length rows2)%nat) by (apply nth_error_Some; congruence); lia).
      destruct (R1 r _ _ (Nt r H1)) as (name & fs' & d' & m' & row1 & P1 & P2 & P3 & P4 & P5 & P6).
      rewrite Hst in Est. injection Est as <-. destruct P2 as [P2|[]]. injection P2 as <- <- <-. rewrite Hm in P3. injection P3 as <-.
      rewrite P5. f_equal. specialize (R2 r row2 E2). replace (sl_offset m + Z.of_nat r - sl_offset m) with (Z.of_nat r) in P6 by lia.
      eapply window_row_fun; eassumption.
    - apply nth_error_None in E2. apply nth_error_None. lia.
  Qed.

  Lemma c49 : forall junk (proj : project A) site_name meas fs d p s tf, (forall k r c, length (junk k r c) = r) ->
    selector_run proj [site_name] p = Ok s ->
    find (fun x => String.eqb (fst x) site_name) proj = Some (site_name, [(meas, (fs, Ok d))]) -> Qeq_bool fs (dp_fs p) = true ->
    1 <= dp_per_level p -> 1 <= sm_n_levels (sd_md d) -> good_evals (dp_per_level p) d -> quick_shape (dp_per_level p) d ->
    (forall l m, nth_error (sm_levels (sd_md d)) (Z.to_nat l) = Some m -> 0 <= l -> level_eval_freqs p l = Ok (sl_freqs m)) ->
    tf_out tf <> [] -> tf_in tf <> [] -> tf_cross tf <> [] ->
    incl (tf_out tf) (sm_chans (sd_md d)) -> incl (tf_in tf) (sm_chans (sd_md d)) -> incl (tf_cross tf) (sm_chans (sd_md d)) ->
    exists g q, project_gather junk proj s tf site_name None None = Ok g /\ quick_gather meas p tf d = Ok q /\
      (forall level f, 0 <= level < sm_n_levels (sd_md d) -> 0 <= f < dp_per_level p -> let key := dp_per_level p * level + f in
        (exists rows, dict_get key (cb_data (g_out g)) = Ok rows /\ dict_get key (cb_data (g_out q)) = Ok rows) /\
        (exists rows, dict_get key (cb_data (g_in g)) = Ok rows /\ dict_get key (cb_data (g_in q)) = Ok rows) /\
        (exists rows, dict_get key (cb_data (g_cross g)) = Ok rows /\ dict_get key (cb_data (g_cross q)) = Ok rows)) /\
      cb_eval_freqs (g_out g) = cb_eval_freqs (g_out q) /\ cb_chans (g_out g) = cb_chans (g_out q).
  Proof.
    intros junk proj sn meas fs d p s tf Hj H Hst HQ HP HNL GE QS HF C1 C2 C3 I1 I2 I3.
    destruct (c47 _ _ _ _ _ H) as (_ & _ & Hp & Hlev & Htab).
    assert (HN : sel_n_levels s = sm_n_levels (sd_md d)).
    { assert (K : forall l, 0 <= l -> l < sel_n_levels s <-> l < sm_n_levels (sd_md d)).
      { intros l Hl. rewrite (Hlev l Hl). unfold all_sites_have. split.
        - intros K. destruct (K sn (or_introl eq_refl)) as (ms & n & md & (st & E & Ems) & Hin & Hlt). rewrite Hst in E. injection E as <-.
          cbn [flat_map fst snd] in Ems. rewrite HQ in Ems. cbn [app] in Ems. subst ms. destruct Hin as [Hin|[]]. injection Hin as <- <-. exact Hlt.
        - intros K site [<-|[]]. exists [(meas, sd_md d)], meas, (sd_md d). split; [|split; [left; reflexivity|exact K]].
          exists [(meas, (fs, Ok d))]. split; [exact Hst|]. cbn [flat_map fst snd]. rewrite HQ. reflexivity. }
      assert (0 <= sel_n_levels s) by (unfold sel_n_levels; lia).
      pose proof (K (sel_n_levels s) H0) as K1. pose proof (K (sm_n_levels (sd_md d)) ltac:(lia)) as K2. lia. }
    pose proof (proj1 (proj2 GE)) as HL.
    assert (GS : forall chans, incl chans (sm_chans (sd_md d)) -> good_site proj p sn chans).
    { intros chans Hi st E. rewrite Hst in E. injection E as <-. split; [repeat constructor; intros []|]. intros n fs' d' [K|[]] _. injection K as <- <- <-. split; assumption. }
    assert (EF : sel_eval_freqs s = Ok (concat (map sl_freqs (sm_levels (sd_md d))))).
    { unfold sel_eval_freqs. rewrite Hp, HN. assert (M : mapM (level_eval_freqs p) (arange (sm_n_levels (sd_md d))) = Ok (map sl_freqs (sm_levels (sd_md d)))).
      { apply mapM_ok. unfold arange. unfold levels_ok in HL. replace (Z.to_nat (sm_n_levels (sd_md d))) with (length (sm_levels (sd_md d))) by lia.
        assert (G : forall k (ms : list spec_level) , (forall i m, nth_error ms i = Some m -> nth_error (sm_levels (sd_md d)) (k + i) = Some m) ->
          Forall2 (fun x y => level_eval_freqs p x = Ok y) (map Z.of_nat (seq k (length ms))) (map sl_freqs ms)).
        { intros k ms. revert k. induction ms as [|m ms IH]; intros k K; cbn [length seq map]; constructor.
          - apply HF; [|lia]. rewrite Nat2Z.id. specialize (K 0%nat m eq_refl). rewrite Nat.add_0_r in K. exact K.
          - apply IH. intros i m' Hm'. specialize (K (S i) m' Hm'). rewrite Nat.add_succ_r in K. exact K. }
        apply G. intros i m Hm. exact Hm. }
      rewrite M. reflexivity. }
    assert (NE : exists level t, 0 <= level < sel_n_levels s /\ sel_table s level = Ok t /\ t <> []).
    { unfold levels_ok in HL. destruct (nth_error (sm_levels (sd_md d)) (Z.to_nat 0)) as [m|] eqn:Em; [|apply nth_error_None in Em; lia].
      destruct (QS 0 m ltac:(lia) Em) as [_ Hw].
      destruct (single_table proj sn meas fs d p s 0 m H Hst HQ ltac:(lia) Em ltac:(lia) ltac:(lia)) as (t & Ht & Lt & _).
      exists 0, t. split; [lia|]. split; [exact Ht|]. intros ->. cbn in Lt. lia. }
    destruct (c48 junk Hj proj [sn] p s tf sn None None (concat (map sl_freqs (sm_levels (sd_md d)))) H) as (g & Eg & G1 & G2 & G3 & F1 & _ & _ & D1 & _).
    { left; reflexivity. } { left; reflexivity. } { left; reflexivity. } { exact C1. } { exact C2. } { exact C3. }
    { apply GS; exact I1. } { apply GS; exact I2. } { apply GS; exact I3. } { exact EF. } { exact NE. }
    cbn [or_else] in G2, G3.
    destruct (quick_combined_ok meas p d (tf_out tf) ltac:(lia) GE QS C1 I1) as (qo & Eo & S1 & Q1 & Q2).
    destruct (quick_combined_ok meas p d (tf_in tf) ltac:(lia) GE QS C2 I2) as (qi & Ei & S2 & _).
    destruct (quick_combined_ok meas p d (tf_cross tf) ltac:(lia) GE QS C3 I3) as (qc & Ec & S3 & _).
    exists g, (mkGathered qo qi qc). split; [exact Eg|]. split; [unfold quick_gather; rewrite Eo; cbn [bind]; rewrite Ei; cbn [bind]; rewrite Ec; reflexivity|].
    cbn [g_out g_in g_cross]. split; [|split; congruence]. intros level f Hl Hf.
    split; [|split]; eapply same_data; eassumption.
  Qed.
End Quick.
