(** Proofs for C50, C52 and C53 *)
From Coq Require Import String.
From Verif Require Import Base.Prelude Base.Rounding Base.ListUtil Base.NdArray Base.Cplx
  Model.Sampling Model.Time Model.Decimate Model.Window Model.Spectra Model.Calibrate Model.Gather Model.Regression
  Spec.Gather Spec.Regression Proofs.Sampling Proofs.TimeMeta Proofs.Spectra Proofs.Calibrate Proofs.GatherData Proofs.Regression.
Open Scope list_scope. Open Scope Q_scope.

Lemma enum_nth {B} (l : list B) k x : nth_error l k = Some x -> nth_error (enum l) k = Some (k, x).
Proof.
  intros H. unfold enum. assert (G : forall s, nth_error (combine (seq s (length l)) l) k = Some ((s + k)%nat, x)); [|apply (G 0%nat)].
  revert k H. induction l as [|y l IH]; intros [|k] H s; try discriminate; cbn [length seq combine nth_error].
  - cbn in H. injection H as ->. rewrite Nat.add_0_r. reflexivity.
  - cbn in H. rewrite (IH k H (S s)). do 2 f_equal. lia.
Qed.
Lemma enum_in {B} (l : list B) k x : In (k, x) (enum l) -> nth_error l k = Some x.
Proof.
  intros H. apply In_nth_error in H. destruct H as [j H]. assert (L : (j < length l)%nat).
  { assert (j < length (enum l))%nat by (apply nth_error_Some; congruence). unfold enum in *. rewrite combine_length, seq_length in *. lia. }
  destruct (nth_error l j) as [y|] eqn:E; [|apply nth_error_None in E; lia]. rewrite (enum_nth l j y E) in H. injection H as <- <-. exact E.
Qed.
Lemma enum_length {B} (l : list B) : length (enum l) = length l.
Proof. unfold enum. rewrite combine_length, seq_length. lia. Qed.
Lemma enum_snd {B} (l : list B) : map snd (enum l) = l.
Proof.
  unfold enum. generalize 0%nat. induction l as [|x l IH]; intros k; [reflexivity|]. cbn [length seq combine map snd]. f_equal. apply IH.
Qed.

Lemma unpair_rows_length n (ps : list (list cq)) : (forall p, In p ps -> length p = n) ->
  forall row, In row (unpair (map vec_pair ps)) -> length row = (2 * n)%nat.
Proof.
  intros H row K. apply unpair_in in K. destruct K as (p & K & E). apply in_map_iff in K. destruct K as (v & <- & K). specialize (H v K).
  unfold vec_pair in E. cbn [fst snd] in E. destruct E as [-> | ->]; rewrite unpair_length, combine_length, !map_length; lia.
Qed.

Section C50.
  Variables (cmul : cq -> cq -> cq) (junk1 : nat -> list Q) (junk2 : nat -> nat -> list (list Q)).
  Hypothesis J : junk_shape junk1 junk2.

  Lemma c50_prepare : forall tf g, good_gathered tf g -> NoDup (tf_out tf) ->
    exists r, prepare_gathered cmul junk1 junk2 tf g = Ok r /\ ri_freqs r = cb_eval_freqs (g_out g) /\ ri_tf r = tf /\
      forall k outs ins crosses o chan, (k < length (ri_freqs r))%nat -> freq_data g k outs ins crosses -> nth_error (tf_out tf) o = Some chan ->
      exists obs preds, get_inputs r k chan = Ok (obs, preds) /\
        (forall row, In row preds -> length row = (2 * length (tf_in tf))%nat) /\ length obs = length preds /\
        forall coef, length coef = (2 * length (tf_in tf))%nat ->
        exists Z, get_tensor tf coef = Ok Z /\ length Z = length (tf_in tf) /\ interleaved Z = coef /\
          (real_system preds coef obs <-> complex_system cmul Z o outs ins crosses).
  Proof.
    intros tf g GG ND. set (freqs := cb_eval_freqs (g_out g)).
    set (F := fun x : nat * Q => pp <- cross_powers cmul g (Z.of_nat (fst x)) ;; r <- prepare_freq junk1 junk2 tf (fst pp) (snd pp) ;; Ok (snd x, r)).
    assert (HF : forall k q, nth_error freqs k = Some q -> exists outs ins crosses obs,
       freq_data g k outs ins crosses /\ length ins = length outs /\ length crosses = length outs /\
       wide (length (tf_out tf)) outs /\ wide (length (tf_in tf)) ins /\ wide (length (tf_cross tf)) crosses /\
       F (k, q) = Ok (q, (obs, unpair (map vec_pair (concat (map (fun x => pw cmul (fst x) (snd x)) (combine ins crosses)))))) /\
       forall i c, nth_error (tf_out tf) i = Some c -> sget c obs = Ok (interleaved (opw cmul i outs crosses))).
    { intros k q Hk. destruct (GG k) as (outs & ins & crosses & FD & Li & Lc & Wo & Wi & Wc); [apply nth_error_Some; unfold freqs in Hk; congruence|].
      destruct (get_obs_ok cmul junk1 junk2 J tf outs crosses Lc Wo ND) as (po & obs & Ep & Eo & So).
      destruct (get_preds_ok cmul junk1 junk2 J tf ins crosses ltac:(congruence) Wi Wc) as (pi & Epi & Ei).
      exists outs, ins, crosses, obs. repeat (split; [assumption|]). split; [|exact So].
      unfold F. cbn [fst snd]. unfold cross_powers. destruct FD as (D1 & D2 & D3). rewrite D1, D2, D3. cbn [bind]. rewrite Ep, Epi. cbn [bind fst snd].
      unfold prepare_freq. rewrite Eo. cbn [bind]. rewrite Ei. reflexivity. }
    destruct (mapM_total F (enum freqs)) as [l Hl].
    { intros [k q] K. apply enum_in in K. destruct (HF k q K) as (outs & ins & crosses & obs & _ & _ & _ & _ & _ & _ & E & _). eexists. exact E. }
    exists (mkReg tf (map fst l) (map (fun x => fst (snd x)) l) (map (fun x => snd (snd x)) l)).
    split; [unfold prepare_gathered; fold F; fold freqs; rewrite Hl; reflexivity|]. cbn [ri_freqs ri_tf].
    assert (FQ : map fst l = freqs).
    { rewrite <- (enum_snd freqs). pose proof (proj1 (mapM_ok _ _ _) Hl) as H2. clear Hl HF. induction H2 as [|x y lx ly E F2 IH]; [reflexivity|].
      cbn [map]. f_equal; [|exact IH]. unfold F in E. apply bind_ok in E. destruct E as (pp & _ & E). apply bind_ok in E. destruct E as (rr & _ & E). injection E as <-. reflexivity. }
    split; [exact FQ|]. split; [reflexivity|]. intros k outs ins crosses o chan Hk FD Ho. rewrite FQ in Hk.
    destruct (nth_error freqs k) as [q|] eqn:Eq; [|apply nth_error_None in Eq; lia].
    destruct (HF k q Eq) as (outs' & ins' & crosses' & obs & FD' & Li & Lc & Wo & Wi & Wc & EF & So).
    assert (outs' = outs /\ ins' = ins /\ crosses' = crosses) as (-> & -> & ->).
    { destruct FD as (A1 & A2 & A3), FD' as (B1 & B2 & B3). split; [congruence|split; congruence]. }
    destruct (mapM_nth _ _ _ _ _ Hl (enum_nth _ _ _ Eq)) as (y & Hy & Ey). rewrite EF in Ey. injection Ey as <-.
    eexists _, _. split.
    { unfold get_inputs. cbn [ri_obs ri_preds]. unfold nth_res. rewrite !nth_error_map, Hy. cbn [option_map fst snd bind]. rewrite (So o chan Ho). cbn [bind]. reflexivity. }
    assert (LP : forall p, In p (concat (map (fun x => pw cmul (fst x) (snd x)) (combine ins crosses))) -> length p = length (tf_in tf)).
    { intros p K. apply in_concat in K. destruct K as (m & K1 & K2). apply in_map_iff in K1. destruct K1 as ([ir cr] & <- & K1). unfold pw in K2. apply in_map_iff in K2.
      destruct K2 as (c & <- & _). rewrite map_length. apply Wi. apply in_combine_l in K1. exact K1. }
    assert (LO : (o < length (tf_out tf))%nat) by (apply nth_error_Some; congruence).
    split; [apply unpair_rows_length; exact LP|]. split.
    { rewrite interleaved_length, unpair_length, map_length. f_equal. unfold opw.
      clear - Li Lc Wo LO. revert ins crosses Li Lc. induction outs as [|orow outs IH]; intros [|irow ins] [|crow crosses] Li Lc; try discriminate; [reflexivity|].
      cbn [combine map concat fst snd]. rewrite !app_length. rewrite (IH (fun r K => Wo r (or_intror K)) ins crosses) by (cbn in *; lia). f_equal.
      destruct (nth_error orow o) eqn:E; [unfold pw; rewrite !map_length; reflexivity|]. apply nth_error_None in E. rewrite (Wo orow (or_introl eq_refl)) in E. lia. }
    intros coef Lcoef. destruct (interleaved_all _ _ Lcoef) as (Z & -> & LZ). exists Z. split; [apply get_tensor_interleaved; exact LZ|]. split; [exact LZ|]. split; [reflexivity|].
    apply (system_iff cmul 0 o outs ins crosses Z Li Lc).
    - right. intros orow K. rewrite (Wo orow K). exact LO.
    - rewrite LZ. exact Wi.
  Qed.
End C50.

(** ** Exact products: data generated by a tensor *)
Lemma cdot_scale Z v k : ceq (cdot Z (map (fun x => ctimes x k) v)) (ctimes (cdot Z v) k).
Proof.
  revert v. induction Z as [|z Z IH]; intros [|x v]; cbn [map cdot]; try (split; cbn; ring).
  rewrite (IH v). split; cbn; ring.
Qed.
Definition csub (a b : list cq) : list cq := map (fun p => cminus (fst p) (snd p)) (combine a b).
Lemma csub_length a b : length a = length b -> length (csub a b) = length a.
Proof. intros H. unfold csub. rewrite map_length, combine_length. lia. Qed.
Lemma cdot_sub a b v : length a = length b -> ceq (cdot (csub a b) v) (cminus (cdot a v) (cdot b v)).
Proof.
  revert b v. induction a as [|x a IH]; intros [|y b] v L; try discriminate; [split; reflexivity|]. unfold csub in *. cbn [combine map fst snd]. destruct v as [|u v]; [split; reflexivity|].
  cbn [cdot]. rewrite (IH b v) by (cbn in L; lia). split; cbn; ring.
Qed.
Lemma csub_zero a b : length a = length b -> Forall (fun d => ceq d c0) (csub a b) -> Forall2 ceq a b.
Proof.
  revert b. induction a as [|x a IH]; intros [|y b] L H; try discriminate; constructor.
  - unfold csub in H. cbn [combine map fst snd] in H. inversion H as [|? ? [H1 H2] _]; subst. cbn in H1, H2. split; lra.
  - apply IH; [cbn in L; lia|]. unfold csub in *. cbn [combine map] in H. inversion H; subst. assumption.
Qed.

Lemma generated_system Zt outs ins crosses o Zo : generated_by Zt outs ins -> length ins = length outs -> nth_error Zt o = Some Zo ->
  complex_system ctimes Zo o outs ins crosses.
Proof.
  intros G L Ho w orow irow crow z c H1 H2 H3 H4 H5. specialize (G w orow irow H1 H2).
  destruct (Forall2_nth_error _ _ _ _ _ G Ho) as (z' & Hz & E). assert (z' = z) as -> by congruence.
  rewrite cdot_scale, E. reflexivity.
Qed.
Lemma system_unique n o outs ins crosses Z1 Z2 : length Z1 = n -> length Z2 = n -> length ins = length outs ->
  (forall orow, In orow outs -> (o < length orow)%nat) ->
  determined n ins crosses -> complex_system ctimes Z1 o outs ins crosses -> complex_system ctimes Z2 o outs ins crosses -> Forall2 ceq Z1 Z2.
Proof.
  intros L1 L2 Li Wo D S1 S2. apply csub_zero; [congruence|]. apply D; [rewrite csub_length; congruence|].
  intros w irow crow c H1 H2 H3. rewrite cdot_sub by congruence.
  destruct (nth_error outs w) as [orow|] eqn:Eo; [|apply nth_error_None in Eo; assert (w < length ins)%nat by (apply nth_error_Some; congruence); lia].
  destruct (nth_error orow o) as [z|] eqn:Ez; [|apply nth_error_None in Ez; specialize (Wo orow (nth_error_In _ _ Eo)); lia].
  rewrite (S1 w orow irow crow z c Eo H1 H2 Ez H3), (S2 w orow irow crow z c Eo H1 H2 Ez H3). split; cbn; ring.
Qed.

Lemma c50_generated : forall junk1 junk2 tf g, junk_shape junk1 junk2 -> good_gathered tf g -> NoDup (tf_out tf) ->
  forall r, prepare_gathered ctimes junk1 junk2 tf g = Ok r ->
  forall k outs ins crosses o chan Zt Zo, (k < length (ri_freqs r))%nat -> freq_data g k outs ins crosses -> nth_error (tf_out tf) o = Some chan ->
    generated_by Zt outs ins -> nth_error Zt o = Some Zo -> length Zo = length (tf_in tf) ->
    exists obs preds, get_inputs r k chan = Ok (obs, preds) /\ real_system preds (interleaved Zo) obs /\ get_tensor tf (interleaved Zo) = Ok Zo.
Proof.
  intros junk1 junk2 tf g J GG ND r Hr k outs ins crosses o chan Zt Zo Hk FD Ho GB HZ LZ.
  destruct (c50_prepare ctimes junk1 junk2 J tf g GG ND) as (r' & Hr' & HF & HT & HI). rewrite Hr in Hr'. injection Hr' as <-.
  destruct (HI k outs ins crosses o chan Hk FD Ho) as (obs & preds & Eg & _ & _ & Hc). exists obs, preds. split; [exact Eg|].
  destruct (Hc (interleaved Zo)) as (Z & EZ & LZ' & EI & HS); [rewrite interleaved_length; congruence|].
  pose proof (get_tensor_interleaved tf Zo LZ) as EZ2. assert (Z = Zo) as -> by congruence. split; [|exact EZ2].
  apply HS. apply (generated_system Zt); [exact GB| |exact HZ].
  destruct (GG k) as (outs' & ins' & crosses' & FD' & Li & _); [rewrite <- HF; exact Hk|].
  destruct FD as (A1 & A2 & A3), FD' as (B1 & B2 & B3). congruence.
Qed.

(** ** C52 *)
Definition key_of (p : (nat * chan) * (nat * chan)) : string := component_key (snd (fst p)) (snd (snd p)).
Lemma set_components_ok tensors (col : nat -> nat -> list cq) : forall pairs d,
  (forall p, In p pairs -> column tensors (fst (fst p)) (fst (snd p)) = Ok (col (fst (fst p)) (fst (snd p)))) ->
  exists d', set_components tensors pairs d = Ok d' /\
    (forall p, In p pairs -> (forall q, In q pairs -> key_of q = key_of p -> q = p) ->
       sget (key_of p) d' = Ok (map re (col (fst (fst p)) (fst (snd p))), map im (col (fst (fst p)) (fst (snd p))))) /\
    (forall k, (forall p, In p pairs -> key_of p <> k) -> sget k d' = sget k d).
Proof.
  induction pairs as [|[[o oc] [i ic]] rest IH]; intros d H.
  - exists d. split; [reflexivity|]. split; [intros ? []|reflexivity].
  - cbn [set_components]. pose proof (H _ (or_introl eq_refl)) as E. cbn [fst snd] in E. rewrite E. cbn [bind].
    destruct (IH (sset (component_key oc ic) (map re (col o i), map im (col o i)) d) (fun p K => H p (or_intror K))) as (d' & E' & S1 & S2).
    exists d'. split; [exact E'|]. split.
    + intros p Hp U.
      assert (D : (exists q, In q rest /\ key_of q = key_of p) \/ forall q, In q rest -> key_of q <> key_of p).
      { clear. induction rest as [|q rest IH]; [right; intros ? []|]. destruct (string_dec (key_of q) (key_of p)) as [E|N]; [left; exists q; split; [left; reflexivity|exact E]|].
        destruct IH as [(q' & K & E)|K]; [left; exists q'; split; [right; exact K|exact E]|]. right. intros q' [<-|K']; [exact N|apply K; exact K']. }
      destruct D as [(q & Hq & Eq)|D].
      * assert (q = p) as -> by (apply U; [right; exact Hq|exact Eq]). apply S1; [exact Hq|]. intros q' K. apply U. right. exact K.
      * destruct Hp as [<-|Hp]; [|exfalso; apply (D p Hp); reflexivity]. rewrite S2 by exact D. unfold key_of. cbn [fst snd].
        rewrite sget_sset, String.eqb_refl. reflexivity.
    + intros k K. rewrite S2 by (intros p Hp; apply K; right; exact Hp). rewrite sget_sset.
      destruct (String.eqb_spec k (component_key oc ic)) as [->|]; [|reflexivity]. exfalso. apply (K _ (or_introl eq_refl)). reflexivity.
Qed.

Definition entry0 (tensors : list (list (list cq))) (o i : nat) : list cq := map (fun t => nth i (nth o t []) c0) tensors.
Lemma column_ok tf n tensors o i : tensor_shape tf n tensors -> (o < length (tf_out tf))%nat -> (i < length (tf_in tf))%nat ->
  column tensors o i = Ok (entry0 tensors o i).
Proof.
  intros [_ H] Ho Hi. unfold column, entry0. apply mapM_eq. intros t K. destruct (H t K) as [L1 L2]. unfold nth_res.
  destruct (nth_error t o) as [row|] eqn:E; [|apply nth_error_None in E; lia]. cbn [bind]. rewrite (nth_error_nth _ _ _ E).
  pose proof (L2 row (nth_error_In _ _ E)) as L3.
  destruct (nth_error row i) as [z|] eqn:E2; [|apply nth_error_None in E2; lia]. rewrite (nth_error_nth _ _ _ E2). reflexivity.
Qed.
Lemma entry0_spec tf n tensors o i k : tensor_shape tf n tensors -> (o < length (tf_out tf))%nat -> (i < length (tf_in tf))%nat -> (k < n)%nat ->
  exists z, entry3 tensors k o i = Some z /\ nth_error (entry0 tensors o i) k = Some z.
Proof.
  intros [L H] Ho Hi Hk. unfold entry3, entry0. rewrite nth_error_map. destruct (nth_error tensors k) as [t|] eqn:E; [|apply nth_error_None in E; lia].
  destruct (H t (nth_error_In _ _ E)) as [L1 L2]. cbn [option_map].
  destruct (nth_error t o) as [row|] eqn:E1; [|apply nth_error_None in E1; lia]. rewrite (nth_error_nth _ _ _ E1).
  pose proof (L2 row (nth_error_In _ _ E1)) as L3.
  destruct (nth_error row i) as [z|] eqn:E2; [|apply nth_error_None in E2; lia]. exists z. rewrite (nth_error_nth _ _ _ E2). split; reflexivity.
Qed.
Lemma combine_re_im v : map (fun x => mkC (fst x) (snd x)) (combine (map re v) (map im v)) = v.
Proof. induction v as [|[a b] v IH]; [reflexivity|]. cbn. f_equal. exact IH. Qed.

Lemma c52 : forall tf freqs tensors, tensor_shape tf (length freqs) tensors -> NoDup (tf_out tf) -> NoDup (tf_in tf) -> keys_distinct tf ->
  exists s, get_solution tf freqs tensors = Ok s /\ so_freqs s = freqs /\ so_tf s = tf /\
    (forall k, (k < length freqs)%nat -> exists t, sol_tensor s (Z.of_nat k) = Ok t /\ nth_error tensors k = Some t) /\
    forall o i oc ic, nth_error (tf_out tf) o = Some oc -> nth_error (tf_in tf) i = Some ic ->
      exists comp, get_component s (component_key oc ic) = Ok comp /\ length comp = length freqs /\
        forall k, (k < length freqs)%nat -> exists z, nth_error comp k = Some z /\ entry3 tensors k o i = Some z.
Proof.
  intros tf freqs tensors TS NDo NDi KD.
  destruct (set_components_ok tensors (entry0 tensors) (list_prod (enum (tf_out tf)) (enum (tf_in tf))) []) as (d & Ed & S1 & _).
  { intros [[o oc] [i ic]] K. apply in_prod_iff in K. destruct K as [K1 K2]. apply enum_in in K1, K2. cbn [fst snd].
    eapply column_ok; [exact TS| |]; apply nth_error_Some; congruence. }
  assert (SG : forall o i oc ic, nth_error (tf_out tf) o = Some oc -> nth_error (tf_in tf) i = Some ic ->
     sget (component_key oc ic) d = Ok (map re (entry0 tensors o i), map im (entry0 tensors o i))).
  { intros o i oc ic Ho Hi. apply (S1 ((o, oc), (i, ic))).
    - apply in_prod_iff. split; eapply nth_error_In; apply enum_nth; eassumption.
    - intros [[o' oc'] [i' ic']] K E. apply in_prod_iff in K. destruct K as [K1 K2]. apply enum_in in K1, K2. unfold key_of in E. cbn [fst snd] in E.
      destruct (KD oc' ic' oc ic (nth_error_In _ _ K1) (nth_error_In _ _ K2) (nth_error_In _ _ Ho) (nth_error_In _ _ Hi) E) as [-> ->].
      assert (o' = o) as -> by (apply (proj1 (NoDup_nth_error _) NDo); [apply nth_error_Some; congruence|congruence]).
      assert (i' = i) as -> by (apply (proj1 (NoDup_nth_error _) NDi); [apply nth_error_Some; congruence|congruence]). reflexivity. }
  exists (mkSol tf freqs d). split; [unfold get_solution; rewrite Ed; reflexivity|]. split; [reflexivity|]. split; [reflexivity|]. split.
  - intros k Hk. destruct TS as [TL TS']. destruct (nth_error tensors k) as [t|] eqn:Et; [|apply nth_error_None in Et; lia]. exists t. split; [|reflexivity].
    destruct (TS' t (nth_error_In _ _ Et)) as [Lt Lrow]. unfold sol_tensor. cbn [so_tf so_components].
    apply mapM_ok. assert (G : forall outs rows, length outs = length rows -> (forall j oc row, nth_error outs j = Some oc -> nth_error rows j = Some row ->
       mapM (fun i => c <- sget (component_key oc i) d ;; get_value c (Z.of_nat k)) (tf_in tf) = Ok row) ->
       Forall2 (fun o row => mapM (fun i => c <- sget (component_key o i) d ;; get_value c (Z.of_nat k)) (tf_in tf) = Ok row) outs rows).
    { clear. induction outs as [|oc outs IH]; intros [|row rows] L H; try discriminate; constructor; [apply (H 0%nat); reflexivity|].
      apply IH; [cbn in L; lia|]. intros j. apply (H (S j)). }
    apply G; [congruence|]. clear G. intros j oc row Hj Hr. pose proof (Lrow row (nth_error_In _ _ Hr)) as LR. apply mapM_ok.
    assert (G : forall ins zs, length ins = length zs -> (forall i ic z, nth_error ins i = Some ic -> nth_error zs i = Some z ->
        (c <- sget (component_key oc ic) d ;; get_value c (Z.of_nat k)) = Ok z) ->
        Forall2 (fun ic z => (c <- sget (component_key oc ic) d ;; get_value c (Z.of_nat k)) = Ok z) ins zs).
    { clear. induction ins as [|ic ins IH]; intros [|z zs] L H; try discriminate; constructor; [apply (H 0%nat); reflexivity|].
      apply IH; [cbn in L; lia|]. intros i. apply (H (S i)). }
    apply G; [congruence|]. clear G. intros i ic z Hi Hz. rewrite (SG j i oc ic Hj Hi). cbn [bind]. unfold get_value. cbn [fst snd].
    destruct (entry0_spec tf _ tensors j i k (conj TL TS')) as (z' & E1 & E2); [apply nth_error_Some; congruence|apply nth_error_Some; congruence|exact Hk|].
    unfold entry3 in E1. rewrite Et, Hr, Hz in E1. injection E1 as <-.
    rewrite !py_nth_nat by lia. rewrite Nat2Z.id, !nth_error_map, E2. cbn [option_map]. destruct z; reflexivity.
  - intros o i oc ic Ho Hi. exists (entry0 tensors o i). split.
    + unfold get_component. cbn [so_components]. rewrite (SG o i oc ic Ho Hi). cbn [fst snd]. rewrite !map_length, Nat.eqb_refl, combine_re_im. reflexivity.
    + split; [unfold entry0; rewrite map_length; apply TS|]. intros k Hk.
      destruct (entry0_spec tf _ tensors o i k TS) as (z & E1 & E2); [apply nth_error_Some; congruence|apply nth_error_Some; congruence|exact Hk|]. exists z. split; assumption.
Qed.
Lemma append_inj a : forall b c d, String.length a = String.length c -> append a b = append c d -> a = c /\ b = d.
Proof.
  induction a as [|x a IH]; intros b [|y c] d L H; cbn in *; try discriminate; [split; [reflexivity|exact H]|].
  injection H as -> H. destruct (IH b c d) as [-> ->]; [congruence|exact H|]. split; reflexivity.
Qed.
Lemma c52_same_length : forall tf n, (forall o, In o (tf_out tf) -> String.length o = n) -> keys_distinct tf.
Proof. intros tf n H o i o' i' H1 _ H2 _ E. apply append_inj in E; [exact E|]. rewrite (H o H1), (H o' H2). reflexivity. Qed.

(** ** End to end *)
Lemma c50_end : forall junk1 junk2 fit tf g Zt, junk_shape junk1 junk2 -> least_squares fit -> good_gathered tf g ->
  NoDup (tf_out tf) -> NoDup (tf_in tf) -> tf_in tf <> [] -> keys_distinct tf ->
  (forall k, (k < length (cb_eval_freqs (g_out g)))%nat -> length (Zt k) = length (tf_out tf) /\ wide (length (tf_in tf)) (Zt k)) ->
  (forall k outs ins crosses, (k < length (cb_eval_freqs (g_out g)))%nat -> freq_data g k outs ins crosses ->
     generated_by (Zt k) outs ins /\ determined (length (tf_in tf)) ins crosses) ->
  exists r s, prepare_gathered ctimes junk1 junk2 tf g = Ok r /\ solve fit r = Ok s /\ so_freqs s = cb_eval_freqs (g_out g) /\
    forall k, (k < length (cb_eval_freqs (g_out g)))%nat -> exists t, sol_tensor s (Z.of_nat k) = Ok t /\ Forall2 (Forall2 ceq) t (Zt k).
Proof.
  intros junk1 junk2 fit tf g Zt J LS GG NDo NDi NE KD HZ HG.
  destruct (c50_prepare ctimes junk1 junk2 J tf g GG NDo) as (r & Hr & HF & HT & HI). exists r.
  set (F := fun eval_idx c => x <- get_inputs r eval_idx c ;; coef <- fit (snd x) (fst x) ;; get_tensor (ri_tf r) coef).
  assert (ROW : forall k o chan, (k < length (ri_freqs r))%nat -> nth_error (tf_out tf) o = Some chan ->
    exists z Zo, F k chan = Ok z /\ length z = length (tf_in tf) /\ nth_error (Zt k) o = Some Zo /\ Forall2 ceq z Zo).
  { intros k o chan Hk Ho. pose proof Hk as Hk'. rewrite HF in Hk'. destruct (GG k Hk') as (outs & ins & crosses & FD & Li & Lc & Wo & Wi & Wc).
    destruct (HI k outs ins crosses o chan Hk FD Ho) as (obs & preds & Eg & Lp & Lo & Hc).
    destruct (HG k outs ins crosses Hk' FD) as [GB DT]. destruct (HZ k Hk') as [LZ WZ].
    assert (LO : (o < length (tf_out tf))%nat) by (apply nth_error_Some; congruence).
    destruct (nth_error (Zt k) o) as [Zo|] eqn:EZ; [|apply nth_error_None in EZ; lia]. pose proof (WZ Zo (nth_error_In _ _ EZ)) as LZo.
    assert (NP : preds <> []).
    { intros EP. rewrite EP in Lo, Hc. destruct obs; [|discriminate].
      destruct (Hc (interleaved (repeat c0 (length (tf_in tf))))) as (za & Ea & _ & _ & Sa); [rewrite interleaved_length, repeat_length; reflexivity|].
      destruct (Hc (interleaved (repeat (mkC 1 0) (length (tf_in tf))))) as (zb & Eb & _ & _ & Sb); [rewrite interleaved_length, repeat_length; reflexivity|].
      rewrite (get_tensor_interleaved tf) in Ea, Eb by apply repeat_length.
      assert (za = repeat c0 (length (tf_in tf))) as -> by congruence. assert (zb = repeat (mkC 1 0) (length (tf_in tf))) as -> by congruence.
      assert (U : Forall2 ceq (repeat c0 (length (tf_in tf))) (repeat (mkC 1 0) (length (tf_in tf)))).
      { apply (system_unique (length (tf_in tf)) o outs ins crosses); try assumption; try apply repeat_length.
        - intros orow K. rewrite (Wo orow K). exact LO.
        - apply Sa. constructor.
        - apply Sb. constructor. }
      destruct (tf_in tf) as [|i0 ins0]; [congruence|]. cbn [length repeat] in U. inversion U as [|? ? ? ? [K _] _]; subst. cbn in K. lra. }
    destruct (LS preds obs _ NP Lp Lo) as (x & Ex & Lx & Sx).
    destruct (Hc x Lx) as (z & Ez & Lz & Iz & HSz).
    destruct (Hc (interleaved Zo)) as (z2 & Ez2 & _ & _ & HS2); [rewrite interleaved_length; congruence|].
    rewrite (get_tensor_interleaved tf Zo LZo) in Ez2. injection Ez2 as <-.
    assert (CS : complex_system ctimes Zo o outs ins crosses) by (apply (generated_system (Zt k)); assumption).
    exists z, Zo. split; [unfold F; rewrite Eg; cbn [bind fst snd]; rewrite Ex; cbn [bind]; rewrite HT; exact Ez|]. split; [exact Lz|]. split; [reflexivity|].
    apply (system_unique (length (tf_in tf)) o outs ins crosses); try assumption.
    - intros orow K. rewrite (Wo orow K). exact LO.
    - apply HSz. apply Sx. exists (interleaved Zo). split; [rewrite interleaved_length; congruence|]. apply HS2. exact CS. }
  assert (TEN : exists tensors, mapM (fun k => mapM (F k) (tf_out tf)) (seq 0 (length (ri_freqs r))) = Ok tensors).
  { apply mapM_total. intros k K. apply in_seq in K. apply mapM_total. intros c Kc. apply In_nth_error in Kc. destruct Kc as [o Ho].
    destruct (ROW k o c) as (z & Zo & E & _); [lia|exact Ho|]. exists z. exact E. }
  destruct TEN as [tensors HT2].
  assert (TK : forall k, (k < length (ri_freqs r))%nat -> exists t, nth_error tensors k = Some t /\ mapM (F k) (tf_out tf) = Ok t).
  { intros k Hk. assert (N : nth_error (seq 0 (length (ri_freqs r))) k = Some k).
    { rewrite (nth_error_nth' _ 0%nat) by (rewrite seq_length; lia). rewrite seq_nth by lia. reflexivity. }
    exact (mapM_nth _ _ _ _ _ HT2 N). }
  assert (LT : length tensors = length (ri_freqs r)) by (apply mapM_ok in HT2; apply Forall2_length' in HT2; rewrite seq_length in HT2; congruence).
  assert (TS : tensor_shape tf (length (ri_freqs r)) tensors).
  { split; [exact LT|]. intros t Kt. apply In_nth_error in Kt. destruct Kt as [k Hk]. assert (k < length (ri_freqs r))%nat as Lk by (rewrite <- LT; apply nth_error_Some; congruence).
    destruct (TK k Lk) as (t' & Ht' & M). rewrite Hk in Ht'. injection Ht' as <-. apply mapM_ok in M. split; [symmetry; exact (Forall2_length' _ _ _ M)|].
    intros row Kr. apply In_nth_error in Kr. destruct Kr as [o Ho]. destruct (Forall2_nth_error_r _ _ _ _ _ M Ho) as (c & Hc & E).
    destruct (ROW k o c Lk Hc) as (z & Zo & E' & Lz & _). congruence. }
  destruct (c52 tf (ri_freqs r) tensors TS NDo NDi KD) as (s & Es & Sf & St & ST & _).
  exists s. split; [exact Hr|]. split.
  { assert (EQ : mapM (fun k => mapM (F k) (tf_out (ri_tf r))) (seq 0 (length (ri_freqs r))) = Ok tensors) by (rewrite HT; exact HT2).
    unfold F in EQ. unfold solve. rewrite EQ. cbn [bind]. rewrite HT. exact Es. }
  split; [congruence|]. intros k Hk. rewrite <- HF in Hk. destruct (ST k Hk) as (t & Et & Nt). exists t. split; [exact Et|].
  destruct (TK k Hk) as (t' & Ht' & M). rewrite Nt in Ht'. injection Ht' as <-. apply mapM_ok in M.
  rewrite HF in Hk. destruct (HZ k Hk) as [LZ _].
  assert (G : forall t Z, length t = length Z -> (forall o z Zo, nth_error t o = Some z -> nth_error Z o = Some Zo -> Forall2 ceq z Zo) -> Forall2 (Forall2 ceq) t Z).
  { clear. induction t as [|z t IH]; intros [|Zo Z] L H; try discriminate; constructor; [apply (H 0%nat); reflexivity|]. apply IH; [cbn in L; lia|]. intros o. apply (H (S o)). }
  apply G; [pose proof (Forall2_length' _ _ _ M); congruence|]. intros o z Zo Hz HZo. destruct (Forall2_nth_error_r _ _ _ _ _ M Hz) as (c & Hc & E).
  destruct (ROW k o c ltac:(rewrite HF; exact Hk) Hc) as (z' & Zo' & E' & _ & HZ' & R). congruence.
Qed.

(** ** C53 *)
Section C53.
  Context {rnd : Q -> Q} (G : good_rnd rnd).
  Let r0 : rnd 0 == 0. Proof. pose proof (gr_repr _ G 0 0 ltac:(lia)) as H. rewrite (gr_comp _ G (inject_Z 0 * pow2 0) 0) in H by reflexivity. rewrite H. reflexivity. Qed.
  Let r1 : rnd 1 == 1. Proof. pose proof (gr_repr _ G 1 0 ltac:(lia)) as H. rewrite (gr_comp _ G (inject_Z 1 * pow2 0) 1) in H by reflexivity. rewrite H. reflexivity. Qed.

  Lemma rnd_le_1 x : x <= 1 -> rnd x <= 1.
  Proof. intros H. rewrite <- r1. apply (gr_mono _ G). exact H. Qed.
  Lemma rnd_ge_0 x : 0 <= x -> 0 <= rnd x.
  Proof. intros H. rewrite <- r0. apply (gr_mono _ G). exact H. Qed.
  Lemma square_mono x y : 0 <= x -> x <= y -> square rnd x <= square rnd y.
  Proof. intros H0 H1. unfold square. apply (gr_mono _ G). nra. Qed.

  (** bisquare for non-negative residuals *)
  Definition bw (k x : Q) : Q := let thresh := (let q := rnd (x / k) in if Qltb 1 q then 1 else q) in square rnd (rnd (1 - square rnd thresh)).
  Definition th (k x : Q) : Q := let q := rnd (x / k) in if Qltb 1 q then 1 else q.
  Lemma th_unit k x : 0 < k -> 0 <= x -> 0 <= th k x /\ th k x <= 1.
  Proof.
    intros Hk Hx. unfold th. assert (0 <= rnd (x / k)). { apply rnd_ge_0. apply Qle_shift_div_l; [exact Hk|]. lra. }
    destruct (Qltb 1 (rnd (x / k))) eqn:E; [split; lra|]. apply Qltb_false in E. split; assumption.
  Qed.
  Lemma th_mono k x y : 0 < k -> x <= y -> th k x <= th k y.
  Proof.
    intros Hk H. unfold th. assert (rnd (x / k) <= rnd (y / k)).
    { apply (gr_mono _ G). unfold Qdiv. apply Qmult_le_compat_r; [exact H|]. apply Qlt_le_weak. apply Qinv_lt_0_compat. exact Hk. }
    destruct (Qltb 1 (rnd (x / k))) eqn:E1, (Qltb 1 (rnd (y / k))) eqn:E2; try lra.
    - apply Qltb_true in E1. apply Qltb_false in E2. lra.
    - apply Qltb_false in E1. lra.
  Qed.
  Lemma sq_unit x : 0 <= x -> x <= 1 -> 0 <= square rnd x /\ square rnd x <= 1.
  Proof. intros H0 H1. unfold square. split; [apply rnd_ge_0|apply rnd_le_1]; nra. Qed.
  Lemma bw_unit k x : 0 < k -> 0 <= x -> 0 <= bw k x /\ bw k x <= 1.
  Proof.
    intros Hk Hx. unfold bw. fold (th k x). destruct (th_unit k x Hk Hx) as [T0 T1]. destruct (sq_unit _ T0 T1) as [S0 S1].
    apply sq_unit; [apply rnd_ge_0|apply rnd_le_1]; lra.
  Qed.
  Lemma bw_mono k x y : 0 < k -> 0 <= x -> x <= y -> bw k y <= bw k x.
  Proof.
    intros Hk Hx H. unfold bw. fold (th k x). fold (th k y). pose proof (th_mono k x y Hk H) as T.
    destruct (th_unit k x Hk Hx) as [T0 T1]. destruct (th_unit k y Hk ltac:(lra)) as [U0 U1]. destruct (sq_unit _ U0 U1) as [S0 S1].
    pose proof (square_mono _ _ T0 T) as SM. apply square_mono; [apply rnd_ge_0; lra|]. apply (gr_mono _ G). lra.
  Qed.
  Lemma bw_zero k : 0 < k -> bw k 0 == 1.
  Proof.
    intros Hk. unfold bw. fold (th k 0). assert (E : th k 0 == 0).
    { unfold th. assert (R : rnd (0 / k) == 0) by (rewrite (gr_comp _ G (0 / k) 0) by (field; lra); exact r0).
      destruct (Qltb 1 (rnd (0 / k))) eqn:E; [apply Qltb_true in E; lra|exact R]. }
    assert (S : square rnd (th k 0) == 0) by (unfold square; rewrite (gr_comp _ G _ 0) by (rewrite E; reflexivity); exact r0).
    assert (R : rnd (1 - square rnd (th k 0)) == 1) by (rewrite (gr_comp _ G _ 1) by (rewrite S; reflexivity); exact r1).
    unfold square at 1. rewrite (gr_comp _ G _ 1) by (rewrite R; reflexivity). exact r1.
  Qed.

  Definition hw (k x : Q) : Q := if Qltb k x then rnd (k / x) else 1.
  Lemma hw_unit k x : 0 < k -> 0 <= hw k x /\ hw k x <= 1.
  Proof.
    intros Hk. unfold hw. destruct (Qltb k x) eqn:E; [|split; lra]. apply Qltb_true in E. split.
    - apply rnd_ge_0. apply Qle_shift_div_l; lra.
    - apply rnd_le_1. apply Qle_shift_div_r; lra.
  Qed.
  Lemma hw_mono k x y : 0 < k -> x <= y -> hw k y <= hw k x.
  Proof.
    intros Hk H. unfold hw. destruct (Qltb k x) eqn:E1, (Qltb k y) eqn:E2; try lra.
    - apply Qltb_true in E1. apply Qltb_true in E2. apply (gr_mono _ G). apply Qle_shift_div_l; [lra|].
      assert (E : k / y * x == k * x / y) by (field; lra). rewrite E. apply Qle_shift_div_r; nra.
    - apply Qltb_true in E1. apply Qltb_false in E2. lra.
    - apply Qltb_true in E2. apply rnd_le_1. apply Qle_shift_div_r; lra.
  Qed.
  Lemma hw_small k x : x <= k -> hw k x == 1.
  Proof. intros H. unfold hw. destruct (Qltb k x) eqn:E; [apply Qltb_true in E; lra|reflexivity]. Qed.
End C53.
Definition tw (k x : Q) : Q := if Qle_bool x k then 1 else 0.
Lemma tw_mono k x y : x <= y -> tw k y <= tw k x.
Proof.
  intros H. unfold tw. destruct (Qle_bool y k) eqn:E1, (Qle_bool x k) eqn:E2; try lra.
  apply Qle_bool_iff in E1. assert (Qle_bool x k = true) by (apply Qle_bool_iff; lra). congruence.
Qed.

Lemma pointwise_robust (dom : Q -> Prop) (f : Q -> Q) : (forall x, dom x -> 0 <= f x /\ f x <= 1) -> (forall x, dom x -> x == 0 -> f x == 1) ->
  (forall x y, dom x -> dom y -> x <= y -> f y <= f x) -> robust_weights dom (map f).
Proof.
  intros H1 H2 H3 r D. split; [apply map_length|]. intros i x w Hx Hw. rewrite nth_error_map, Hx in Hw. injection Hw as <-.
  pose proof (D x (nth_error_In _ _ Hx)) as Dx. split; [apply H1; exact Dx|]. split; [apply H1; exact Dx|]. split; [apply H2; exact Dx|].
  intros j y v Hy Hv L. rewrite nth_error_map, Hy in Hv. injection Hv as <-. apply H3; [exact Dx|exact (D y (nth_error_In _ _ Hy))|exact L].
Qed.
Lemma c53_bisquare : forall rnd k, good_rnd rnd -> 0 < k -> robust_weights (fun x => 0 <= x) (bisquare rnd k).
Proof.
  intros rnd k G Hk. apply (pointwise_robust _ (bw (rnd := rnd) k)).
  - intros x Hx. apply bw_unit; assumption.
  - intros x Hx E. pose proof (bw_zero G k Hk) as Z. pose proof (bw_mono G k 0 x Hk ltac:(lra) ltac:(lra)). pose proof (bw_mono G k x 0 Hk ltac:(lra) ltac:(lra)). lra.
  - intros x y Hx Hy L. apply bw_mono; assumption.
Qed.
Lemma c53_huber : forall rnd k, good_rnd rnd -> 0 < k -> robust_weights (fun _ => True) (huber rnd k).
Proof.
  intros rnd k G Hk. apply (pointwise_robust _ (hw (rnd := rnd) k)).
  - intros x _. apply hw_unit; assumption.
  - intros x _ E. apply hw_small. lra.
  - intros x y _ _ L. apply hw_mono; assumption.
Qed.
Lemma c53_trimmed : forall k, 0 <= k -> robust_weights (fun _ => True) (trimmed_mean k).
Proof.
  intros k Hk. apply (pointwise_robust _ (tw k)).
  - intros x _. unfold tw. destruct (Qle_bool x k); split; lra.
  - intros x _ E. unfold tw. destruct (Qle_bool x k) eqn:EQ; [reflexivity|]. assert (Qle_bool x k = true) by (apply Qle_bool_iff; lra). congruence.
  - intros x y _ _ L. apply tw_mono. exact L.
Qed.
