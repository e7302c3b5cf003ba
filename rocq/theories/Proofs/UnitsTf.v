(** C100: the transfer function in other units. *)
From Coq Require Import String.
From Verif Require Import Base.Prelude Base.Rounding Base.ListUtil Base.NdArray Base.Cplx Model.Sampling Model.Time Model.Decimate Model.Window Model.Spectra
  Model.Calibrate Model.Gather Model.Regression Model.Pipeline Spec.Calibrate Spec.Gather Spec.Regression Spec.Pipeline Spec.Linear Spec.Solvers Spec.Units
  Proofs.TimeMeta Proofs.DecParams Proofs.DecFinal Proofs.Spectra Proofs.Calibrate Proofs.Gather Proofs.GatherQuick Proofs.Regression Proofs.RegressionFinal Proofs.RegressionQuick
  Proofs.PipelineShape Proofs.PipelineFinal Proofs.Linear Proofs.UnitsFit Proofs.Units.
Open Scope list_scope. Open Scope Q_scope.

Lemma Forall2_of_nth {A B} (R : A -> B -> Prop) : forall l l', length l = length l' -> (forall i x y, nth_error l i = Some x -> nth_error l' i = Some y -> R x y) -> Forall2 R l l'.
Proof. induction l as [|x l IH]; intros [|y l'] L H; try discriminate; constructor; [apply (H 0%nat); reflexivity|]. apply IH; [cbn in L; lia|]. intros i. apply (H (S i)). Qed.
Lemma Forall2_concat {A B C D} (R : A -> B -> Prop) (S : C -> D -> Prop) f g l l' : Forall2 R l l' -> (forall x y, R x y -> Forall2 S (f x) (g y)) -> Forall2 S (concat (map f l)) (concat (map g l')).
Proof. intros H K. induction H as [|x y l l' E H IH]; cbn [map concat]; [constructor|]. apply Forall2_app; [apply K; exact E|exact IH]. Qed.
Lemma nth_combine2 {A B} (l : list A) (l' : list B) i x y : nth_error (combine l l') i = Some (x, y) -> nth_error l i = Some x /\ nth_error l' i = Some y.
Proof. intros H. apply nth_combine in H. exact H. Qed.

Section Rel.
  Variable k : chan -> Q.
  Definition urow (cs : list chan) (r r' : list cq) : Prop := Forall2 (fun cx y => ceq y (cscale (k (fst cx)) (snd cx))) (combine cs r) r'.
  (** rows of all windows *)
  Definition urows (cs : list chan) (m m' : list (list cq)) : Prop := length m = length m' /\ wide (length cs) m /\ forall w r r', nth_error m w = Some r -> nth_error m' w = Some r' -> urow cs r r'.
  Definition vscale (qs : list Q) (p p' : list cq) : Prop := length p = length qs /\ Forall2 (fun qx y => ceq y (cscale (fst qx) (snd qx))) (combine qs p) p'.
  Variables (kx : Q) (tf : tf_chans).
  Hypothesis KX : forall c, In c (tf_cross tf) -> k c == kx.
  Definition qs : list Q := map (fun c => k c * kx) (tf_in tf).
  Definition dup (l : list Q) : list Q := concat (map (fun q => [q; q]) l).
  Lemma ctimes_units p q x y x' y' : ceq x' (cscale p x) -> ceq y' (cscale q y) -> ceq (ctimes x' (conj_ y')) (cscale (p * q) (ctimes x (conj_ y))).
  Proof. intros E F. rewrite E, F. split; cbn; ring. Qed.
  Lemma vec_units irow irow' c c' : length irow = length (tf_in tf) -> urow (tf_in tf) irow irow' -> ceq c' (cscale kx c) ->
    vscale qs (map (fun x => ctimes x (conj_ c)) irow) (map (fun x => ctimes x (conj_ c')) irow').
  Proof.
    intros L U E. unfold vscale, qs. rewrite !map_length. split; [exact L|]. unfold urow in U. revert irow irow' L U. induction (tf_in tf) as [|i is IH]; intros [|x r] r' L U; try discriminate; cbn [combine] in U; inversion U as [|? x' ? r2 F U']; subst; [constructor|].
    cbn [map combine]. constructor; [cbn [fst snd] in *; apply ctimes_units; assumption|]. apply IH; [cbn in L; lia|exact U'].
  Qed.
  Lemma cross_units crow crow' : length crow = length (tf_cross tf) -> urow (tf_cross tf) crow crow' -> Forall2 (fun c c' => ceq c' (cscale kx c)) crow crow'.
  Proof.
    unfold urow. revert KX crow crow'. induction (tf_cross tf) as [|i is IH]; intros K [|x r] r' L U; try discriminate; cbn [combine] in U; inversion U as [|? x' ? r2 F U']; subst; [constructor|].
    constructor; [cbn [fst snd] in F; rewrite F, (K i (or_introl eq_refl)); reflexivity|]. apply IH; [intros c Hc; apply K; right; exact Hc|cbn in L; lia|exact U'].
  Qed.
  Lemma pw_units irow irow' crow crow' : length irow = length (tf_in tf) -> length crow = length (tf_cross tf) -> urow (tf_in tf) irow irow' -> urow (tf_cross tf) crow crow' ->
    Forall2 (vscale qs) (pw ctimes irow crow) (pw ctimes irow' crow').
  Proof.
    intros L LC U UC. unfold pw. apply cross_units in UC; [|exact LC]. clear LC. induction UC as [|c c' r r' E F IH]; cbn [map]; constructor; [apply vec_units; assumption|exact IH].
  Qed.
  Lemma windows_units cs cs' a a' b b' : urows cs a a' -> urows cs' b b' -> length a = length b -> Forall2 (fun x y => (length (fst x) = length cs /\ urow cs (fst x) (fst y)) /\ (length (snd x) = length cs' /\ urow cs' (snd x) (snd y))) (combine a b) (combine a' b').
  Proof.
    intros (L1 & W1 & U1) (L2 & W2 & U2) L. apply Forall2_of_nth; [rewrite !combine_length; lia|]. intros i [x y] [x' y'] H H'. apply nth_combine2 in H as [H1 H2]. apply nth_combine2 in H' as [H1' H2']. cbn [fst snd].
    split; (split; [|eauto]); [apply W1|apply W2]; eapply nth_error_In; eassumption.
  Qed.
  Lemma vec_pair_units p p' : vscale qs p p' -> cols (dup qs) (fst (vec_pair p)) (fst (vec_pair p')) /\ cols (dup qs) (snd (vec_pair p)) (snd (vec_pair p')).
  Proof.
    unfold cols, vscale, vec_pair, dup. cbn [fst snd]. generalize qs as l. intros l [L H]. revert p p' L H. induction l as [|q l IH]; intros [|x p] p' L H; try discriminate; cbn [combine] in H; inversion H as [|? x' ? p2 E F]; subst; [cbn; split; (split; [reflexivity|constructor])|].
    destruct E as [E1 E2]. cbn [fst snd cscale re im] in E1, E2. destruct (IH p p2 ltac:(cbn in L; lia) F) as [[A1 A2] [B1 B2]]. cbn [map concat combine app]. rewrite !unpair_cons. cbn [fst snd length combine].
    split; (split; [congruence|]); (constructor; [cbn [fst snd]|constructor; [cbn [fst snd]|assumption]]); rewrite ?E1, ?E2; ring.
  Qed.
  Lemma preds_units ins ins' crosses crosses' : urows (tf_in tf) ins ins' -> urows (tf_cross tf) crosses crosses' -> length ins = length crosses ->
    Forall2 (cols (dup qs)) (unpair (map vec_pair (concat (map (fun x => pw ctimes (fst x) (snd x)) (combine ins crosses))))) (unpair (map vec_pair (concat (map (fun x => pw ctimes (fst x) (snd x)) (combine ins' crosses'))))).
  Proof.
    intros U UC L. apply Forall2_unpair. pose proof (windows_units _ _ _ _ _ _ U UC L) as W.
    assert (V : Forall2 (vscale qs) (concat (map (fun x => pw ctimes (fst x) (snd x)) (combine ins crosses))) (concat (map (fun x => pw ctimes (fst x) (snd x)) (combine ins' crosses')))).
    { refine (Forall2_concat _ _ _ _ _ _ W _). intros x y [[A1 A2] [B1 B2]]. exact (pw_units _ _ _ _ A1 B1 A2 B2). }
    clear W. induction V as [|p p' l l' E V IH]; cbn [map]; constructor; [exact (vec_pair_units _ _ E)|exact IH].
  Qed.
  Lemma obs_units outs outs' crosses crosses' o oc : urows (tf_out tf) outs outs' -> urows (tf_cross tf) crosses crosses' -> length outs = length crosses -> nth_error (tf_out tf) o = Some oc ->
    times_c (k oc * kx) (interleaved (opw ctimes o outs crosses)) (interleaved (opw ctimes o outs' crosses')).
  Proof.
    intros U UC L Ho. pose proof (windows_units _ _ _ _ _ _ U UC L) as W.
    assert (V : Forall2 (fun x y => ceq y (cscale (k oc * kx) x)) (opw ctimes o outs crosses) (opw ctimes o outs' crosses')).
    { unfold opw. refine (Forall2_concat _ _ _ _ _ _ W _). intros [x xc] [y yc] [[A1 A2] [B1 B2]]. cbn [fst snd] in *. unfold urow in A2.
      destruct (nth_error x o) as [z|] eqn:Ez. 2:{ apply nth_error_None in Ez. assert (o < length (tf_out tf))%nat by (apply nth_error_Some; congruence). lia. }
      assert (N : nth_error (combine (tf_out tf) x) o = Some (oc, z)) by (apply nth_combine; split; assumption). destruct (Forall2_nth_error _ _ _ _ _ A2 N) as (z' & Ez' & E). rewrite Ez'. cbn [fst snd] in E.
      apply cross_units in B2; [|exact B1]. clear -E B2. induction B2 as [|c c' r r' F B IH]; cbn [map]; constructor; [apply ctimes_units; assumption|exact IH]. }
    clear -V. induction V as [|x y l l' [E1 E2] V IH]; [constructor|]. unfold interleaved. cbn [map concat app]. constructor; [exact E1|]. constructor; [exact E2|exact IH].
  Qed.
End Rel.

(** the equations of a frequency *)
Section Prep.
  Variables (junk1 : nat -> list Q) (junk2 : nat -> nat -> list (list Q)).
  Hypothesis J : junk_shape junk1 junk2.
  Lemma prepared tf g r : good_gathered tf g -> NoDup (tf_out tf) -> prepare_gathered ctimes junk1 junk2 tf g = Ok r ->
    ri_tf r = tf /\ ri_freqs r = cb_eval_freqs (g_out g) /\ forall k outs ins crosses o c, (k < length (ri_freqs r))%nat -> freq_data g k outs ins crosses -> nth_error (tf_out tf) o = Some c ->
      get_inputs r k c = Ok (interleaved (opw ctimes o outs crosses), unpair (map vec_pair (concat (map (fun x => pw ctimes (fst x) (snd x)) (combine ins crosses))))).
  Proof.
    intros GG ND H. destruct (c50_prepare ctimes junk1 junk2 J tf g GG ND) as (r' & Hr & F1 & F2 & _). assert (r' = r) as -> by congruence. split; [exact F2|]. split; [exact F1|].
    intros k outs ins crosses o c Hk FD Ho. rewrite F1 in Hk. destruct (nth_error (cb_eval_freqs (g_out g)) k) as [q|] eqn:Eq; [|apply nth_error_None in Eq; lia].
    destruct (GG k Hk) as (outs' & ins' & crosses' & FD' & Li & Lc & Wo & Wi & Wc). assert (outs' = outs /\ ins' = ins /\ crosses' = crosses) as (-> & -> & ->).
    { destruct FD as (A1 & A2 & A3), FD' as (B1 & B2 & B3). split; [congruence|split; congruence]. }
    destruct (get_obs_ok ctimes junk1 junk2 J tf outs crosses Lc Wo ND) as (po & obs & Ep & Eo & So). destruct (get_preds_ok ctimes junk1 junk2 J tf ins crosses ltac:(congruence) Wi Wc) as (pi & Epi & Ei).
    unfold prepare_gathered in H. apply bind_ok in H. destruct H as (l & Hl & H). injection H as <-. destruct (mapM_nth _ _ _ _ _ Hl (enum_nth _ _ _ Eq)) as (y & Hy & Ey). cbn [fst snd] in Ey.
    unfold cross_powers in Ey. destruct FD as (D1 & D2 & D3). rewrite D1, D2, D3 in Ey. cbn [bind] in Ey. rewrite Ep, Epi in Ey. cbn [bind fst snd] in Ey. unfold prepare_freq in Ey. rewrite Eo in Ey. cbn [bind] in Ey. rewrite Ei in Ey. cbn [bind] in Ey. injection Ey as <-.
    unfold get_inputs. cbn [ri_obs ri_preds]. unfold nth_res. rewrite !nth_error_map, Hy. cbn [option_map fst snd bind]. rewrite (So o c Ho). cbn [bind]. reflexivity.
  Qed.
End Prep.
Lemma get_tensor_length tf coef z : get_tensor tf coef = Ok z -> length z = length (tf_in tf) /\ forall j, (j < length (tf_in tf))%nat -> exists a b, nth_error coef (j * 2) = Some a /\ nth_error coef (j * 2 + 1) = Some b /\ nth_error z j = Some (mkC a b).
Proof.
  unfold get_tensor. intros H. pose proof H as H'. apply mapM_ok in H'. pose proof (Forall2_length' _ _ _ H') as L. rewrite seq_length in L. split; [congruence|]. intros j Hj.
  assert (N : nth_error (seq 0 (length (tf_in tf))) j = Some j) by (rewrite (List.nth_error_nth' _ 0%nat) by (rewrite seq_length; lia); rewrite seq_nth by lia; reflexivity).
  destruct (Forall2_nth_error _ _ _ _ _ H' N) as (c & Ec & K). unfold nth_res in K. destruct (nth_error coef (j * 2)) as [a|]; [|discriminate]. cbn [bind] in K. destruct (nth_error coef (j * 2 + 1)) as [b|]; [|discriminate]. cbn [bind] in K. injection K as <-. eauto.
Qed.
(** a solution holds the tensors that were fitted *)
Lemma solve_inv fit r s : solve fit r = Ok s -> NoDup (tf_out (ri_tf r)) -> NoDup (tf_in (ri_tf r)) -> keys_distinct (ri_tf r) ->
  so_freqs s = ri_freqs r /\ forall k, (k < length (ri_freqs r))%nat -> exists t, sol_tensor s (Z.of_nat k) = Ok t /\
    mapM (fun c => x <- get_inputs r k c ;; coef <- fit (snd x) (fst x) ;; get_tensor (ri_tf r) coef) (tf_out (ri_tf r)) = Ok t.
Proof.
  intros H ND1 ND2 KD. unfold solve in H. apply bind_ok in H. destruct H as (tensors & HT & H). set (F := fun k c => x <- get_inputs r k c ;; coef <- fit (snd x) (fst x) ;; get_tensor (ri_tf r) coef) in *.
  assert (TK : forall k, (k < length (ri_freqs r))%nat -> exists t, nth_error tensors k = Some t /\ mapM (F k) (tf_out (ri_tf r)) = Ok t).
  { intros k Hk. assert (N : nth_error (seq 0 (length (ri_freqs r))) k = Some k) by (rewrite (List.nth_error_nth' _ 0%nat) by (rewrite seq_length; lia); rewrite seq_nth by lia; reflexivity).
    exact (mapM_nth _ _ _ _ _ HT N). }
  assert (LT : length tensors = length (ri_freqs r)) by (apply mapM_ok in HT; apply Forall2_length' in HT; rewrite seq_length in HT; congruence).
  assert (TS : tensor_shape (ri_tf r) (length (ri_freqs r)) tensors).
  { split; [exact LT|]. intros t Kt. apply In_nth_error in Kt. destruct Kt as [k Hk]. assert (k < length (ri_freqs r))%nat as Lk by (rewrite <- LT; apply nth_error_Some; congruence).
    destruct (TK k Lk) as (t' & Ht' & M). rewrite Hk in Ht'. injection Ht' as <-. apply mapM_ok in M. split; [symmetry; exact (Forall2_length' _ _ _ M)|].
    intros row Kr. apply In_nth_error in Kr. destruct Kr as [o Ho]. destruct (Forall2_nth_error_r _ _ _ _ _ M Ho) as (c & Hc & E). unfold F in E. apply bind_ok in E. destruct E as (x & _ & E). apply bind_ok in E. destruct E as (cf & _ & E).
    exact (proj1 (get_tensor_length _ _ _ E)). }
  destruct (c52 (ri_tf r) (ri_freqs r) tensors TS ND1 ND2 KD) as (s' & Es & Sf & St & ST & _). assert (s' = s) as -> by congruence. split; [exact Sf|]. intros k Hk. destruct (ST k Hk) as (t & Et & Nt). exists t. split; [exact Et|].
  destruct (TK k Hk) as (t' & Ht' & M). assert (t' = t) as -> by congruence. exact M.
Qed.
Lemma dup_nth l j : (j < length l)%nat -> nth_error (dup l) (j * 2) = nth_error l j /\ nth_error (dup l) (j * 2 + 1) = nth_error l j.
Proof. revert j. induction l as [|q l IH]; intros j Hj; [cbn in Hj; lia|]. unfold dup. cbn [map concat app]. destruct j as [|j]; [split; reflexivity|]. cbn in Hj. destruct (IH j ltac:(lia)) as [A B]. split; cbn [Nat.mul Nat.add nth_error]; [exact A|exact B]. Qed.

(** the regression in other units, for a fit that respects them on the equations at hand *)
Section Regress.
  Variables (junk1 : nat -> list Q) (junk2 : nat -> nat -> list (list Q)) (fit : list (list Q) -> list Q -> res (list Q)) (k : chan -> Q) (kx : Q) (tf : tf_chans).
  Hypothesis J : junk_shape junk1 junk2.
  Hypothesis KX : forall c, In c (tf_cross tf) -> k c == kx.
  Hypothesis K0 : ~ kx == 0.
  Hypothesis KI : forall c, In c (tf_in tf) -> ~ k c == 0.
  Hypothesis KO : forall c, In c (tf_out tf) -> ~ k c == 0.
  Hypotheses (ND1 : NoDup (tf_out tf)) (ND2 : NoDup (tf_in tf)) (KD : keys_distinct tf).
  Lemma regress_units ga gb ra rb sa sb : good_gathered tf ga -> good_gathered tf gb -> cb_eval_freqs (g_out gb) = cb_eval_freqs (g_out ga) ->
    prepare_gathered ctimes junk1 junk2 tf ga = Ok ra -> prepare_gathered ctimes junk1 junk2 tf gb = Ok rb -> solve fit ra = Ok sa -> solve fit rb = Ok sb ->
    (forall i outs ins crosses outs' ins' crosses', (i < length (cb_eval_freqs (g_out ga)))%nat -> freq_data ga i outs ins crosses -> freq_data gb i outs' ins' crosses' ->
       urows k (tf_out tf) outs outs' /\ urows k (tf_in tf) ins ins' /\ urows k (tf_cross tf) crosses crosses' /\
       forall o oc x x', nth_error (tf_out tf) o = Some oc ->
         let P := unpair (map vec_pair (concat (map (fun x => pw ctimes (fst x) (snd x)) (combine ins crosses)))) in let P' := unpair (map vec_pair (concat (map (fun x => pw ctimes (fst x) (snd x)) (combine ins' crosses')))) in
         let b := interleaved (opw ctimes o outs crosses) in let b' := interleaved (opw ctimes o outs' crosses') in
         Forall2 (cols (dup (qs k kx tf))) P P' -> times_c (k oc * kx) b b' -> length b = length P -> fit P b = Ok x -> fit P' b' = Ok x' ->
         Forall2 (fun qx y => fst qx * y == (k oc * kx) * snd qx) (combine (dup (qs k kx tf)) x) x') ->
    so_freqs sb = so_freqs sa /\ forall i, (i < length (so_freqs sa))%nat -> exists ta tb, sol_tensor sa (Z.of_nat i) = Ok ta /\ sol_tensor sb (Z.of_nat i) = Ok tb /\ tensor_in_units k tf ta tb.
  Proof.
    intros GA GB EF PA PB SA SB H. destruct (prepared _ _ J tf ga ra GA ND1 PA) as (TA & FA & IA). destruct (prepared _ _ J tf gb rb GB ND1 PB) as (TB & FB & IB).
    rewrite <- TA in ND1, ND2, KD. destruct (solve_inv _ _ _ SA ND1 ND2 KD) as (S1 & S2). rewrite TA, <- TB in ND1, ND2, KD. destruct (solve_inv _ _ _ SB ND1 ND2 KD) as (S3 & S4). rewrite TB in ND1, ND2, KD.
    split; [congruence|]. intros i Hi. rewrite S1 in Hi. assert (Hi' : (i < length (ri_freqs rb))%nat) by (rewrite FB, EF, <- FA; exact Hi). destruct (S2 i Hi) as (ta & Ta & Ma). destruct (S4 i Hi') as (tb & Tb & Mb). exists ta, tb. split; [exact Ta|]. split; [exact Tb|].
    rewrite TA in Ma. rewrite TB in Mb. assert (Hj : (i < length (cb_eval_freqs (g_out ga)))%nat) by (rewrite <- FA; exact Hi). assert (Hj' : (i < length (cb_eval_freqs (g_out gb)))%nat) by (rewrite EF; exact Hj).
    destruct (GA i Hj) as (outs & ins & crosses & FD & Li & Lc & Wo & Wi & Wc). destruct (GB i Hj') as (outs' & ins' & crosses' & FD' & Li' & Lc' & Wo' & Wi' & Wc').
    destruct (H i _ _ _ _ _ _ Hj FD FD') as (U1 & U2 & U3 & HF). intros o j oc ic Ho Hjc.
    apply mapM_ok in Ma, Mb. destruct (Forall2_nth_error _ _ _ _ _ Ma Ho) as (z & Ez & Fz). destruct (Forall2_nth_error _ _ _ _ _ Mb Ho) as (z' & Ez' & Fz').
    rewrite (IA i outs ins crosses o oc Hi FD Ho) in Fz. rewrite (IB i outs' ins' crosses' o oc Hi' FD' Ho) in Fz'. cbn [bind fst snd] in Fz, Fz'.
    apply bind_ok in Fz. destruct Fz as (x & Fx & Gz). apply bind_ok in Fz'. destruct Fz' as (x' & Fx' & Gz').
    assert (LB : length (interleaved (opw ctimes o outs crosses)) = length (unpair (map vec_pair (concat (map (fun x => pw ctimes (fst x) (snd x)) (combine ins crosses)))))).
    { destruct (c50_prepare ctimes junk1 junk2 J tf ga GA ND1) as (r' & Hr & _ & _ & K). assert (r' = ra) as -> by congruence. destruct (K i outs ins crosses o oc Hi FD Ho) as (ob & pr & E & _ & L & _). rewrite (IA i outs ins crosses o oc Hi FD Ho) in E. injection E as <- <-. exact L. }
    assert (PU : Forall2 (cols (dup (qs k kx tf))) (unpair (map vec_pair (concat (map (fun x => pw ctimes (fst x) (snd x)) (combine ins crosses))))) (unpair (map vec_pair (concat (map (fun x => pw ctimes (fst x) (snd x)) (combine ins' crosses')))))) by (apply (preds_units k kx tf KX); [assumption|assumption|congruence]).
    assert (OU : times_c (k oc * kx) (interleaved (opw ctimes o outs crosses)) (interleaved (opw ctimes o outs' crosses'))) by (apply (obs_units k kx tf KX); [assumption|assumption|congruence|exact Ho]).
    pose proof (HF o oc x x' Ho PU OU LB Fx Fx') as R.
    assert (Lj : (j < length (tf_in tf))%nat) by (apply nth_error_Some; congruence). destruct (proj2 (get_tensor_length _ _ _ Gz) j Lj) as (a & b & A1 & A2 & A3). destruct (proj2 (get_tensor_length _ _ _ Gz') j Lj) as (a' & b' & B1 & B2 & B3).
    exists (mkC a b), (mkC a' b'). unfold entry2. rewrite Ez, Ez'. split; [exact A3|]. split; [exact B3|].
    assert (Q : nth_error (qs k kx tf) j = Some (k ic * kx)) by (unfold qs; rewrite nth_error_map, Hjc; reflexivity). destruct (dup_nth (qs k kx tf) j) as [D1 D2]; [unfold qs; rewrite map_length; exact Lj|]. rewrite Q in D1, D2.
    assert (N1 : nth_error (combine (dup (qs k kx tf)) x) (j * 2) = Some (k ic * kx, a)) by (apply nth_combine; split; assumption). assert (N2 : nth_error (combine (dup (qs k kx tf)) x) (j * 2 + 1) = Some (k ic * kx, b)) by (apply nth_combine; split; assumption).
    destruct (Forall2_nth_error _ _ _ _ _ R N1) as (y & Ey & Q1). destruct (Forall2_nth_error _ _ _ _ _ R N2) as (y2 & Ey2 & Q2). assert (y = a') as -> by congruence. assert (y2 = b') as -> by congruence. cbn [fst snd] in Q1, Q2.
    pose proof (KI ic (nth_error_In _ _ Hjc)) as NI. assert (NZ : ~ k ic * kx == 0) by (intros E; apply Qmult_integral in E; tauto).
    assert (SOLVE : forall u v, k ic * kx * v == k oc * kx * u -> v == k oc / k ic * u).
    { intros u v E. setoid_replace (k oc / k ic * u) with ((k oc * kx * u) / (k ic * kx)) by (field; split; assumption). rewrite <- E. field. split; assumption. }
    split; cbn [re im cscale]; apply SOLVE; assumption.
  Qed.
End Regress.
