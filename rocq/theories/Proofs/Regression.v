(** Proofs for C50: building the real system *)
From Coq Require Import String.
From Verif Require Import Base.Prelude Base.ListUtil Base.NdArray Base.Cplx
  Model.Sampling Model.Time Model.Decimate Model.Window Model.Spectra Model.Calibrate Model.Gather Model.Regression
  Spec.Gather Spec.Regression Proofs.Sampling Proofs.TimeMeta Proofs.Spectra Proofs.Calibrate Proofs.GatherData.
Open Scope list_scope. Open Scope Q_scope.

(** ** Strides *)
Definition unpair {B} (ps : list (B * B)) : list B := concat (map (fun p => [fst p; snd p]) ps).
Lemma unpair_cons {B} (p : B * B) ps : unpair (p :: ps) = fst p :: snd p :: unpair ps.
Proof. reflexivity. Qed.
Lemma unpair_length {B} (ps : list (B * B)) : length (unpair ps) = (2 * length ps)%nat.
Proof. induction ps as [|p ps IH]; [reflexivity|]. rewrite unpair_cons. cbn [length]. rewrite IH. lia. Qed.
Lemma unpair_app {B} (ps qs : list (B * B)) : unpair (ps ++ qs) = unpair ps ++ unpair qs.
Proof. unfold unpair. rewrite map_app, concat_app. reflexivity. Qed.
Lemma unpair_all {B} n (d : list B) : length d = (2 * n)%nat -> exists ps, d = unpair ps /\ length ps = n.
Proof.
  revert d. induction n as [|n IH]; intros d H.
  - destruct d; [|cbn in H; lia]. exists []. split; reflexivity.
  - destruct d as [|a [|b d]]; [cbn in H; lia|cbn in H; lia|]. destruct (IH d) as (ps & -> & L); [cbn in H; lia|].
    exists ((a, b) :: ps). split; [reflexivity|cbn; lia].
Qed.
Lemma unpair_in {B} (ps : list (B * B)) x : In x (unpair ps) <-> exists p, In p ps /\ (x = fst p \/ x = snd p).
Proof.
  induction ps as [|p ps IH]; [cbn; split; [tauto|intros (p & [] & _)]|]. rewrite unpair_cons. cbn [In]. rewrite IH. split.
  - intros [<-|[<-|(q & H1 & H2)]]; [exists p; auto|exists p; auto|exists q; auto].
  - intros (q & [<-|H1] & H2); [destruct H2 as [-> | ->]; auto|]. right. right. exists q. auto.
Qed.

Section Stride.
  Context {B C : Type} (f : B -> C -> res B) (g : B -> C -> B).
  Lemma stride0 vals ps : length vals = length ps -> (forall v p, In (v, p) (combine vals ps) -> f (fst p) v = Ok (g (fst p) v)) ->
    stride_upd f 0 vals (unpair ps) = Ok (unpair (map (fun vp => (g (fst (snd vp)) (fst vp), snd (snd vp))) (combine vals ps))).
  Proof.
    revert ps. induction vals as [|v vs IH]; intros [|p ps] L H; try discriminate; [reflexivity|].
    rewrite unpair_cons. cbn [stride_upd]. rewrite (H v p (or_introl eq_refl)). cbn [bind].
    rewrite IH; [reflexivity|cbn in L; lia|]. intros v' p' K. apply H. right. exact K.
  Qed.
  Lemma stride1 vals ps : length vals = length ps -> (forall v p, In (v, p) (combine vals ps) -> f (snd p) v = Ok (g (snd p) v)) ->
    stride_upd f 1 vals (unpair ps) = Ok (unpair (map (fun vp => (fst (snd vp), g (snd (snd vp)) (fst vp))) (combine vals ps))).
  Proof.
    revert ps. induction vals as [|v vs IH]; intros [|p ps] L H; try discriminate; [reflexivity|].
    rewrite unpair_cons. cbn [stride_upd]. rewrite (H v p (or_introl eq_refl)). cbn [bind].
    rewrite IH; [reflexivity|cbn in L; lia|]. intros v' p' K. apply H. right. exact K.
  Qed.
End Stride.

Lemma fill_vec (a b : list Q) n d : length a = n -> length b = n -> length d = (2 * n)%nat ->
  exists d', stride_upd put 0 a d = Ok d' /\ length d' = (2 * n)%nat /\ stride_upd put 1 b d' = Ok (unpair (combine a b)).
Proof.
  intros La Lb Ld. destruct (unpair_all n d Ld) as (ps & -> & Lp).
  rewrite (stride0 put (fun _ v => v)) by (try congruence; reflexivity).
  eexists. split; [reflexivity|]. split; [rewrite unpair_length, map_length, combine_length; lia|].
  rewrite (stride1 put (fun _ v => v)).
  - f_equal. f_equal. clear Ld. revert b ps n La Lb Lp. induction a as [|x a IH]; intros [|y b] [|p ps] n La Lb Lp; cbn in *; try congruence; try lia.
    f_equal. apply (IH b ps (length a)); lia.
  - rewrite map_length, combine_length. lia.
  - reflexivity.
Qed.

(** ** One window *)
Definition vec_pair (v : list cq) : list Q * list Q :=
  (unpair (combine (map re v) (map Qopp (map im v))), unpair (combine (map im v) (map re v))).

Lemma put_block0 n (va : list (list Q)) (ps : list (list Q * list Q)) off : (off < 2)%nat -> length va = length ps ->
  (forall v, In v va -> length v = n) -> (forall p, In p ps -> length (fst p) = (2 * n)%nat) ->
  put_block 0 off va (unpair ps) =
  Ok (unpair (map (fun vp => (match stride_upd put off (fst vp) (fst (snd vp)) with Ok r => r | Err _ => [] end, snd (snd vp))) (combine va ps))).
Proof.
  intros Ho L Hv Hp. unfold put_block. rewrite (stride0 _ (fun x v => match stride_upd put off v x with Ok r => r | Err _ => [] end)); [reflexivity|exact L|].
  intros v p K. pose proof (in_combine_l _ _ _ _ K) as K1. pose proof (in_combine_r _ _ _ _ K) as K2.
  destruct (unpair_all n (fst p) (Hp p K2)) as (qs & E & Lq). rewrite E.
  assert (off = 0 \/ off = 1)%nat as [-> | ->] by lia.
  - rewrite (stride0 put (fun _ v => v)); [reflexivity|rewrite Lq; apply Hv; exact K1|reflexivity].
  - rewrite (stride1 put (fun _ v => v)); [reflexivity|rewrite Lq; apply Hv; exact K1|reflexivity].
Qed.
Lemma put_block1 n (va : list (list Q)) (ps : list (list Q * list Q)) off : (off < 2)%nat -> length va = length ps ->
  (forall v, In v va -> length v = n) -> (forall p, In p ps -> length (snd p) = (2 * n)%nat) ->
  put_block 1 off va (unpair ps) =
  Ok (unpair (map (fun vp => (fst (snd vp), match stride_upd put off (fst vp) (snd (snd vp)) with Ok r => r | Err _ => [] end)) (combine va ps))).
Proof.
  intros Ho L Hv Hp. unfold put_block. rewrite (stride1 _ (fun x v => match stride_upd put off v x with Ok r => r | Err _ => [] end)); [reflexivity|exact L|].
  intros v p K. pose proof (in_combine_l _ _ _ _ K) as K1. pose proof (in_combine_r _ _ _ _ K) as K2.
  destruct (unpair_all n (snd p) (Hp p K2)) as (qs & E & Lq). rewrite E.
  assert (off = 0 \/ off = 1)%nat as [-> | ->] by lia.
  - rewrite (stride0 put (fun _ v => v)); [reflexivity|rewrite Lq; apply Hv; exact K1|reflexivity].
  - rewrite (stride1 put (fun _ v => v)); [reflexivity|rewrite Lq; apply Hv; exact K1|reflexivity].
Qed.

Lemma stride0_length (a d r : list Q) n : length a = n -> length d = (2 * n)%nat -> stride_upd put 0 a d = Ok r -> length r = (2 * n)%nat.
Proof.
  intros La Ld H. destruct (unpair_all n d Ld) as (ps & -> & Lp). rewrite (stride0 put (fun _ v => v)) in H by (try congruence; reflexivity).
  injection H as <-. rewrite unpair_length, map_length, combine_length. lia.
Qed.

Lemma fill_mat n (s : list (list cq)) (d : list (list Q)) : (forall v, In v s -> length v = n) ->
  length d = (2 * length s)%nat -> (forall row, In row d -> length row = (2 * n)%nat) ->
  (d1 <- put_block 0 0 (map (map re) s) d ;;
   d2 <- put_block 0 1 (map (map Qopp) (map (map im) s)) d1 ;;
   d3 <- put_block 1 0 (map (map im) s) d2 ;;
   put_block 1 1 (map (map re) s) d3) = Ok (unpair (map vec_pair s)).
Proof.
  intros Hs Ld Hd. destruct (unpair_all (length s) d Ld) as (ps & -> & Lp).
  assert (Hp : forall p, In p ps -> length (fst p) = (2 * n)%nat /\ length (snd p) = (2 * n)%nat).
  { intros p K. split; apply Hd; apply unpair_in; exists p; auto. }
  clear Hd Ld.
  assert (R : forall h : cq -> Q, forall v, In v (map (map h) s) -> length v = n) by (intros h v K; apply in_map_iff in K; destruct K as (u & <- & K); rewrite map_length; apply Hs; exact K).
  rewrite (put_block0 n) by (try apply R; try (rewrite map_length; congruence); try lia; intros p K; apply Hp; exact K). cbn [bind].
  set (p1 := map _ (combine (map (map re) s) ps)).
  assert (L1 : length p1 = length s) by (unfold p1; rewrite map_length, combine_length, map_length; lia).
  assert (H1 : forall p, In p p1 -> length (fst p) = (2 * n)%nat /\ length (snd p) = (2 * n)%nat).
  { intros p K. unfold p1 in K. apply in_map_iff in K. destruct K as ([v q] & <- & K). cbn [fst snd].
    pose proof (in_combine_l _ _ _ _ K) as K1. pose proof (in_combine_r _ _ _ _ K) as K2. destruct (Hp q K2) as [Q1 Q2]. split; [|exact Q2].
    destruct (fill_vec v v n (fst q) (R _ _ K1) (R _ _ K1) Q1) as (d' & E & E2 & _). rewrite E. exact E2. }
  rewrite (put_block0 n); [|lia|rewrite !map_length; congruence| |intros p K; apply H1; exact K].
  2:{ intros v K. apply in_map_iff in K. destruct K as (u & <- & K). rewrite map_length. apply (R im). exact K. }
  cbn [bind]. set (p2 := map _ (combine (map (map Qopp) (map (map im) s)) p1)).
  assert (L2 : length p2 = length s) by (unfold p2; rewrite map_length, combine_length, !map_length; lia).
  assert (H2 : forall p, In p p2 -> length (snd p) = (2 * n)%nat).
  { intros p K. unfold p2 in K. apply in_map_iff in K. destruct K as ([v q] & <- & K). cbn [fst snd]. apply H1. apply in_combine_r in K. exact K. }
  rewrite (put_block1 n); [|lia|rewrite !map_length; congruence|apply R|exact H2].
  cbn [bind]. set (p3 := map _ (combine (map (map im) s) p2)).
  assert (L3 : length p3 = length s) by (unfold p3; rewrite map_length, combine_length, !map_length; lia).
  assert (H3 : forall p, In p p3 -> length (snd p) = (2 * n)%nat).
  { intros p K. unfold p3 in K. apply in_map_iff in K. destruct K as ([v q] & <- & K). cbn [fst snd].
    pose proof (in_combine_l _ _ _ _ K) as K1. pose proof (in_combine_r _ _ _ _ K) as K2.
    destruct (fill_vec v v n (snd q) (R _ _ K1) (R _ _ K1) (H2 q K2)) as (d' & E & E2 & _). rewrite E. exact E2. }
  rewrite (put_block1 n); [|lia|rewrite !map_length; congruence|apply R|exact H3].
  f_equal. f_equal. unfold p3, p2, p1. clear - Hs Hp Lp. revert ps Hp Lp. induction s as [|v s IH]; intros [|p ps] Hp Lp; try discriminate; [reflexivity|].
  cbn [map combine fst snd]. f_equal; [|apply IH; [intros u K; apply Hs; right; exact K|intros q K; apply Hp; right; exact K|cbn in Lp; lia]].
  assert (LV : length v = n) by (apply Hs; left; reflexivity). destruct (Hp p (or_introl eq_refl)) as [P1 P2]. unfold vec_pair.
  destruct (fill_vec (map re v) (map Qopp (map im v)) n (fst p)) as (d1 & E1 & _ & F1); [rewrite map_length; exact LV|rewrite !map_length; exact LV|exact P1|].
  destruct (fill_vec (map im v) (map re v) n (snd p)) as (d2 & E2 & _ & F2); [rewrite map_length; exact LV|rewrite !map_length; exact LV|exact P2|].
  rewrite E1, F1, E2, F2. reflexivity.
Qed.

(** ** Complex algebra *)
Lemma dot_pair (p Z : list cq) : length p = length Z ->
  dot (fst (vec_pair p)) (interleaved Z) == re (cdot Z p) /\ dot (snd (vec_pair p)) (interleaved Z) == im (cdot Z p).
Proof.
  revert Z. induction p as [|a p IH]; intros [|z Z] L; try discriminate; [split; reflexivity|].
  destruct (IH Z) as [H1 H2]; [cbn in L; lia|]. unfold vec_pair in *. cbn [fst snd] in *. cbn [map combine]. unfold interleaved in *. cbn [map concat app].
  rewrite !unpair_cons. cbn [fst snd dot cdot cplus ctimes re im]. rewrite H1, H2. split; ring.
Qed.
Lemma Forall2_unpair {B C} (R : B -> C -> Prop) ps qs :
  Forall2 R (unpair ps) (unpair qs) <-> Forall2 (fun p q => R (fst p) (fst q) /\ R (snd p) (snd q)) ps qs.
Proof.
  revert qs. induction ps as [|p ps IH]; intros [|q qs].
  - split; constructor.
  - split; intros H; inversion H.
  - split; intros H; inversion H.
  - rewrite !unpair_cons. split; intros H.
    + inversion H as [|? ? ? ? H1 H2]; subst. inversion H2 as [|? ? ? ? H3 H4]; subst. constructor; [split; assumption|]. apply IH. exact H4.
    + inversion H as [|? ? ? ? [H1 H2] H3]; subst. constructor; [exact H1|]. constructor; [exact H2|]. apply IH. exact H3.
Qed.

(** get_tensor undoes the interleaving *)
Lemma get_tensor_interleaved tf Z : length Z = length (tf_in tf) -> get_tensor tf (interleaved Z) = Ok Z.
Proof.
  intros H. unfold get_tensor. rewrite <- H. clear H. unfold interleaved.
  assert (G : forall k pre, length pre = (2 * k)%nat ->
    mapM (fun in_idx => a <- nth_res (pre ++ concat (map (fun z => [re z; im z]) Z)) (in_idx * 2) ;; b <- nth_res (pre ++ concat (map (fun z => [re z; im z]) Z)) (in_idx * 2 + 1) ;; Ok (mkC a b)) (seq k (length Z)) = Ok Z).
  { induction Z as [|z Z IH]; intros k pre L; [reflexivity|]. cbn [length seq mapM map concat].
    assert (N : forall i, nth_res (pre ++ re z :: im z :: concat (map (fun z : cq => [re z; im z]) Z)) (k * 2 + i) = nth_res (re z :: im z :: concat (map (fun z : cq => [re z; im z]) Z)) i).
    { intros i. unfold nth_res. rewrite nth_error_app2 by lia. replace (k * 2 + i - length pre)%nat with i by lia. reflexivity. }
    cbn [app]. rewrite (N 1%nat). replace (k * 2)%nat with (k * 2 + 0)%nat by lia. rewrite (N 0%nat). cbn [nth_res nth_error bind].
    specialize (IH (S k) (pre ++ [re z; im z])). rewrite <- app_assoc in IH. cbn [app] in IH.
    rewrite IH by (rewrite app_length; cbn; lia). cbn [bind]. destruct z; reflexivity. }
  apply (G 0%nat []). reflexivity.
Qed.
Lemma interleaved_all n (x : list Q) : length x = (2 * n)%nat -> exists Z, x = interleaved Z /\ length Z = n.
Proof.
  intros H. destruct (unpair_all n x H) as (ps & -> & L). exists (map (fun p => mkC (fst p) (snd p)) ps). split; [|rewrite map_length; exact L].
  unfold interleaved, unpair. rewrite map_map. reflexivity.
Qed.
Lemma interleaved_length Z : length (interleaved Z) = (2 * length Z)%nat.
Proof. unfold interleaved. induction Z as [|z Z IH]; [reflexivity|]. cbn [map concat app length]. rewrite IH. lia. Qed.

(** ** Assembling *)
Lemma swap_ok (h : cq -> cq -> cq) irow crow :
  swap (length crow) (map (fun x => map (fun c => h x c) crow) irow) = Ok (map (fun c => map (fun x => h x c) irow) crow).
Proof.
  unfold swap. assert (G : forall k pre, length pre = k ->
    mapM (fun c => mapM (fun row => nth_res row c) (map (fun x => map (fun c => h x c) (pre ++ crow)) irow)) (seq k (length crow)) = Ok (map (fun c => map (fun x => h x c) irow) crow)).
  { induction crow as [|c crow IH]; intros k pre L; [reflexivity|]. cbn [length seq mapM map].
    assert (E : mapM (fun row => nth_res row k) (map (fun x => map (fun c0 => h x c0) (pre ++ c :: crow)) irow) = Ok (map (fun x => h x c) irow)).
    { rewrite mapM_map. apply mapM_eq. intros x _. unfold nth_res. rewrite nth_error_map, nth_error_app2 by lia. replace (k - length pre)%nat with 0%nat by lia. reflexivity. }
    rewrite E. cbn [bind]. specialize (IH (S k) (pre ++ [c])). rewrite <- app_assoc in IH. cbn [app] in IH. rewrite IH by (rewrite app_length; cbn; lia). reflexivity. }
  apply (G 0%nat []). reflexivity.
Qed.

Section Prep.
  Variables (cmul : cq -> cq -> cq) (junk1 : nat -> list Q) (junk2 : nat -> nat -> list (list Q)).
  Hypothesis J : junk_shape junk1 junk2.

  (** the power vectors of a window: for each cross channel, the inputs times its conjugate *)
  Definition pw (irow crow : list cq) : list (list cq) := map (fun c => map (fun x => cmul x (conj_ c)) irow) crow.

  Lemma obs_chan_ok v : obs_chan junk1 v = Ok (interleaved v).
  Proof.
    unfold obs_chan. destruct (fill_vec (map re v) (map im v) (length v) (junk1 (2 * length v))) as (d & E1 & _ & E2); [apply map_length|apply map_length|apply J|].
    rewrite E1. cbn [bind]. rewrite E2. f_equal. unfold unpair, interleaved. f_equal. clear. induction v as [|z v IH]; [reflexivity|]. cbn. f_equal. exact IH.
  Qed.
  Lemma preds_win_ok tf irow crow : length irow = length (tf_in tf) -> length crow = length (tf_cross tf) ->
    preds_win junk2 tf (map (fun x => map (fun y => cmul x (conj_ y)) crow) irow) = Ok (unpair (map vec_pair (pw irow crow))).
  Proof.
    intros Li Lc. unfold preds_win. rewrite <- Lc. rewrite (swap_ok (fun x c => cmul x (conj_ c))). cbn [bind]. fold (pw irow crow).
    destruct (proj2 J (2 * length crow)%nat (2 * length (tf_in tf))%nat) as [J1 J2].
    apply (fill_mat (length (tf_in tf))).
    - intros v K. unfold pw in K. apply in_map_iff in K. destruct K as (c & <- & _). rewrite map_length. exact Li.
    - unfold pw. rewrite map_length. exact J1.
    - exact J2.
  Qed.

  Lemma powers_ok a cross : length cross = length a ->
    powers cmul a cross = Ok (map (fun x => map (fun u => map (fun y => cmul u (conj_ y)) (snd x)) (fst x)) (combine a cross)).
  Proof. intros L. unfold powers, zip_rows. rewrite L, Nat.eqb_refl. reflexivity. Qed.

  (** predictors of all windows *)
  Lemma preds_loop_ok tf wins : (forall irow crow, In (irow, crow) wins -> length irow = length (tf_in tf) /\ length crow = length (tf_cross tf)) ->
    forall k done rest, length done = (k * (2 * length (tf_cross tf)))%nat -> length rest = (length wins * (2 * length (tf_cross tf)))%nat ->
    preds_loop junk2 tf (combine (seq k (length wins)) (map (fun x => map (fun u => map (fun y => cmul u (conj_ y)) (snd x)) (fst x)) wins)) (done ++ rest)
      = Ok (done ++ unpair (map vec_pair (concat (map (fun x => pw (fst x) (snd x)) wins)))).
  Proof.
    intros HW. induction wins as [|[irow crow] wins IH]; intros k done rest Ld Lr.
    - cbn in Lr. destruct rest; [|cbn in Lr; lia]. reflexivity.
    - cbn [length seq map combine preds_loop fst snd]. destruct (HW irow crow (or_introl eq_refl)) as [Li Lc].
      rewrite (preds_win_ok tf irow crow Li Lc). cbn [bind]. set (pw_ := (2 * length (tf_cross tf))%nat) in *.
      assert (LR : length (unpair (map vec_pair (pw irow crow))) = pw_) by (rewrite unpair_length, map_length; unfold pw; rewrite map_length; unfold pw_; lia).
      unfold slice_set. rewrite LR, app_length. cbn [length] in Lr.
      assert (Nat.min (k * pw_ + pw_) (length done + length rest) - k * pw_ = pw_)%nat as -> by nia. rewrite Nat.eqb_refl. cbn [bind].
      rewrite <- Ld, firstn_app, Nat.sub_diag, firstn_O, app_nil_r, firstn_all, skipn_app. rewrite (skipn_all2 done) by lia. cbn [app].
      replace (length done + pw_ - length done)%nat with pw_ by lia. rewrite app_assoc.
      rewrite (IH (fun a b K => HW a b (or_intror K)) (S k) (done ++ unpair (map vec_pair (pw irow crow))) (skipn pw_ rest)).
      + cbn [concat]. rewrite map_app, unpair_app, app_assoc. reflexivity.
      + rewrite app_length, LR. nia.
      + rewrite skipn_length. nia.
  Qed.
  Lemma get_preds_ok tf ins crosses : length crosses = length ins -> wide (length (tf_in tf)) ins -> wide (length (tf_cross tf)) crosses ->
    exists p, powers cmul ins crosses = Ok p /\
      get_preds junk2 tf p = Ok (unpair (map vec_pair (concat (map (fun x => pw (fst x) (snd x)) (combine ins crosses))))).
  Proof.
    intros L Wi Wc. eexists. split; [apply powers_ok; exact L|]. unfold get_preds, enum. rewrite map_length.
    apply (preds_loop_ok tf (combine ins crosses)) with (k := 0%nat) (done := []).
    - intros irow crow K. split; [apply Wi; eapply in_combine_l; exact K|apply Wc; eapply in_combine_r; exact K].
    - reflexivity.
    - apply J.
  Qed.

  (** observations *)
  Lemma sget_sset {B} k (v : B) d j : sget j (sset k v d) = if String.eqb j k then Ok v else sget j d.
  Proof.
    induction d as [|[i x] t IH]; cbn [sset sget].
    - rewrite String.eqb_sym. reflexivity.
    - destruct (String.eqb_spec i k) as [->|N]; cbn [sget].
      + rewrite (String.eqb_sym j k). destruct (String.eqb k j); reflexivity.
      + destruct (String.eqb_spec i j) as [->|N2]; [|exact IH]. destruct (String.eqb_spec j k); [congruence|reflexivity].
  Qed.
  (** the powers of output channel number [o] *)
  Definition opw (o : nat) (outs crosses : list (list cq)) : list cq :=
    concat (map (fun x => match nth_error (fst x) o with Some z => map (fun c => cmul z (conj_ c)) (snd x) | None => [] end) (combine outs crosses)).
  Lemma obs_loop_ok outs crosses n : wide n outs -> forall chans k obs, (k + length chans <= n)%nat -> NoDup chans ->
    exists obs', obs_loop junk1 (map (fun x => map (fun u => map (fun y => cmul u (conj_ y)) (snd x)) (fst x)) (combine outs crosses))
        (combine (seq k (length chans)) chans) obs = Ok obs' /\
      (forall i c, nth_error chans i = Some c -> sget c obs' = Ok (interleaved (opw (k + i) outs crosses))) /\
      (forall c, ~ In c chans -> sget c obs' = sget c obs).
  Proof.
    intros W. induction chans as [|c chans IH]; intros k obs Hk ND.
    - exists obs. split; [reflexivity|]. split; [intros [|i] c; discriminate|reflexivity].
    - cbn [length seq combine obs_loop]. apply NoDup_cons_iff in ND. destruct ND as [NI ND].
      assert (M : mapM (fun win => nth_res win k) (map (fun x => map (fun u => map (fun y => cmul u (conj_ y)) (snd x)) (fst x)) (combine outs crosses)) =
        Ok (map (fun x => match nth_error (fst x) k with Some z => map (fun c0 => cmul z (conj_ c0)) (snd x) | None => [] end) (combine outs crosses))).
      { rewrite mapM_map. apply mapM_eq. intros [orow crow] K. unfold nth_res. cbn [fst snd]. rewrite nth_error_map.
        apply in_combine_l in K. apply W in K. destruct (nth_error orow k) eqn:E; [reflexivity|]. apply nth_error_None in E. cbn [length] in Hk. lia. }
      rewrite M. cbn [bind]. rewrite obs_chan_ok. cbn [bind]. fold (opw k outs crosses).
      destruct (IH (S k) (sset c (interleaved (opw k outs crosses)) obs)) as (obs' & E & S1 & S2); [cbn [length] in Hk; lia|exact ND|].
      exists obs'. split; [exact E|]. split.
      + intros [|i] c' Hc; cbn [nth_error] in Hc.
        * injection Hc as <-. rewrite (S2 c NI), sget_sset, String.eqb_refl, Nat.add_0_r. reflexivity.
        * rewrite (S1 i c' Hc). rewrite <- plus_n_Sm. reflexivity.
      + intros c' K. rewrite (S2 c') by (intros K'; apply K; right; exact K'). rewrite sget_sset.
        destruct (String.eqb_spec c' c) as [->|]; [exfalso; apply K; left; reflexivity|reflexivity].
  Qed.
  Lemma get_obs_ok tf outs crosses : length crosses = length outs -> wide (length (tf_out tf)) outs -> NoDup (tf_out tf) ->
    exists p obs, powers cmul outs crosses = Ok p /\ get_obs junk1 tf p = Ok obs /\
      forall i c, nth_error (tf_out tf) i = Some c -> sget c obs = Ok (interleaved (opw i outs crosses)).
  Proof.
    intros L W ND. eexists. destruct (obs_loop_ok outs crosses _ W (tf_out tf) 0 []) as (obs & E & S1 & _); [lia|exact ND|].
    exists obs. split; [apply powers_ok; exact L|]. split; [exact E|]. intros i c H. apply (S1 i c H).
  Qed.

  (** ** the equivalence *)
  Lemma system_iff n o outs ins crosses Z : length ins = length outs -> length crosses = length outs -> wide (S o + n) outs \/ (forall orow, In orow outs -> (o < length orow)%nat) ->
    wide (length Z) ins ->
    real_system (unpair (map vec_pair (concat (map (fun x => pw (fst x) (snd x)) (combine ins crosses))))) (interleaved Z) (interleaved (opw o outs crosses))
    <-> complex_system cmul Z o outs ins crosses.
  Proof.
    intros Li Lc Wo Wi. assert (Wo' : forall orow, In orow outs -> (o < length orow)%nat).
    { destruct Wo as [Wo|Wo]; [|exact Wo]. intros orow K. rewrite (Wo orow K). lia. } clear Wo.
    unfold real_system.
    assert (IU : forall v, interleaved v = unpair (map (fun z => (re z, im z)) v)) by (intros v; unfold interleaved, unpair; rewrite map_map; reflexivity).
    rewrite (IU (opw o outs crosses)), Forall2_unpair.
    assert (S : Forall2 (fun p q => dot (fst p) (interleaved Z) == fst q /\ dot (snd p) (interleaved Z) == snd q)
        (map vec_pair (concat (map (fun x => pw (fst x) (snd x)) (combine ins crosses)))) (map (fun z => (re z, im z)) (opw o outs crosses))
      <-> Forall2 (fun p q => ceq (cdot Z p) q) (concat (map (fun x => pw (fst x) (snd x)) (combine ins crosses))) (opw o outs crosses)).
    { assert (LP : forall p, In p (concat (map (fun x => pw (fst x) (snd x)) (combine ins crosses))) -> length p = length Z).
      { intros p K. apply in_concat in K. destruct K as (m & K1 & K2). apply in_map_iff in K1. destruct K1 as ([ir cr] & <- & K1). unfold pw in K2. apply in_map_iff in K2.
        destruct K2 as (c & <- & _). rewrite map_length. apply Wi. apply in_combine_l in K1. exact K1. }
      revert LP. generalize (concat (map (fun x => pw (fst x) (snd x)) (combine ins crosses))) as ps. generalize (opw o outs crosses) as qs. intros qs ps LP.
      revert qs. induction ps as [|p ps IH]; intros [|q qs]; cbn [map]; try (split; intros K; inversion K; fail); [split; constructor|].
      destruct (dot_pair p Z (LP p (or_introl eq_refl))) as [D1 D2].
      split; intros K; inversion K as [|? ? ? ? K1 K2]; subst; (constructor; [|apply IH; [intros u Hu; apply LP; right; exact Hu|exact K2]]); cbn [fst snd] in *.
      - destruct K1 as [K1 K3]. rewrite D1 in K1. rewrite D2 in K3. split; assumption.
      - destruct K1 as [K1 K3]. rewrite D1, D2. split; assumption. }
    rewrite S. clear S IU. unfold opw.
    revert ins crosses Li Lc Wi. induction outs as [|orow outs IH]; intros ins crosses Li Lc Wi.
    - destruct ins; [|discriminate]. split; [|constructor]. intros _ [|w]; intros; discriminate.
    - destruct ins as [|irow ins]; [discriminate|]. destruct crosses as [|crow crosses]; [discriminate|]. cbn [combine map concat fst snd].
      destruct (nth_error orow o) as [z|] eqn:Ez; [|apply nth_error_None in Ez; specialize (Wo' orow (or_introl eq_refl)); lia].
      assert (IH' := IH (fun r K => Wo' r (or_intror K)) ins crosses ltac:(cbn in Li; lia) ltac:(cbn in Lc; lia) (fun r K => Wi r (or_intror K))). clear IH.
      assert (SP : forall {A1 B1} (R : A1 -> B1 -> Prop) a1 a2 b1 b2, length a1 = length b1 -> (Forall2 R (a1 ++ a2) (b1 ++ b2) <-> Forall2 R a1 b1 /\ Forall2 R a2 b2)).
      { clear. intros A1 B1 R a1 a2. induction a1 as [|x a1 IH]; intros [|y b1] b2 L; try discriminate; cbn [app].
        - split; [intros K; split; [constructor|exact K]|intros [_ K]; exact K].
        - split.
          + intros K. inversion K as [|? ? ? ? K1 K2]; subst. apply IH in K2; [|cbn in L; lia]. destruct K2. split; [constructor; assumption|assumption].
          + intros [K1 K2]. inversion K1 as [|? ? ? ? K3 K4]; subst. constructor; [exact K3|]. apply IH; [cbn in L; lia|]. split; assumption. }
      rewrite SP by (unfold pw; rewrite !map_length; reflexivity). rewrite IH'. clear IH' SP.
      assert (HD : Forall2 (fun p q => ceq (cdot Z p) q) (pw irow crow) (map (fun c => cmul z (conj_ c)) crow) <->
        forall c, In c crow -> ceq (cdot Z (map (fun x => cmul x (conj_ c)) irow)) (cmul z (conj_ c))).
      { unfold pw. clear. induction crow as [|c crow IH]; cbn [map]; [split; [intros _ c []|constructor]|]. split.
        - intros K. inversion K as [|? ? ? ? K1 K2]; subst. intros c' [<-|Hc]; [exact K1|]. apply (proj1 IH K2). exact Hc.
        - intros K. constructor; [apply K; left; reflexivity|]. apply IH. intros c' Hc. apply K. right. exact Hc. }
      rewrite HD. split.
      + intros [K1 K2] [|w] orow' irow' crow' z' c H1 H2 H3 H4 H5; cbn [nth_error] in H1, H2, H3.
        * assert (z' = z) by congruence. subst z'. assert (irow' = irow) by congruence. subst. apply K1. congruence.
        * apply (K2 w orow' irow' crow' z' c); assumption.
      + intros K. split; [intros c Hc; apply (K 0%nat orow irow crow z c); try reflexivity; assumption|].
        intros w orow' irow' crow' z' c H1 H2 H3. apply (K (Datatypes.S w) orow' irow' crow' z' c); assumption.
  Qed.
End Prep.
