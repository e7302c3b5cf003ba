(** Proofs for C43 and C44 *)
From Coq Require Import String Ascii.
From Verif Require Import Base.Prelude Base.Rounding Base.ListUtil Base.Interp Base.NdArray Base.Cplx
  Model.Sampling Model.Time Model.Decimate Model.Window Model.Spectra Model.Calibrate Spec.Spectra Spec.Calibrate
  Proofs.Sampling Proofs.TimeMeta Proofs.Spectra.
Open Scope list_scope. Open Scope Q_scope.

Lemma get_cal_some readers c cal : get_cal_data readers c = Some cal <-> first_success readers c cal.
Proof.
  induction readers as [|r t IH]; cbn [get_cal_data].
  - split; [discriminate|]. intros (b & r & a & H & _). destruct b; discriminate.
  - destruct (r c) as [cal'|e] eqn:E.
    + split.
      * intros H. injection H as ->. exists [], r, t. split; [reflexivity|]. split; [exact E|]. intros ? [].
      * intros (b & r0 & a & H & H1 & H2). destruct b as [|b0 b]; injection H as -> ->; [congruence|].
        destruct (H2 b0 (or_introl eq_refl)) as [e He]. congruence.
    + rewrite IH. split.
      * intros (b & r0 & a & -> & H1 & H2). exists (r :: b), r0, a. split; [reflexivity|]. split; [exact H1|].
        intros r' [<-|Hr]; [eauto|auto].
      * intros (b & r0 & a & H & H1 & H2). destruct b as [|b0 b]; injection H as -> ->; [congruence|].
        exists b, r0, a. split; [reflexivity|]. split; [exact H1|]. intros r' Hr. apply H2. right. exact Hr.
Qed.
Lemma get_cal_none readers c : get_cal_data readers c = None <-> no_success readers c.
Proof.
  unfold no_success. induction readers as [|r t IH]; cbn [get_cal_data].
  - split; [intros _ r []|reflexivity].
  - destruct (r c) as [cal'|e] eqn:E.
    + split; [discriminate|]. intros H. destruct (H r (or_introl eq_refl)) as [e He]. congruence.
    + rewrite IH. split; [intros H r' [<-|Hr]; eauto|]. intros H r' Hr. apply H. right. exact Hr.
Qed.

Lemma first_index_in c cs : In c cs -> exists i, first_index c cs = Some i /\ nth_error cs i = Some c.
Proof.
  induction cs as [|x t IH]; intros H; [destruct H|]. cbn [first_index]. destruct (String.eqb_spec x c) as [->|Hn].
  - exists 0%nat. split; reflexivity.
  - destruct H as [H|H]; [congruence|]. destruct (IH H) as (i & E & N). exists (S i). rewrite E. split; [reflexivity|exact N].
Qed.

Section Cal.
  Variable cis : Q -> cq.
  Variable cdiv : cq -> cq -> cq.

  Lemma mapM_total {A B} (f : A -> res B) l : (forall x, In x l -> exists y, f x = Ok y) -> exists r, mapM f l = Ok r.
  Proof.
    induction l as [|x t IH]; intros H; [eexists; reflexivity|]. cbn [mapM].
    destruct (H x (or_introl eq_refl)) as [y Hy]. destruct IH as [r Hr]; [intros; apply H; right; assumption|].
    rewrite Hy, Hr. eexists. reflexivity.
  Qed.

  Lemma combine_nonempty {A B} (a : list A) (b : list B) : a <> [] -> length b = length a -> combine a b <> [].
  Proof. destruct a, b; cbn; congruence. Qed.

  Lemma interpolate_ok freqs cal : good_cal cal -> exists tf, interpolate cis freqs cal = Ok tf /\ length tf = length freqs /\
    forall j f, nth_error freqs j = Some f -> exists mag phs, interpolates (combine (cal_freq cal) (cal_mag cal)) f mag /\
      interpolates (combine (cal_freq cal) (cal_phase cal)) f phs /\ nth_error tf j = Some (cscale mag (cis phs)).
  Proof.
    intros (H1 & H2 & H3 & H4). unfold interpolate.
    rewrite H2, H3, Nat.eqb_refl. cbn [negb].
    destruct (Nat.eqb_spec (length (cal_freq cal)) 0) as [E|_]; [destruct (cal_freq cal); [congruence|discriminate]|].
    match goal with |- context [mapM ?f _] => destruct (mapM_total f freqs) as [tf Htf] end.
    { intros f _. destruct (np_interp_total (combine (cal_freq cal) (cal_mag cal)) f (combine_nonempty _ _ H1 H2)) as [m Hm].
      destruct (np_interp_total (combine (cal_freq cal) (cal_phase cal)) f (combine_nonempty _ _ H1 H3)) as [p Hp].
      rewrite Hm, Hp. eexists. reflexivity. }
    exists tf. split; [exact Htf|]. apply mapM_ok in Htf. split; [symmetry; eapply Forall2_length'; exact Htf|].
    intros j f Hj. destruct (Forall2_nth_error _ _ _ _ _ Htf Hj) as (z & Hz & E).
    apply bind_ok in E. destruct E as (m & Hm & E). apply bind_ok in E. destruct E as (p & Hp & E).
    exists m, p. split; [apply np_interp_spec; [apply ascending_increasing; exact H4|exact Hm]|].
    split; [apply np_interp_spec; [apply ascending_increasing; exact H4|exact Hp]|]. congruence.
  Qed.

  Lemma zip_with_length {A B C} (f : A -> B -> C) a b : length a = length b -> length (zip_with f a b) = length a.
  Proof. intros H. unfold zip_with. rewrite map_length, combine_length. lia. Qed.
  Lemma nth_zip_with {A B C} (f : A -> B -> C) a b j x y : nth_error a j = Some x -> nth_error b j = Some y ->
    nth_error (zip_with f a b) j = Some (f x y).
  Proof.
    intros H1 H2. unfold zip_with. rewrite nth_error_map.
    rewrite (proj2 (nth_combine a b j x y) (conj H1 H2)). reflexivity.
  Qed.

  (** the removal of the response from one row by a transfer function vector *)
  Lemma row_removed freqs cal tf row : good_cal cal -> interpolate cis freqs cal = Ok tf -> length row = length freqs ->
    response_removed cis cdiv cal freqs row (zip_with cdiv row tf).
  Proof.
    intros G H L. destruct (interpolate_ok freqs cal G) as (tf' & H' & L' & N). rewrite H in H'. injection H' as <-.
    split; [apply zip_with_length; congruence|]. intros j f z Hf Hz. destruct (N j f Hf) as (m & p & Im & Ip & E).
    exists m, p. split; [exact Im|]. split; [exact Ip|]. apply nth_zip_with; assumption.
  Qed.

  Lemma column_nd3 (x : list (list (list cq))) idx C F : shaped x C F -> (idx < C)%nat ->
    exists col, column (nd3 x) idx = Ok col /\ length col = length x /\ (forall r, In r col -> length r = F) /\
      forall w win, nth_error x w = Some win -> nth_error col w = nth_error win idx.
  Proof.
    unfold column, nd3. induction x as [|win t IH]; intros H Hi.
    - exists []. split; [reflexivity|]. split; [reflexivity|]. split; [intros _ []|]. intros [|w] win; discriminate.
    - destruct IH as (col & E & L & LF & N); [intros w Hw; apply H; right; exact Hw|exact Hi|].
      destruct (H win (or_introl eq_refl)) as [HC HF]. destruct (nth_error win idx) as [r|] eqn:Er.
      2:{ apply nth_error_None in Er. lia. }
      exists (r :: col). cbn [map mapM nd_nth nd2]. rewrite nth_error_map, Er. cbn [option_map nd1]. rewrite scalars_map.
      cbn [bind]. rewrite E. cbn [bind]. split; [reflexivity|]. split; [cbn; congruence|]. split.
      + intros r' [<-|Hr]; [apply HF; eapply nth_error_In; exact Er|apply LF; exact Hr].
      + intros [|w] win' Hw; cbn in Hw; [injection Hw as <-; cbn; congruence|]. cbn. apply N. exact Hw.
  Qed.

  Lemma mapM_eq {A B} (f : A -> res B) g l : (forall x, In x l -> f x = Ok (g x)) -> mapM f l = Ok (map g l).
  Proof.
    induction l as [|x t IH]; intros H; [reflexivity|]. cbn [mapM map]. rewrite (H x (or_introl eq_refl)), IH; [reflexivity|].
    intros; apply H; right; assumption.
  Qed.

  Lemma squeeze_nd1 {A} (r : list A) : squeeze (nd1 r) = match r with [x] => Sc x | _ => nd1 r end.
  Proof.
    unfold nd1. cbn [squeeze]. rewrite map_map. destruct r as [|a [|b r]]; reflexivity.
  Qed.
  Lemma scalars_nd1s {A} (r : list A) t : scalars (nd1 r :: t) = None.
  Proof. reflexivity. Qed.

  Lemma squeeze_col {A} (r : list A) : squeeze (Ax [nd1 r]) = squeeze (nd1 r).
  Proof. reflexivity. Qed.
  Lemma squeeze_many {A} (a b : list A) rows : 
    squeeze (Ax (map (fun r => Ax [nd1 r]) (a :: b :: rows))) = Ax (map (fun r => squeeze (nd1 r)) (a :: b :: rows)).
  Proof.
    remember (a :: b :: rows) as l. cbn [squeeze]. rewrite map_map. subst l. cbn [map]. reflexivity.
  Qed.
  (** squeezing the quotient and assigning it back keeps the rows *)
  Lemma broadcast_squeeze {A} (rows : list (list A)) F : (forall r, In r rows -> length r = F) -> F <> 1%nat \/ (length rows <= 1)%nat ->
    broadcast_to (length rows) F (squeeze (Ax (map (fun r => Ax [nd1 r]) rows))) = Ok rows.
  Proof.
    intros H HF. destruct rows as [|a [|b rows]]; [reflexivity| |].
    - pose proof (H a (or_introl eq_refl)) as La.
      assert (S : squeeze (Ax (map (fun r : list A => Ax [nd1 r]) [a])) = squeeze (nd1 a)) by reflexivity.
      rewrite S. rewrite squeeze_nd1. destruct a as [|x [|y a]].
      + cbn. cbn in La. subst F. reflexivity.
      + cbn in La. subst F. reflexivity.
      + unfold nd1. cbn [length broadcast_to]. rewrite scalars_map. cbn [bind]. rewrite La, Nat.eqb_refl. reflexivity.
    - destruct HF as [HF|HF]; [|cbn in HF; lia]. rewrite squeeze_many.
      assert (E : map (fun r => squeeze (nd1 r)) (a :: b :: rows) = map nd1 (a :: b :: rows)).
      { apply map_ext_in. intros r Hr. rewrite squeeze_nd1. specialize (H r Hr). destruct r as [|x [|y r]]; [reflexivity| |reflexivity].
        cbn in H. congruence. }
      rewrite E. remember (a :: b :: rows) as l. unfold broadcast_to.
      assert (N : scalars (map nd1 l) = None) by (subst l; reflexivity). rewrite N.
      assert (Hn : exists n, length l = S n) by (subst l; eexists; reflexivity). destruct Hn as [n Hn].
      rewrite map_length, Nat.eqb_refl. rewrite Hn.
      clear Heql Hn N E. induction l as [|r l IH]; [reflexivity|]. cbn [map mapM]. unfold nd1 at 1. rewrite scalars_map.
      rewrite (H r (or_introl eq_refl)), Nat.eqb_refl. cbn [bind]. rewrite IH; [reflexivity|]. intros; apply H; right; assumption.
  Qed.

  Lemma set_column_nd3 (x : list (list (list cq))) idx vals : length vals = length x ->
    set_column (nd3 x) idx vals = nd3 (map (fun wv : list (list cq) * list cq => upd_nth idx (snd wv) (fst wv)) (combine x vals)).
  Proof.
    unfold set_column, nd3. intros L. f_equal. revert vals L. induction x as [|w t IH]; intros [|v vals] L; try discriminate; [reflexivity|].
    cbn [map combine fst snd nd2]. f_equal; [|apply IH; cbn in L; congruence].
    unfold nd2. f_equal. clear. revert idx. induction w as [|r w IH]; intros [|idx]; cbn; try reflexivity. f_equal. apply IH.
  Qed.

  Lemma calibrate_level_nd3 freqs x idx cal C : good_cal cal -> shaped x C (length freqs) -> (idx < C)%nat ->
    length freqs <> 1%nat \/ (length x <= 1)%nat ->
    exists y, calibrate_level cis cdiv freqs (nd3 x) idx cal = Ok (nd3 y) /\ length y = length x /\ shaped y C (length freqs) /\
     forall w win, nth_error x w = Some win -> exists win', nth_error y w = Some win' /\
       forall c row, nth_error win c = Some row -> exists row', nth_error win' c = Some row' /\
          (if Nat.eqb idx c then response_removed cis cdiv cal freqs row row' else row' = row).
  Proof.
    intros G S Hi HW. destruct (column_nd3 x idx C (length freqs) S Hi) as (col & Ec & Lc & LF & N).
    destruct (interpolate_ok freqs cal G) as (tf & Et & Lt & _).
    set (rows := map (fun v => zip_with cdiv v tf) col).
    assert (LR : forall r, In r rows -> length r = length freqs).
    { intros r Hr. apply in_map_iff in Hr. destruct Hr as (v & <- & Hv). rewrite zip_with_length; [apply LF; exact Hv|]. rewrite (LF v Hv). congruence. }
    assert (Hrows : length rows = length x) by (unfold rows; rewrite map_length; exact Lc).
    exists (map (fun wv : list (list cq) * list cq => upd_nth idx (snd wv) (fst wv)) (combine x rows)).
    assert (E : calibrate_level cis cdiv freqs (nd3 x) idx cal = Ok (nd3 (map (fun wv : list (list cq) * list cq => upd_nth idx (snd wv) (fst wv)) (combine x rows)))).
    { unfold calibrate_level. rewrite Ec. cbn [bind]. unfold calibrate. rewrite Et. cbn [bind].
      rewrite (mapM_eq _ (fun v => zip_with cdiv v tf)).
      2:{ intros v Hv. unfold broadcast_op. rewrite (LF v Hv), Lt, Nat.eqb_refl. reflexivity. }
      cbn [bind]. fold rows.
      assert (K : length col = 0%nat \/ match col with r :: _ => length r | [] => 0%nat end = length freqs).
      { destruct col as [|r col']; [left; reflexivity|right]. apply LF. left. reflexivity. }
      destruct K as [K|K].
      - destruct col; [|discriminate]. destruct x; [|discriminate]. reflexivity.
      - rewrite K. replace (length col) with (length rows) by congruence. rewrite broadcast_squeeze; [|exact LR|].
        2:{ rewrite Hrows. exact HW. }
        cbn [bind]. rewrite set_column_nd3 by exact Hrows. reflexivity. }
    split; [exact E|]. split; [rewrite map_length, combine_length; lia|].
    assert (NW : forall w win, nth_error x w = Some win -> exists r, nth_error win idx = Some r /\ nth_error rows w = Some (zip_with cdiv r tf)).
    { intros w win Hw. destruct (S win (nth_error_In _ _ Hw)) as [HC _]. destruct (nth_error win idx) as [r|] eqn:Er; [|apply nth_error_None in Er; lia].
      exists r. split; [reflexivity|]. unfold rows. rewrite nth_error_map. rewrite (N w win Hw), Er. reflexivity. }
    split.
    - intros w' Hw'. apply in_map_iff in Hw'. destruct Hw' as ([w v] & <- & Hin). pose proof (in_combine_l _ _ _ _ Hin) as Hw.
      destruct (S w Hw) as [HC HF]. cbn [fst snd]. rewrite upd_nth_length. split; [exact HC|].
      intros r Hr. apply In_nth_error in Hr. destruct Hr as [k Hk]. rewrite nth_error_upd in Hk. destruct (Nat.eqb idx k).
      + destruct (Nat.ltb idx (length w)); [|discriminate]. injection Hk as <-. apply LR. eapply in_combine_r. exact Hin.
      + apply HF. eapply nth_error_In. exact Hk.
    - intros w win Hw. destruct (NW w win Hw) as (r & Hr & Hrow).
      exists (upd_nth idx (zip_with cdiv r tf) win). split.
      + rewrite nth_error_map. rewrite (proj2 (nth_combine x rows w win (zip_with cdiv r tf)) (conj Hw Hrow)). reflexivity.
      + intros c row Hc. rewrite nth_error_upd. destruct (Nat.eqb_spec idx c) as [<-|Hne].
        * assert (idx < length win)%nat by (apply nth_error_Some; congruence).
          rewrite (proj2 (Nat.ltb_lt _ _) H). eexists. split; [reflexivity|]. rewrite Hr in Hc. injection Hc as <-.
          apply row_removed; [exact G|exact Et|]. destruct (S win (nth_error_In _ _ Hw)) as [_ HF]. apply HF. eapply nth_error_In. exact Hr.
        * exists row. split; [exact Hc|reflexivity].
  Qed.

  Lemma dict_get_upd {A} k j (x : A) l : (exists y, dict_get k l = Ok y) ->
    dict_get j (upd_key k x l) = if (j =? k)%Z then Ok x else dict_get j l.
  Proof.
    unfold dict_get. induction l as [|[a b] t IH]; intros [y H]; [discriminate|]. cbn [upd_key find fst] in *.
    destruct (Z.eqb_spec a k) as [->|Hak].
    - cbn [find fst]. destruct (Z.eqb_spec k j) as [->|Hkj].
      + rewrite Z.eqb_refl. reflexivity.
      + destruct (Z.eqb_spec j k); [congruence|]. reflexivity.
    - cbn [find fst]. destruct (Z.eqb_spec a j) as [->|Haj].
      + destruct (Z.eqb_spec j k); [congruence|]. reflexivity.
      + apply IH. eauto.
  Qed.

  (** the data of the levels [ls] are the arrays [f level], of the shape recorded in the metadata *)
  Definition holds (md : spec_md) (ls : list Z) (f : Z -> list (list (list cq))) (data : list (Z * nd cq)) : Prop :=
    forall l, In l ls -> exists m, py_nth (sm_levels md) l = Some m /\ dict_get l data = Ok (nd3 (f l)) /\
      shaped (f l) (length (sm_chans md)) (length (sl_freqs m)) /\ (length (sl_freqs m) <> 1%nat \/ (length (f l) <= 1)%nat).

  Lemma levels_step md idx cal levels : good_cal cal -> (idx < length (sm_chans md))%nat ->
    forall data f, NoDup levels -> holds md levels f data ->
    exists data' g, calibrate_levels cis cdiv md idx cal levels data = Ok data' /\ holds md levels g data' /\
      (forall l, ~ In l levels -> dict_get l data' = dict_get l data) /\
      forall l m, In l levels -> py_nth (sm_levels md) l = Some m ->
        rowwise (fun c row row' => if Nat.eqb idx c then response_removed cis cdiv cal (sl_freqs m) row row' else row' = row) (f l) (g l).
  Proof.
    intros G Hi. induction levels as [|l rest IH]; intros data f ND H.
    - exists data, f. split; [reflexivity|]. split; [exact H|]. split; [reflexivity|]. intros ? ? [].
    - inversion ND as [|? ? Hn ND']; subst. destruct (H l (or_introl eq_refl)) as (m & Hm & Hd & Hs & Hf).
      destruct (calibrate_level_nd3 (sl_freqs m) (f l) idx cal _ G Hs Hi Hf) as (y & Ey & Ly & Sy & Ry).
      set (data1 := upd_key l (nd3 y) data).
      assert (D1 : forall j, dict_get j data1 = if (j =? l)%Z then Ok (nd3 y) else dict_get j data) by (intros j; apply dict_get_upd; eauto).
      assert (H1 : holds md rest f data1).
      { intros j Hj. destruct (H j (or_intror Hj)) as (mj & A & B & C). exists mj. split; [exact A|]. split; [|exact C].
        rewrite D1. destruct (Z.eqb_spec j l); [congruence|exact B]. }
      destruct (IH data1 f ND' H1) as (data' & g & E & Hg & Hout & Hrow).
      exists data', (fun j => if (j =? l)%Z then y else g j). split.
      { cbn [calibrate_levels]. rewrite Hm. cbn [bind]. rewrite Hd. cbn [bind]. rewrite Ey. cbn [bind]. exact E. }
      split; [|split].
      + intros j [<-|Hj].
        * exists m. rewrite Z.eqb_refl. split; [exact Hm|]. split; [rewrite Hout by exact Hn; rewrite D1, Z.eqb_refl; reflexivity|].
          split; [exact Sy|]. rewrite Ly. exact Hf.
        * destruct (Z.eqb_spec j l); [congruence|]. apply Hg. exact Hj.
      + intros j Hj. rewrite Hout; [|intros Hc; apply Hj; right; exact Hc]. rewrite D1. destruct (Z.eqb_spec j l) as [->|]; [|reflexivity].
        exfalso. apply Hj. left. reflexivity.
      + intros j mj [<-|Hj] Hmj.
        * rewrite Z.eqb_refl. rewrite Hm in Hmj. injection Hmj as <-. split; assumption.
        * destruct (Z.eqb_spec j l); [congruence|]. apply Hrow; assumption.
  Qed.

  Lemma chans_step md readers levels : NoDup (sm_chans md) -> NoDup levels -> levels = arange (sm_n_levels md) ->
    (forall name cal, first_success readers name cal -> good_cal cal) ->
    forall cs data f, NoDup cs -> incl cs (sm_chans md) -> holds md levels f data ->
    exists data' g, calibrate_chans cis cdiv md readers cs data = Ok data' /\ holds md levels g data' /\
      (forall l, ~ In l levels -> dict_get l data' = dict_get l data) /\
      forall l m, In l levels -> py_nth (sm_levels md) l = Some m -> rowwise (row_fate cis cdiv (sm_chans md) readers (fun c => In c cs) (sl_freqs m)) (f l) (g l).
  Proof.
    intros NC NL EL GC. induction cs as [|c cs IH]; intros data f ND Inc H.
    - exists data, f. split; [reflexivity|]. split; [exact H|]. split; [reflexivity|]. intros l m Hl Hm. split; [reflexivity|].
      intros w win Hw. exists win. split; [exact Hw|]. intros k row Hk. exists row. split; [exact Hk|]. intros name _. split; [reflexivity|]. split; [reflexivity|]. intros [].
    - destruct (proj1 (NoDup_cons_iff _ _) ND) as [Hn ND']. assert (Inc' : incl cs (sm_chans md)) by (intros z Hz; apply Inc; right; exact Hz).
      assert (FI : exists idx, first_index c (sm_chans md) = Some idx /\ nth_error (sm_chans md) idx = Some c).
      { apply first_index_in. apply Inc. left. reflexivity. }
      destruct FI as (idx & FI & NI). assert (Hi : (idx < length (sm_chans md))%nat) by (apply nth_error_Some; congruence).
      destruct (get_cal_data readers c) as [cal|] eqn:EC.
      + pose proof (proj1 (get_cal_some _ _ _) EC) as FS.
        destruct (levels_step md idx cal levels (GC _ _ FS) Hi data f NL H) as (data1 & g1 & E1 & H1 & O1 & R1).
        destruct (IH data1 g1 ND' Inc' H1) as (data' & g & E2 & H2 & O2 & R2).
        exists data', g. split; [cbn [calibrate_chans]; rewrite EC, FI; rewrite <- EL, E1; cbn [bind]; exact E2|].
        split; [exact H2|]. split; [intros l Hl; rewrite O2, O1; auto|].
        intros l m Hl Hm. destruct (R1 l m Hl Hm) as [L1 W1]. destruct (R2 l m Hl Hm) as [L2 W2]. split; [congruence|].
        intros w win Hw. destruct (W1 w win Hw) as (win1 & Hw1 & C1). destruct (W2 w win1 Hw1) as (win2 & Hw2 & C2).
        exists win2. split; [exact Hw2|]. intros k row Hk. destruct (C1 k row Hk) as (row1 & Hk1 & Q1). destruct (C2 k row1 Hk1) as (row2 & Hk2 & Q2).
        exists row2. split; [exact Hk2|]. intros name Hname. destruct (Q2 name Hname) as (F1 & F2 & F3).
        destruct (Nat.eqb_spec idx k) as [->|Hne].
        * rewrite NI in Hname. injection Hname as <-. split; [intros Hx; exfalso; apply Hx; left; reflexivity|]. split.
          { intros NS. apply get_cal_none in NS. congruence. }
          intros _ cal' FS'. apply get_cal_some in FS'. rewrite EC in FS'. injection FS' as <-. rewrite (F1 Hn). exact Q1.
        * assert (name <> c). { intros ->. apply Hne. apply (proj1 (NoDup_nth_error (sm_chans md)) NC); [exact Hi|congruence]. }
          subst row1. split; [intros Hx; apply F1; intros Hc; apply Hx; right; exact Hc|]. split; [exact F2|].
          intros [Hx|Hx]; [congruence|]. apply F3. exact Hx.
      + destruct (IH data f ND' Inc' H) as (data' & g & E2 & H2 & O2 & R2).
        exists data', g. split; [cbn [calibrate_chans]; rewrite EC; exact E2|]. split; [exact H2|]. split; [exact O2|].
        intros l m Hl Hm. destruct (R2 l m Hl Hm) as [L2 W2]. split; [exact L2|].
        intros w win Hw. destruct (W2 w win Hw) as (win2 & Hw2 & C2).
        exists win2. split; [exact Hw2|]. intros k row Hk. destruct (C2 k row Hk) as (row2 & Hk2 & Q2).
        exists row2. split; [exact Hk2|]. intros name Hname. destruct (Q2 name Hname) as (F1 & F2 & F3).
        apply get_cal_none in EC.
        split; [intros Hx; apply F1; intros Hc; apply Hx; right; exact Hc|]. split; [exact F2|].
        intros [<-|Hx] cal FS; [|apply F3; assumption]. apply get_cal_some in FS. apply get_cal_none in EC. congruence.
  Qed.
End Cal.
