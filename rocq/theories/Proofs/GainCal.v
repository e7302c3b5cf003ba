(** Calibration data with another gain: C104. *)
From Coq Require Import String.
From Verif Require Import Base.Prelude Base.ListUtil Base.Interp Base.NdArray Base.Cplx
  Model.Sampling Model.Time Model.Decimate Model.Window Model.Spectra Model.Calibrate Model.Gather Model.Regression Model.Pipeline
  Spec.Calibrate Spec.Gather Spec.Regression Spec.Pipeline Spec.Linear Spec.Solvers Spec.Units Spec.Gain
  Proofs.Sampling Proofs.TimeMeta Proofs.Spectra Proofs.Calibrate Proofs.CalibrateFinal Proofs.Gather Proofs.GatherData Proofs.GatherQuick Proofs.PipelineShape Proofs.Linear Proofs.Units Proofs.UnitsCal Proofs.UnitsCalRun.
Open Scope list_scope. Open Scope Q_scope.

Lemma interp_from_gain g fr : forall m m' x0 y0 y0' x, times_c g m m' -> y0' == g * y0 -> interp_from x0 y0' (combine fr m') x == g * interp_from x0 y0 (combine fr m) x.
Proof.
  induction fr as [|f fr IH]; intros m m' x0 y0 y0' x H E; cbn [combine interp_from]; [exact E|]. destruct H as [|a b m m' Hab H]; cbn [combine interp_from]; [exact E|].
  destruct (Qltb x f); [|apply IH; assumption]. unfold seg. setoid_rewrite E. setoid_rewrite Hab. unfold Qdiv. ring.
Qed.
Lemma np_interp_gain g fr m m' x y y' : times_c g m m' -> np_interp (combine fr m) x = Ok y -> np_interp (combine fr m') x = Ok y' -> y' == g * y.
Proof.
  intros H A B. destruct fr as [|f fr]; [discriminate|]. destruct H as [|a b m m' Hab H]; [discriminate|]. cbn [combine np_interp] in A, B. injection A as <-. injection B as <-.
  destruct (Qltb x f); [exact Hab|]. apply interp_from_gain; assumption.
Qed.
Lemma interpolate_gain cis g freqs cal cal' tf tf' : with_gain g cal cal' -> interpolate cis freqs cal = Ok tf -> interpolate cis freqs cal' = Ok tf' -> Forall2 (fun t t' => ceq t' (cscale g t)) tf tf'.
Proof.
  intros (E1 & E2 & E3) A B. unfold interpolate in A, B. rewrite E1, E2 in B.
  destruct (Nat.eqb _ 0); [discriminate|]. destruct (negb (Nat.eqb (length (cal_mag cal)) _)); [discriminate|]. destruct (negb (Nat.eqb (length (cal_mag cal')) _)); [discriminate|]. destruct (negb _); [discriminate|].
  revert tf tf' A B. induction freqs as [|f freqs IH]; intros tf tf' A B; cbn [mapM] in A, B; [injection A as <-; injection B as <-; constructor|].
  apply bind_ok in A. destruct A as (t & A1 & A). apply bind_ok in A. destruct A as (ts & A2 & A). apply bind_ok in B. destruct B as (t' & B1 & B). apply bind_ok in B. destruct B as (ts' & B2 & B).
  injection A as <-. injection B as <-. constructor; [|apply IH; assumption]. apply bind_ok in A1. destruct A1 as (m & M1 & A1). apply bind_ok in A1. destruct A1 as (p & P1 & A1). apply bind_ok in B1. destruct B1 as (m' & M2 & B1). apply bind_ok in B1. destruct B1 as (p' & P2 & B1).
  assert (Et : t = cscale m (cis p)) by congruence. assert (Et' : t' = cscale m' (cis p)) by congruence. rewrite Et, Et'. pose proof (np_interp_gain _ _ _ _ _ _ _ E3 M1 M2) as G. destruct (cis p) as [a b]. split; cbn; rewrite G; ring.
Qed.

Open Scope Z_scope.
Section Gain.
  Variables (cis : Q -> cq) (cdiv : cq -> cq -> cq).
  Hypothesis DG : divides_gain cdiv.
  Definition krel (md : spec_md) (C : nat) (K : Z -> nat -> Q) (data data' : list (Z * nd cq)) : Prop := level_arrays md C data /\ level_arrays md C data' /\
    forall l y y', 0 <= l < sm_n_levels md -> dict_get l data = Ok (nd3 y) -> dict_get l data' = Ok (nd3 y') -> rel3 (ru (K l)) y y'.
  Definition divided (ks : nat -> Q) (idx : nat) (g : Q) (i : nat) : Q := if Nat.eqb idx i then (ks i / g)%Q else ks i.
  Lemma level_gain ks g freqs x y idx cal cal' zx zy C : ~ (g == 0)%Q -> with_gain g cal cal' -> calibrate_level cis cdiv freqs (nd3 x) idx cal = Ok zx -> calibrate_level cis cdiv freqs (nd3 y) idx cal' = Ok zy ->
    shaped x C (length freqs) -> shaped y C (length freqs) -> (idx < C)%nat -> x <> [] -> y <> [] -> rel3 (ru ks) x y -> exists x' y', zx = nd3 x' /\ zy = nd3 y' /\ rel3 (ru (divided ks idx g)) x' y'.
  Proof.
    intros G0 WG A B SX SY HI NX NY HR.
    assert (T : forall u c z, calibrate_level cis cdiv freqs (nd3 u) idx c = Ok z -> exists tf, interpolate cis freqs c = Ok tf).
    { intros u c z H. unfold calibrate_level in H. apply bind_ok in H. destruct H as (col & _ & H). apply bind_ok in H. destruct H as (v & H & _). unfold calibrate in H. apply bind_ok in H. destruct H as (tf & T & _). eauto. }
    destruct (T _ _ _ A) as (tf & TA). destruct (T _ _ _ B) as (tf' & TB). pose proof (interpolate_gain _ _ _ _ _ _ _ WG TA TB) as TG. clear T.
    destruct (calibrate_level_coef _ _ _ _ _ _ _ _ _ A SX HI NX TA) as (x' & -> & X). destruct (calibrate_level_coef _ _ _ _ _ _ _ _ _ B SY HI NY TB) as (y' & -> & Y).
    exists x', y'. split; [reflexivity|]. split; [reflexivity|]. intros w i f. rewrite X, Y. specialize (HR w i f). destruct (coef x w i f) as [e|], (coef y w i f) as [e'|]; try exact HR; try (destruct HR; fail).
    unfold ru, divided in *. destruct (Nat.eqb idx i); [|exact HR]. destruct (nth_error tf f) as [t|] eqn:Et.
    - destruct (Forall2_nth_error _ _ _ _ _ TG Et) as (t' & Et' & Gt). rewrite Et'. exact (DG _ _ _ _ _ _ G0 HR Gt).
    - destruct (nth_error tf' f) as [t'|] eqn:Et'; [|exact I]. apply nth_error_None in Et. assert (f < length tf')%nat by (apply nth_error_Some; congruence). rewrite <- (Forall2_length' _ _ _ TG) in H. lia.
  Qed.
  Lemma rel3_ext ks ks' x y : (forall i, ks i == ks' i)%Q -> rel3 (ru ks) x y -> rel3 (ru ks') x y.
  Proof. intros E H w i f. specialize (H w i f). destruct (coef x w i f), (coef y w i f); try exact H. destruct H as [H1 H2]. unfold ru. split; cbn in *; rewrite <- E; assumption. Qed.
  Lemma levels_gain md C idx g cal cal' levels : ~ (g == 0)%Q -> with_gain g cal cal' -> (idx < C)%nat -> NoDup levels -> (forall l, In l levels -> 0 <= l < sm_n_levels md) ->
    forall K da db da' db', calibrate_levels cis cdiv md idx cal levels da = Ok da' -> calibrate_levels cis cdiv md idx cal' levels db = Ok db' -> krel md C K da db ->
      krel md C (fun l => if in_dec Z.eq_dec l levels then divided (K l) idx g else K l) da' db'.
  Proof.
    intros G0 WG HI. induction levels as [|l levels IH]; intros ND HR K da db da' db' A B D; [cbn [calibrate_levels] in A, B; injection A as <-; injection B as <-; exact D|].
    pose proof (HR l (or_introl eq_refl)) as Hl. destruct D as (LA & LB & D). inversion ND as [|? ? NI ND']; subst.
    assert (ONE : forall cl d d1, calibrate_levels cis cdiv md idx cl [l] d = Ok d1 -> level_arrays md C d -> level_arrays md C d1) by (intros cl d d1 Kd; eapply calibrate_levels_arrays; [exact HI| |exact Kd]; intros j [<-|[]]; exact Hl).
    cbn [calibrate_levels] in A, B, ONE. destruct (py_nth (sm_levels md) l) as [m|] eqn:Em; [|discriminate]. cbn [bind] in A, B, ONE.
    apply bind_ok in A. destruct A as (x & Ex & A). apply bind_ok in A. destruct A as (x' & Ex' & A). apply bind_ok in B. destruct B as (y & Ey & B). apply bind_ok in B. destruct B as (y' & Ey' & B).
    assert (LA' : level_arrays md C (upd_key l x' da)) by (apply (ONE cal da); [rewrite Ex; cbn [bind]; rewrite Ex'; reflexivity|exact LA]).
    assert (LB' : level_arrays md C (upd_key l y' db)) by (apply (ONE cal' db); [rewrite Ey; cbn [bind]; rewrite Ey'; reflexivity|exact LB]). clear ONE.
    assert (D1 : krel md C (fun j => if Z.eqb j l then divided (K j) idx g else K j) (upd_key l x' da) (upd_key l y' db)).
    { split; [exact LA'|]. split; [exact LB'|]. intros j u v Hj. rewrite !dict_get_upd by eauto.
      destruct (Z.eqb_spec j l) as [->|_]; [|apply D; exact Hj]. intros Hu Hv.
      destruct (LA l Hl) as (ma & xa & A1 & A2 & A3 & A4 & A5). destruct (LB l Hl) as (mb & xb & B1 & B2 & B3 & B4 & B5). rewrite Ex in A2. rewrite Ey in B2. injection A2 as ->. injection B2 as ->.
      rewrite py_nth_nat in Em by lia. assert (ma = m) as -> by congruence. assert (mb = m) as -> by congruence.
      destruct (level_gain (K l) _ _ _ _ _ _ _ _ _ _ G0 WG Ex' Ey' A5 B5 HI) as (u' & v' & E1 & E2 & RR); [intros ->; cbn in A3; lia|intros ->; cbn in B3; lia|exact (D l _ _ Hl Ex Ey)|].
      assert (u = u') as -> by (apply nd3_inj; congruence). assert (v = v') as -> by (apply nd3_inj; congruence). exact RR. }
    destruct (IH ND' (fun j Hj => HR j (or_intror Hj)) _ _ _ _ _ A B D1) as (L1 & L2 & D2). split; [exact L1|]. split; [exact L2|]. intros j u v Hj Hu Hv. pose proof (D2 j u v Hj Hu Hv) as RR. cbv beta in RR.
    destruct (Z.eq_dec j l) as [E|NE].
    - subst j. rewrite Z.eqb_refl in RR. destruct (in_dec Z.eq_dec l levels) as [I1|_]; [contradiction|]. destruct (in_dec Z.eq_dec l (l :: levels)) as [_|I2]; [exact RR|]. exfalso. apply I2. left. reflexivity.
    - rewrite (proj2 (Z.eqb_neq j l) NE) in RR. destruct (in_dec Z.eq_dec j levels) as [I1|I1]; destruct (in_dec Z.eq_dec j (l :: levels)) as [I2|I2]; try exact RR; exfalso.
      + apply I2. right. exact I1.
      + destruct I2 as [F|I2]; [apply NE; symmetry; exact F|contradiction].
  Qed.
  Definition gained (g : chan -> Q) (ra rb : list (chan -> res cal_data)) (c : chan) : Prop := ~ (g c == 0)%Q /\
    ((exists cal cal', get_cal_data ra c = Some cal /\ get_cal_data rb c = Some cal' /\ with_gain (g c) cal cal') \/ ((g c == 1)%Q /\ get_cal_data ra c = None /\ get_cal_data rb c = None)).
  Lemma chans_gain md g ra rb cs : NoDup cs -> NoDup (sm_chans md) -> (forall c, In c cs -> gained g ra rb c) ->
    forall ks da db da' db', calibrate_chans cis cdiv md ra cs da = Ok da' -> calibrate_chans cis cdiv md rb cs db = Ok db' -> krel md (length (sm_chans md)) (fun _ => ks) da db ->
    exists ks', krel md (length (sm_chans md)) (fun _ => ks') da' db' /\ forall i c, nth_error (sm_chans md) i = Some c -> (In c cs -> ks' i == ks i / g c)%Q /\ (~ In c cs -> ks' i == ks i)%Q.
  Proof.
    intros ND NM. induction cs as [|c cs IH]; intros HG ks da db da' db' A B D; cbn [calibrate_chans] in A, B.
    { injection A as <-. injection B as <-. exists ks. split; [exact D|]. intros i c _. split; [intros []|reflexivity]. }
    inversion ND as [|? ? NI ND']; subst. destruct (HG c (or_introl eq_refl)) as (G0 & [(cal & cal' & E1 & E2 & WG)|(G1 & E1 & E2)]); rewrite E1 in A; rewrite E2 in B.
    2:{ destruct (IH ND' (fun x Hx => HG x (or_intror Hx)) _ _ _ _ _ A B D) as (ks' & D' & H). exists ks'. split; [exact D'|]. intros i x Hx. destruct (H i x Hx) as [H1 H2]. split.
      - intros [<-|Hin]; [|exact (H1 Hin)]. rewrite (H2 NI), G1. field.
      - intros Hn. apply H2. intros Hi. apply Hn. right. exact Hi. }
    destruct (first_index c (sm_chans md)) as [idx|] eqn:EI; [|discriminate]. apply bind_ok in A. destruct A as (a1 & A1 & A). apply bind_ok in B. destruct B as (b1 & B1 & B).
    pose proof (levels_gain md (length (sm_chans md)) idx (g c) cal cal' _ G0 WG (first_index_lt _ _ _ EI) (arange_NoDup _) (fun l Hl => proj1 (arange_in _ _) Hl) _ _ _ _ _ A1 B1 D) as D1.
    assert (D2 : krel md (length (sm_chans md)) (fun _ => divided ks idx (g c)) a1 b1).
    { destruct D1 as (L1 & L2 & D1). split; [exact L1|]. split; [exact L2|]. intros l u v Hl Hu Hv. specialize (D1 l u v Hl Hu Hv). cbv beta in D1. destruct (in_dec _ _ _) as [_|N]; [exact D1|]. exfalso. apply N. apply arange_in. exact Hl. }
    destruct (IH ND' (fun x Hx => HG x (or_intror Hx)) _ _ _ _ _ A B D2) as (ks' & D' & H). exists ks'. split; [exact D'|]. intros i x Hx. destruct (H i x Hx) as [H1 H2].
    assert (NI' : nth_error (sm_chans md) idx = Some c) by exact (proj1 (first_index_spec _ _ _ EI)).
    assert (DI : divided ks idx (g c) i = if string_dec x c then (ks i / g c)%Q else ks i).
    { unfold divided. destruct (Nat.eqb_spec idx i) as [<-|Hne]; destruct (string_dec x c) as [->|Hx']; try reflexivity; exfalso; [congruence|]. apply Hne. exact (nodup_index _ _ _ _ NM NI' Hx). }
    rewrite DI in H1, H2. split.
    - intros [<-|Hin]; [destruct (string_dec c c) as [_|N]; [exact (H2 NI)|congruence]|]. destruct (string_dec x c) as [->|_]; [contradiction|exact (H1 Hin)].
    - intros Hn. destruct (string_dec x c) as [->|_]; [exfalso; apply Hn; left; reflexivity|]. apply H2. intros Hi. apply Hn. right. exact Hi.
  Qed.
End Gain.
