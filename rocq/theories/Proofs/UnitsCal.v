(** Calibration keeps a relation between two recordings' evaluation data that division respects. *)
From Coq Require Import String.
From Verif Require Import Base.Prelude Base.ListUtil Base.NdArray Base.Cplx
  Model.Sampling Model.Time Model.Decimate Model.Window Model.Spectra Model.Calibrate Model.Gather Model.Regression Model.Pipeline
  Spec.Calibrate Spec.Gather Spec.Pipeline
  Proofs.Sampling Proofs.TimeMeta Proofs.Spectra Proofs.Calibrate Proofs.CalibrateFinal Proofs.Gather Proofs.GatherQuick Proofs.PipelineShape.
Open Scope list_scope. Open Scope Z_scope.

Lemma interpolate_length cis freqs cal tf : interpolate cis freqs cal = Ok tf -> length tf = length freqs.
Proof.
  unfold interpolate. destruct (Nat.eqb _ 0); [discriminate|]. destruct (negb _); [discriminate|]. destruct (negb _); [discriminate|]. intros H. apply mapM_ok in H. symmetry. exact (Forall2_length' _ _ _ H).
Qed.
Lemma scalars_all {A} (l : list A) : scalars (map Sc l) = Some l.
Proof. induction l as [|x l IH]; [reflexivity|]. cbn. rewrite IH. reflexivity. Qed.
(** a column of single numbers cannot be assigned to several windows *)
Lemma broadcast_ones {A} (rows : list (list A)) : (forall r, In r rows -> length r = 1%nat) -> (2 <= length rows)%nat ->
  exists e, broadcast_to (length rows) 1 (squeeze (Ax (map (fun r => Ax [nd1 r]) rows))) = Err e.
Proof.
  intros H L. destruct rows as [|a [|b rows]]; cbn in L; try lia. rewrite squeeze_many.
  assert (E : exists l, map (fun r => squeeze (nd1 r)) (a :: b :: rows) = map Sc l /\ length l = length (a :: b :: rows)).
  { revert H. generalize (a :: b :: rows). clear. induction l as [|r l IH]; intros H; [exists []; split; reflexivity|]. destruct IH as (m & E & L); [intros x Hx; apply H; right; exact Hx|].
    pose proof (H r (or_introl eq_refl)) as Lr. destruct r as [|x [|y r]]; try discriminate. exists (x :: m). cbn [map]. rewrite squeeze_nd1, E. cbn [length]. split; congruence. }
  destruct E as (l & -> & Ll). cbn [length] in Ll |- *. unfold broadcast_to. rewrite scalars_all, Ll. destruct l as [|x [|y l]]; cbn in Ll; try lia. exists ValueError. reflexivity.
Qed.
Section Cal.
  Variables (cis : Q -> cq) (cdiv : cq -> cq -> cq).
  Lemma calibrate_level_coef freqs x idx cal z C tf : calibrate_level cis cdiv freqs (nd3 x) idx cal = Ok z -> shaped x C (length freqs) -> (idx < C)%nat -> x <> [] ->
    interpolate cis freqs cal = Ok tf ->
    exists y, z = nd3 y /\ forall w i f, coef y w i f = match coef x w i f with Some e => if Nat.eqb idx i then match nth_error tf f with Some t => Some (cdiv e t) | None => None end else Some e | None => None end.
  Proof.
    intros H S HI NE ET. unfold calibrate_level in H. destruct (column_nd3 x idx C _ S HI) as (col & Ec & Lc & LF & N).
    rewrite Ec in H. cbn [bind] in H. unfold calibrate in H. rewrite ET in H. cbn [bind] in H. pose proof (interpolate_length _ _ _ _ ET) as LT.
    rewrite (mapM_eq _ (fun v => zip_with cdiv v tf)) in H.
    2:{ intros v Hv. unfold broadcast_op. rewrite (LF v Hv), LT, Nat.eqb_refl. reflexivity. }
    cbn [bind] in H. set (rows := map (fun v => zip_with cdiv v tf) col) in *.
    assert (LR : forall r, In r rows -> length r = length freqs).
    { intros r Hr. apply in_map_iff in Hr. destruct Hr as (v & <- & Hv). rewrite zip_with_length; [apply LF; exact Hv|]. rewrite (LF v Hv). congruence. }
    assert (Hrows : length rows = length x) by (unfold rows; rewrite map_length; exact Lc).
    assert (K : match col with r :: _ => length r | [] => 0%nat end = length freqs). { destruct col as [|r col']; [destruct x; [contradiction|discriminate]|]. apply LF. left. reflexivity. }
    rewrite K in H. replace (length col) with (length rows) in H by congruence.
    assert (HW : length freqs <> 1%nat \/ (length rows <= 1)%nat).
    { destruct (Nat.eq_dec (length freqs) 1) as [E1|E1]; [|left; exact E1]. destruct (le_lt_dec (length rows) 1) as [E2|E2]; [right; exact E2|exfalso].
      destruct (broadcast_ones rows) as (e & E); [intros r Hr; rewrite <- E1; exact (LR r Hr)|exact E2|]. rewrite E1 in H. rewrite E in H. discriminate. }
    rewrite (broadcast_squeeze rows _ LR HW) in H. cbn [bind] in H. rewrite set_column_nd3 in H by exact Hrows.
    match type of H with Ok ?a = Ok _ => assert (EZ : z = a) by congruence end. rewrite EZ. clear H EZ. eexists. split; [reflexivity|]. intros w i f. unfold coef. rewrite nth_error_map.
    destruct (nth_error x w) as [win|] eqn:Ew.
    2:{ destruct (nth_error (combine x rows) w) as [[a b]|] eqn:E; [|reflexivity]. apply nth_combine in E. destruct E as [E _]. congruence. }
    destruct (S win (nth_error_In _ _ Ew)) as [HC HF]. destruct (nth_error win idx) as [r|] eqn:Er; [|apply nth_error_None in Er; lia].
    assert (Hrow : nth_error rows w = Some (zip_with cdiv r tf)) by (unfold rows; rewrite nth_error_map, (N w win Ew), Er; reflexivity).
    rewrite (proj2 (nth_combine x rows w win _) (conj Ew Hrow)). cbn [option_map fst snd]. rewrite nth_error_upd.
    destruct (Nat.eqb_spec idx i) as [<-|Hne].
    - rewrite (proj2 (Nat.ltb_lt idx (length win))) by lia. rewrite Er. unfold zip_with. rewrite nth_error_map.
      assert (Lr : length r = length tf) by (rewrite LT; apply HF; eapply nth_error_In; exact Er).
      destruct (nth_error r f) as [e|] eqn:Ee.
      + destruct (nth_error tf f) as [t|] eqn:Et; [rewrite (proj2 (nth_combine r tf f e t) (conj Ee Et)); reflexivity|]. apply nth_error_None in Et. assert (f < length r)%nat by (apply nth_error_Some; congruence). lia.
      + destruct (nth_error (combine r tf) f) as [[a b]|] eqn:E; [|reflexivity]. apply nth_combine in E. destruct E as [E _]. congruence.
    - destruct (nth_error win i); [|reflexivity]. destruct (nth_error l f); reflexivity.
  Qed.

  Variable R : nat -> cq -> cq -> Prop.
  Hypothesis RD : forall i e e' t, R i e e' -> R i (cdiv e t) (cdiv e' t).
  Definition rel3 (x y : list (list (list cq))) : Prop := forall w i f, match coef x w i f, coef y w i f with Some e, Some e' => R i e e' | None, None => True | _, _ => False end.
  Definition drel (md : spec_md) (C : nat) (data data' : list (Z * nd cq)) : Prop := level_arrays md C data /\ level_arrays md C data' /\
    forall l y y', 0 <= l < sm_n_levels md -> dict_get l data = Ok (nd3 y) -> dict_get l data' = Ok (nd3 y') -> rel3 y y'.
  Lemma level_rel freqs x y idx cal zx zy C : calibrate_level cis cdiv freqs (nd3 x) idx cal = Ok zx -> calibrate_level cis cdiv freqs (nd3 y) idx cal = Ok zy ->
    shaped x C (length freqs) -> shaped y C (length freqs) -> (idx < C)%nat -> x <> [] -> y <> [] -> rel3 x y -> exists x' y', zx = nd3 x' /\ zy = nd3 y' /\ rel3 x' y'.
  Proof.
    intros A B SX SY HI NX NY HR. assert (T : exists tf, interpolate cis freqs cal = Ok tf).
    { unfold calibrate_level in A. apply bind_ok in A. destruct A as (col & _ & A). apply bind_ok in A. destruct A as (v & A & _). unfold calibrate in A. apply bind_ok in A. destruct A as (tf & T & _). eauto. }
    destruct T as (tf & T). destruct (calibrate_level_coef _ _ _ _ _ _ _ A SX HI NX T) as (x' & -> & X). destruct (calibrate_level_coef _ _ _ _ _ _ _ B SY HI NY T) as (y' & -> & Y).
    exists x', y'. split; [reflexivity|]. split; [reflexivity|]. intros w i f. rewrite X, Y. specialize (HR w i f). destruct (coef x w i f) as [e|], (coef y w i f) as [e'|]; try exact HR; try (destruct HR; fail).
    destruct (Nat.eqb idx i); [|exact HR]. destruct (nth_error tf f) as [t|]; [|exact I]. apply RD. exact HR.
  Qed.
  Lemma levels_rel md C idx cal levels : (idx < C)%nat -> (forall l, In l levels -> 0 <= l < sm_n_levels md) ->
    forall da db da' db', calibrate_levels cis cdiv md idx cal levels da = Ok da' -> calibrate_levels cis cdiv md idx cal levels db = Ok db' -> drel md C da db -> drel md C da' db'.
  Proof.
    intros HI. induction levels as [|l levels IH]; intros HR da db da' db' A B D; [cbn [calibrate_levels] in A, B; injection A as <-; injection B as <-; exact D|].
    pose proof (HR l (or_introl eq_refl)) as Hl. destruct D as (LA & LB & D).
    assert (ONE : forall d d1, calibrate_levels cis cdiv md idx cal [l] d = Ok d1 -> level_arrays md C d -> level_arrays md C d1) by (intros d d1 K; eapply calibrate_levels_arrays; [exact HI| |exact K]; intros j [<-|[]]; exact Hl).
    cbn [calibrate_levels] in A, B, ONE. destruct (py_nth (sm_levels md) l) as [m|] eqn:Em; [|discriminate]. cbn [bind] in A, B, ONE.
    apply bind_ok in A. destruct A as (x & Ex & A). apply bind_ok in A. destruct A as (x' & Ex' & A). apply bind_ok in B. destruct B as (y & Ey & B). apply bind_ok in B. destruct B as (y' & Ey' & B).
    apply (IH (fun j Hj => HR j (or_intror Hj)) _ _ _ _ A B). clear A B IH.
    assert (LA' : level_arrays md C (upd_key l x' da)) by (apply (ONE da); [rewrite Ex; cbn [bind]; rewrite Ex'; reflexivity|exact LA]).
    assert (LB' : level_arrays md C (upd_key l y' db)) by (apply (ONE db); [rewrite Ey; cbn [bind]; rewrite Ey'; reflexivity|exact LB]). clear ONE.
    split; [exact LA'|]. split; [exact LB'|]. intros j u v Hj. rewrite !dict_get_upd by eauto.
    destruct (Z.eqb_spec j l) as [->|_]; [|apply D; exact Hj]. intros Hu Hv.
    destruct (LA l Hl) as (ma & xa & A1 & A2 & A3 & A4 & A5). destruct (LB l Hl) as (mb & xb & B1 & B2 & B3 & B4 & B5). rewrite Ex in A2. rewrite Ey in B2. injection A2 as ->. injection B2 as ->.
    rewrite py_nth_nat in Em by lia. assert (ma = m) as -> by congruence. assert (mb = m) as -> by congruence.
    destruct (level_rel _ _ _ _ _ _ _ _ Ex' Ey' A5 B5 HI) as (u' & v' & E1 & E2 & RR); [intros ->; cbn in A3; lia|intros ->; cbn in B3; lia|exact (D l _ _ Hl Ex Ey)|].
    assert (u = u') as -> by (apply nd3_inj; congruence). assert (v = v') as -> by (apply nd3_inj; congruence). exact RR.
  Qed.
  Lemma chans_rel md readers cs : forall da db da' db', calibrate_chans cis cdiv md readers cs da = Ok da' -> calibrate_chans cis cdiv md readers cs db = Ok db' ->
    drel md (length (sm_chans md)) da db -> drel md (length (sm_chans md)) da' db'.
  Proof.
    induction cs as [|c cs IH]; intros da db da' db' A B D; cbn [calibrate_chans] in A, B; [injection A as <-; injection B as <-; exact D|].
    destruct (get_cal_data readers c) as [cal|]; [|exact (IH _ _ _ _ A B D)].
    destruct (first_index c (sm_chans md)) as [idx|] eqn:E; [|discriminate]. apply bind_ok in A. destruct A as (a1 & A1 & A). apply bind_ok in B. destruct B as (b1 & B1 & B).
    apply (IH _ _ _ _ A B). eapply levels_rel; [exact (first_index_lt _ _ _ E)| |exact A1|exact B1|exact D]. intros l Hl. apply arange_in. exact Hl.
  Qed.
End Cal.
