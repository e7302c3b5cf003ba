(** C101: the transfer function is linear in the output channels. *)
From Coq Require Import String.
From Verif Require Import Base.Prelude Base.Rounding Base.ListUtil Base.NdArray Base.Cplx Model.Sampling Model.Time Model.Decimate Model.Window Model.Spectra
  Model.Calibrate Model.Gather Model.Regression Model.Pipeline Spec.Calibrate Spec.Gather Spec.Regression Spec.Pipeline Spec.Linear Spec.Solvers Spec.Units Spec.Superpose
  Proofs.TimeMeta Proofs.DecParams Proofs.DecFinal Proofs.Spectra Proofs.Calibrate Proofs.Gather Proofs.GatherQuick Proofs.Regression Proofs.RegressionFinal Proofs.RegressionQuick
  Proofs.PipelineShape Proofs.PipelineFinal Proofs.Linear Proofs.UnitsFit Proofs.UnitsTf Proofs.UnitsRun Proofs.SuperposeFit.
Open Scope list_scope. Open Scope Q_scope.

(** the equations, one for every window and cross channel *)
Definition eqs (outs ins crosses : list (list cq)) : list (list cq * list cq * cq) :=
  concat (map (fun x => map (fun c => (fst x, fst (snd x), c)) (snd (snd x))) (combine outs (combine ins crosses))).
Definition obs_of (o : nat) (e : list cq * list cq * cq) : cq := ctimes (nth o (fst (fst e)) c0) (conj_ (snd e)).
Definition pred_of (e : list cq * list cq * cq) : list cq := map (fun x => ctimes x (conj_ (snd e))) (snd (fst e)).
Lemma opw_eqs o : forall outs ins crosses, length ins = length outs -> length crosses = length outs -> (forall r, In r outs -> (o < length r)%nat) -> opw ctimes o outs crosses = map (obs_of o) (eqs outs ins crosses).
Proof.
  unfold opw, eqs. induction outs as [|r outs IH]; intros [|i ins] [|x crosses] L1 L2 W; try discriminate; [reflexivity|]. cbn [combine map concat fst snd]. rewrite map_app. f_equal; [|apply IH; [cbn in L1; lia|cbn in L2; lia|intros q Hq; apply W; right; exact Hq]].
  destruct (nth_error r o) as [z|] eqn:E; [|apply nth_error_None in E; pose proof (W r (or_introl eq_refl)); lia]. rewrite map_map. apply map_ext. intros c. unfold obs_of. cbn [fst snd]. rewrite (nth_error_nth _ _ c0 E). reflexivity.
Qed.
Lemma pw_eqs : forall outs ins crosses, length ins = length outs -> length crosses = length outs -> concat (map (fun x => pw ctimes (fst x) (snd x)) (combine ins crosses)) = map pred_of (eqs outs ins crosses).
Proof.
  unfold eqs. induction outs as [|r outs IH]; intros [|i ins] [|x crosses] L1 L2; try discriminate; [reflexivity|]. cbn [combine map concat fst snd]. rewrite map_app. f_equal; [|apply IH; [cbn in L1; lia|cbn in L2; lia]].
  rewrite map_map. unfold pw. apply map_ext. intros c. reflexivity.
Qed.
Lemma eqs_in outs ins crosses e : In e (eqs outs ins crosses) -> exists w crow, nth_error outs w = Some (fst (fst e)) /\ nth_error ins w = Some (snd (fst e)) /\ nth_error crosses w = Some crow /\ In (snd e) crow.
Proof.
  unfold eqs. intros H. apply in_concat in H. destruct H as (l & Hl & He). apply in_map_iff in Hl. destruct Hl as ([r [i x]] & <- & Hx). cbn [fst snd] in He. apply in_map_iff in He. destruct He as (c & <- & Hc). cbn [fst snd].
  apply In_nth_error in Hx. destruct Hx as [w Hw]. apply nth_combine in Hw. destruct Hw as [H1 H2]. apply nth_combine in H2. destruct H2 as [H2 H3]. exists w, x. auto.
Qed.
Lemma interleaved_cons z Z : interleaved (z :: Z) = re z :: im z :: interleaved Z.
Proof. reflexivity. Qed.
Lemma cdot_app a b u v : length a = length u -> ceq (cdot (a ++ b) (u ++ v)) (cplus (cdot a u) (cdot b v)).
Proof. revert u. induction a as [|x a IH]; intros [|y u] L; try discriminate; [cbn [app cdot]; split; cbn; ring|]. cbn [app cdot]. rewrite (IH u) by (cbn in L; lia). split; cbn; ring. Qed.
Lemma cdot_times a : forall u c, ceq (ctimes (cdot a u) c) (cdot a (map (fun x => ctimes x c) u)).
Proof. induction a as [|x a IH]; intros [|y u] c; cbn [cdot map]; try (split; cbn; ring). rewrite <- (IH u c). split; cbn; ring. Qed.
Lemma cdot_real (l : list (Q * nat)) (h : nat -> cq) : re (cdot (map real (map fst l)) (map h (map snd l))) == dot (map fst l) (map (fun j => re (h j)) (map snd l)) /\ im (cdot (map real (map fst l)) (map h (map snd l))) == dot (map fst l) (map (fun j => im (h j)) (map snd l)).
Proof. induction l as [|[a j] l [IH1 IH2]]; [split; reflexivity|]. cbn [map fst snd cdot dot cplus ctimes re im real]. rewrite IH1, IH2. split; ring. Qed.
(** the observations of a combination *)
Lemma obs_superpose (l : list (Q * nat)) o zs (T : list (list cq * list cq * cq)) :
  (forall e, In e T -> length (snd (fst e)) = length zs /\ ceq (nth o (fst (fst e)) c0) (cplus (cdot (map real (map fst l)) (map (fun j => nth j (fst (fst e)) c0) (map snd l))) (cdot (map real zs) (snd (fst e))))) ->
  Forall2 Qeq (interleaved (map (obs_of o) T)) (lc l (fun j => interleaved (map (obs_of j) T)) (map (fun row => dot row (interleaved (map real zs))) (unpair (map vec_pair (map pred_of T))))).
Proof.
  induction T as [|e T IH]; intros H.
  - cbn [map]. assert (E : lc l (fun _ => interleaved []) (map (fun row => dot row (interleaved (map real zs))) (unpair [])) = []). { clear. induction l as [|[a v] l IH]; [reflexivity|]. cbn [lc]. rewrite IH. reflexivity. } rewrite E. constructor.
  - cbn [map]. rewrite interleaved_cons, unpair_cons. cbn [map].
    destruct (lc_cons l (fun j => re (obs_of j e)) (fun j => im (obs_of j e) :: interleaved (map (obs_of j) T)) (dot (fst (vec_pair (pred_of e))) (interleaved (map real zs))) (dot (snd (vec_pair (pred_of e))) (interleaved (map real zs)) :: map (fun row => dot row (interleaved (map real zs))) (unpair (map vec_pair (map pred_of T))))) as (q1 & E1 & Q1).
    destruct (lc_cons l (fun j => im (obs_of j e)) (fun j => interleaved (map (obs_of j) T)) (dot (snd (vec_pair (pred_of e))) (interleaved (map real zs))) (map (fun row => dot row (interleaved (map real zs))) (unpair (map vec_pair (map pred_of T))))) as (q2 & E2 & Q2).
    rewrite E2 in E1. assert (EE : lc l (fun j => interleaved (obs_of j e :: map (obs_of j) T)) (dot (fst (vec_pair (pred_of e))) (interleaved (map real zs)) :: dot (snd (vec_pair (pred_of e))) (interleaved (map real zs)) :: map (fun row => dot row (interleaved (map real zs))) (unpair (map vec_pair (map pred_of T)))) = q1 :: q2 :: lc l (fun j => interleaved (map (obs_of j) T)) (map (fun row => dot row (interleaved (map real zs))) (unpair (map vec_pair (map pred_of T))))) by exact E1.
    rewrite EE. clear E1 E2 EE. destruct (H e (or_introl eq_refl)) as [LZ R]. specialize (IH (fun e' He => H e' (or_intror He))).
    assert (LP : length (pred_of e) = length (map real zs)) by (unfold pred_of; rewrite !map_length; exact LZ). destruct (dot_pair _ _ LP) as [D1 D2]. rewrite D1 in Q1. rewrite D2 in Q2.
    assert (OB : ceq (obs_of o e) (cplus (cdot (map real (map fst l)) (map (fun j => obs_of j e) (map snd l))) (cdot (map real zs) (pred_of e)))).
    { unfold obs_of at 1. rewrite R. assert (X : forall x y c, ceq (ctimes (cplus x y) c) (cplus (ctimes x c) (ctimes y c))) by (intros; split; cbn; ring). rewrite X, (cdot_times (map real (map fst l))), (cdot_times (map real zs)). assert (MM : map (fun x => ctimes x (conj_ (snd e))) (map (fun j => nth j (fst (fst e)) c0) (map snd l)) = map (fun j => obs_of j e) (map snd l)) by (rewrite map_map; reflexivity). rewrite MM. reflexivity. }
    destruct (cdot_real l (fun j => obs_of j e)) as [C1 C2]. destruct OB as [O1 O2]. cbn [cplus re im] in O1, O2. rewrite C1 in O1. rewrite C2 in O2.
    constructor; [rewrite O1, Q1; reflexivity|]. constructor; [rewrite O2, Q2; reflexivity|exact IH].
Qed.

(** the spectra of a combination *)
Lemma combination_rows L c ref td p ed o cs qs : linear_library L -> (forall b k l, linear_routine (o_filter (l_orc L) b k l)) -> (forall x, l_drnd L x == x) -> Forall linear_proc (cf_time c) ->
  processable L c td -> NoDup (chans (meta td)) -> to_evals L c ref td = Ok (p, ed) -> In o (tf_out (cf_tf c)) -> cs <> [] -> incl cs (tf_out (cf_tf c) ++ tf_in (cf_tf c)) -> combination td o cs qs ->
  forall level w f z row, (0 <= level < sm_n_levels (sd_md ed))%Z -> window_row ed [o] level w f [z] -> window_row ed cs level w f row -> ceq z (cdot (map real qs) row).
Proof.
  intros HL HF ED HP PR ND HE Ho NE HC (LQ & out & us & C1 & C2 & C3) level w f z row Hl Wo Wr. destruct HL as (HD & HR & HL').
  set (c' := mkConfig (cf_name c) (cf_time c) (cf_dec c) (cf_resample c) (cf_max_single c) (cf_win c) (cf_target c) (cf_spec c) (cf_cal_chans c) (mkTf [o] cs (tf_cross (cf_tf c)))).
  assert (HE' : to_evals L c' ref td = Ok (p, ed)) by exact HE. assert (PR' : processable L c' td).
  { destruct PR as (P1 & P2 & P3 & P4). split; [exact P1|]. split; [exact P2|]. split; [exact P3|]. intros td' p' dd wp A B C D. destruct (P4 td' p' dd wp A B C D) as (Q1 & (R1 & R2 & R3 & R4 & R5 & R6) & Q2). split; [exact Q1|]. split; [|exact Q2].
    split; [discriminate|]. split; [exact NE|]. split; [exact R3|]. split; [intros x [<-|[]]; apply R4; exact Ho|]. split; [|exact R6]. intros x Hx. apply HC in Hx. apply in_app_iff in Hx. destruct Hx as [Hx|Hx]; [apply R4|apply R5]; exact Hx. }
  destruct (to_evals_evaluated _ _ _ _ _ _ PR' HE') as (td' & RA & _). change (cf_time c') with (cf_time c) in RA.
  assert (MX : mixed td (cf_tf c') [qs]) by (constructor; [|constructor]; split; [exact LQ|]; exists out, us; auto).
  destruct (mixed_run_all _ _ _ _ (cf_tf c') [qs] ED HF HD HR HP td td' RA ltac:(discriminate) MX) as [MX' EC].
  pose proof (rows_related L c' ref td td' p ed [qs] (conj HD (conj HR HL')) PR' ltac:(rewrite EC; exact ND) RA HE' MX' level w f [z] row Hl Wo Wr) as F. cbn [map] in F. inversion F as [|? ? ? ? E _]; subst. exact E.
Qed.
Lemma lc_nth {A} (l : list (Q * A)) (X : A -> list Q) z n m q : length z = n -> (forall v, In v (map snd l) -> length (X v) = n) -> nth_error (lc l X z) m = Some q ->
  q == dot (map fst l) (map (fun v => nth m (X v) 0) (map snd l)) + nth m z 0.
Proof.
  intros Lz. revert q. induction l as [|[a v] l IH]; intros q H Hq; cbn [lc] in Hq; [cbn [map dot]; rewrite (nth_error_nth _ _ 0 Hq); ring|].
  unfold lin in Hq. rewrite nth_error_map in Hq. destruct (nth_error (combine (X v) (lc l X z)) m) as [[u y]|] eqn:E; [|discriminate]. injection Hq as <-. apply nth_combine in E. destruct E as [E1 E2]. cbn [map fst snd dot].
  rewrite (IH y (fun u Hu => H u (or_intror Hu)) E2), (nth_error_nth _ _ 0 E1). ring.
Qed.
Lemma index_list (outs os : list chan) : incl os outs -> exists js, Forall2 (fun c j => nth_error outs j = Some c) os js.
Proof.
  induction os as [|c os IH]; intros H; [exists []; constructor|]. destruct IH as (js & J); [intros x Hx; apply H; right; exact Hx|]. pose proof (H c (or_introl eq_refl)) as K. apply In_nth_error in K. destruct K as [j Hj]. exists (j :: js). constructor; assumption.
Qed.
Lemma wr_pick (ed : spec_data cq) cs level w f row os js : window_row ed cs level w f row -> Forall2 (fun c j => nth_error cs j = Some c) os js -> window_row ed os level w f (map (fun j => nth j row c0) js).
Proof.
  intros (x & Ex & H) J. exists x. split; [exact Ex|]. induction J as [|c j os js Hj J IH]; cbn [map]; constructor; [|exact IH]. destruct (Forall2_nth_error _ _ _ _ _ H Hj) as (z & Hz & R). rewrite (nth_error_nth _ _ c0 Hz). exact R.
Qed.
Lemma wr_app (ed : spec_data cq) a b level w f ra rb : window_row ed a level w f ra -> window_row ed b level w f rb -> window_row ed (a ++ b) level w f (ra ++ rb).
Proof. intros (x & Ex & H) (y & Ey & K). assert (y = x) as -> by (apply nd3_inj; congruence). exists x. split; [exact Ex|]. apply Forall2_app; assumption. Qed.
Lemma interleaved_nth Z j z : nth_error Z j = Some z -> nth_error (interleaved Z) (j * 2) = Some (re z) /\ nth_error (interleaved Z) (j * 2 + 1) = Some (im z).
Proof. revert j. induction Z as [|x Z IH]; intros [|j] H; try discriminate; [injection H as ->; split; reflexivity|]. destruct (IH j H) as [A B]. rewrite interleaved_cons. split; [exact A|exact B]. Qed.

Section Run.
  Variables (L : library) (c : config).
  Hypothesis HL : linear_library L.
  Hypothesis HF : forall b k l, linear_routine (o_filter (l_orc L) b k l).
  Hypothesis ED : forall x, l_drnd L x == x.
  Hypothesis HU : Forall linear_proc (cf_time c).
  Hypothesis HM : l_cmul L = ctimes.
  Hypothesis HJ : junk_shape (l_junk1 L) (l_junk2 L).
  Hypothesis FIT : minimises (l_fit L).
  Let tf := cf_tf c.
  Hypotheses (ND1 : NoDup (tf_out tf)) (ND2 : NoDup (tf_in tf)) (KD : keys_distinct tf).
  Lemma run_superposes name td p ed o os qs zs sol : processable L c td -> NoDup (chans (meta td)) -> to_evals L c (first_time (meta td)) td = Ok (p, ed) ->
    (forall level f, (0 <= level < sm_n_levels (sd_md ed))%Z -> (0 <= f < dp_per_level p)%Z -> evals_determine ed tf level f) ->
    In o (tf_out tf) -> incl os (tf_out tf) -> length qs = length os -> length zs = length (tf_in tf) -> combination td o (os ++ tf_in tf) (qs ++ zs) ->
    quick_tf L c None name td = Ok sol -> forall i, (i < length (so_freqs sol))%nat -> exists t, sol_tensor sol (Z.of_nat i) = Ok t /\
      forall j zj, nth_error zs j = Some zj -> exists z us, from_input tf t j o z /\ Forall2 (from_input tf t j) os us /\ ceq z (cplus (cdot (map real qs) us) (real zj)).
  Proof.
    intros PR ND EA HD Io Ios LQ LZ CB QA i Hi. unfold quick_tf in QA. rewrite EA in QA. cbn [bind] in QA.
    destruct (to_evals_evaluated _ _ _ _ _ _ PR EA) as (a' & RA & DA & CA & _ & HCA & EVA). assert (PL : (1 <= ds_per_level (cf_dec c))%Z) by exact (proj1 (proj2 (proj2 PR))).
    destruct (gathered_rows L c name _ p ed ltac:(rewrite CA; exact HCA) DA PL EVA) as (g & GA & FA & GG & DATA). rewrite GA in QA. cbn [bind] in QA. unfold run_regression in QA. rewrite HM in QA. apply bind_ok in QA. destruct QA as (r & PR' & SA).
    destruct (prepared _ _ HJ tf g r GG ND1 PR') as (TR & FR & IN). rewrite <- TR in ND1, ND2, KD. destruct (solve_inv _ _ _ SA ND1 ND2 KD) as (S1 & S2). rewrite S1 in Hi. destruct (S2 i Hi) as (t & Et & Mt). rewrite TR in ND1, ND2, KD, Mt.
    exists t. split; [exact Et|]. assert (Hg : (i < length (cb_eval_freqs (g_out g)))%nat) by (rewrite <- FR; exact Hi).
    destruct (DATA i Hg) as (lv & f & outs & ins & crosses & _ & _ & Bl & Bf & FD & A1 & A2 & A3 & DET). destruct (GG i Hg) as (outs2 & ins2 & crosses2 & FD2 & Li & Lc & Wo & Wi & Wc).
    assert (outs2 = outs /\ ins2 = ins /\ crosses2 = crosses) as (-> & -> & ->) by (destruct FD as (X1 & X2 & X3), FD2 as (Y1 & Y2 & Y3); split; [congruence|split; congruence]). clear FD2.
    set (T := eqs outs ins crosses). set (P := unpair (map vec_pair (map pred_of T))). set (B := fun j => interleaved (map (obs_of j) T)). set (X := fun j => match l_fit L P (B j) with Ok x => x | Err _ => [] end).
    assert (ROW : forall j cj, nth_error (tf_out tf) j = Some cj -> l_fit L P (B j) = Ok (X j) /\ exists zrow, nth_error t j = Some zrow /\ get_tensor tf (X j) = Ok zrow).
    { intros j cj Hj. apply mapM_ok in Mt. destruct (Forall2_nth_error _ _ _ _ _ Mt Hj) as (zrow & Hz & E). rewrite (IN i outs ins crosses j cj Hi FD Hj) in E. cbn [bind fst snd] in E.
      rewrite (opw_eqs j outs ins crosses Li Lc), (pw_eqs outs ins crosses Li Lc) in E.
      2:{ intros q Hq. pose proof (Wo q Hq) as WQ. fold tf in WQ. rewrite WQ. apply nth_error_Some. rewrite Hj. discriminate. }
      fold T P in E. change (interleaved (map (obs_of j) T)) with (B j) in E. apply bind_ok in E. destruct E as (x & Ex & E). unfold X. rewrite Ex. split; [reflexivity|]. exists zrow. split; [exact Hz|exact E]. }
    assert (LB : forall j, length (B j) = length P) by (intros j; unfold B, P; rewrite interleaved_length, unpair_length, !map_length; reflexivity).
    destruct (index_list _ _ Ios) as (js & J). apply In_nth_error in Io. destruct Io as [oi Hoi]. set (l := combine qs js). assert (LJ : length js = length os) by (symmetry; exact (Forall2_length' _ _ _ J)).
    assert (L1 : map fst l = qs /\ map snd l = js). { unfold l. assert (LL : length qs = length js) by congruence. clear -LL. revert js LL. induction qs as [|q qs IH]; intros [|j js] LL; try discriminate; [split; reflexivity|]. cbn [combine map fst snd]. destruct (IH js ltac:(cbn in LL; lia)) as [E1 E2]. rewrite E1, E2. split; reflexivity. }
    destruct L1 as [L1 L2].
    assert (REL : Forall2 Qeq (B oi) (lc l B (map (fun row => dot row (interleaved (map real zs))) P))).
    { apply obs_superpose. intros e He. destruct (eqs_in _ _ _ _ He) as (w & crow & E1 & E2 & _). split; [rewrite LZ; apply Wi; eapply nth_error_In; exact E2|]. rewrite L1, L2.
      pose proof A1 as (m1 & _ & _ & R1). pose proof A2 as (m2 & _ & _ & R2). pose proof (R1 _ _ E1) as W1. pose proof (R2 _ _ E2) as W2.
      assert (KO : window_row ed [o] lv (Z.of_nat w) f [nth oi (fst (fst e)) c0]) by (apply (wr_pick _ _ _ _ _ _ [o] [oi] W1); constructor; [exact Hoi|constructor]).
      pose proof (wr_app _ _ _ _ _ _ _ _ (wr_pick _ _ _ _ _ _ _ _ W1 J) W2) as KI.
      rewrite (combination_rows L c _ td p ed o (os ++ tf_in tf) (qs ++ zs) HL HF ED HU PR ND EA (nth_error_In _ _ Hoi) ltac:(destruct HCA as (_ & C2 & _); fold tf in C2; destruct os; [exact C2|discriminate])
        ltac:(apply incl_app; [apply incl_appl; exact Ios|apply incl_appr; apply incl_refl]) CB lv (Z.of_nat w) f _ _ Bl KO KI).
      rewrite map_app. apply cdot_app. rewrite !map_length. congruence. }
    assert (WP : forall row, In row P -> length row = (2 * length (tf_in tf))%nat).
    { apply unpair_rows_length. intros v Hv. apply in_map_iff in Hv. destruct Hv as (e & <- & He). unfold pred_of. rewrite map_length. destruct (eqs_in _ _ _ _ He) as (w & crow & _ & E2 & _). apply Wi. eapply nth_error_In; exact E2. }
    assert (INJ : injective (2 * length (tf_in tf)) P). { unfold P, T. rewrite <- (pw_eqs outs ins crosses Li Lc). apply determined_injective; [congruence|exact Wi|exact (DET (HD _ _ Bl Bf))]. }
    assert (TI : (0 < length (tf_in tf))%nat) by (destruct HCA as (_ & C2 & _); fold tf in C2; destruct (tf_in tf); [congruence|cbn; lia]).
    assert (NP : P <> []). { intros E. rewrite E in INJ. assert (K : 1 == 0); [|discriminate K]. apply (INJ (repeat 1 (2 * length (tf_in tf)))); [apply repeat_length|intros row []|]. destruct (2 * length (tf_in tf))%nat eqn:E2; [lia|left; reflexivity]. }
    assert (LI : length (interleaved (map real zs)) = (2 * length (tf_in tf))%nat) by (rewrite interleaved_length, map_length; lia).
    assert (XV : forall v, In v (map snd l) -> length (B v) = length P /\ l_fit L P (B v) = Ok (X v)).
    { intros v Hv. split; [apply LB|]. rewrite L2 in Hv. apply In_nth_error in Hv. destruct Hv as [m Hm]. destruct (Forall2_nth_error_r _ _ _ _ _ J Hm) as (cj & _ & Hj). exact (proj1 (ROW v cj Hj)). }
    destruct (ROW oi o Hoi) as (FO & zo & Zo & Go).
    pose proof (fit_superposes (l_fit L) (2 * length (tf_in tf)) P l B X (B oi) (X oi) (interleaved (map real zs)) FIT NP WP INJ LI (LB oi) REL FO XV) as SUP.
    assert (LX : forall v, In v (map snd l) -> length (X v) = (2 * length (tf_in tf))%nat) by (intros v Hv; destruct (XV v Hv) as [V1 V2]; exact (proj1 (FIT P (B v) _ (X v) NP WP V1 V2))).
    intros j zj Hj. assert (Lj : (j < length (tf_in tf))%nat) by (rewrite <- LZ; apply nth_error_Some; congruence).
    destruct (proj2 (get_tensor_length _ _ _ Go) j Lj) as (a & b & Na & Nb & Nz).
    set (u := fun v => mkC (nth (j * 2) (X v) 0) (nth (j * 2 + 1) (X v) 0)). exists (mkC a b), (map u js). split; [exists oi; split; [exact Hoi|unfold entry2; rewrite Zo; exact Nz]|]. split.
    - clear -J ROW Lj. subst u. cbv beta. induction J as [|cj v os js Hv J IH]; cbn [map]; constructor; [|exact IH]. exists v. split; [exact Hv|]. destruct (ROW v cj Hv) as (_ & zrow & Zr & Gr). unfold entry2. rewrite Zr. destruct (proj2 (get_tensor_length _ _ _ Gr) j Lj) as (a & b & Na & Nb & Nz). rewrite Nz, (nth_error_nth _ _ 0 Na), (nth_error_nth _ _ 0 Nb). reflexivity.
    - destruct (Forall2_nth_error _ _ _ _ _ SUP Na) as (a2 & Na2 & Ea). destruct (Forall2_nth_error _ _ _ _ _ SUP Nb) as (b2 & Nb2 & Eb).
      pose proof (lc_nth l X _ _ _ _ LI LX Na2) as Ka. pose proof (lc_nth l X _ _ _ _ LI LX Nb2) as Kb. destruct (interleaved_nth (map real zs) j (real zj)) as [I1 I2]; [rewrite nth_error_map, Hj; reflexivity|].
      rewrite (nth_error_nth _ _ 0 I1) in Ka. rewrite (nth_error_nth _ _ 0 I2) in Kb. destruct (cdot_real l u) as [C1 C2]. rewrite L1, L2 in C1, C2, Ka, Kb. cbn [real re im] in Ka, Kb.
      split; cbn [cplus re im real]; [rewrite Ea, Ka, C1; reflexivity|rewrite Eb, Kb, C2; reflexivity].
  Qed.
End Run.
