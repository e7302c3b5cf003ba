(** C98 with sensor calibration: the calibrated coefficients of a channel depend on its own coefficients only. *)
From Coq Require Import String.
From Verif Require Import Base.Prelude Base.ListUtil Base.NdArray Base.Cplx
  Model.Sampling Model.Time Model.Decimate Model.Window Model.Spectra Model.Calibrate Model.Gather Model.Regression Model.Pipeline
  Spec.Time Spec.Calibrate Spec.Gather Spec.Pipeline Spec.OwnChans
  Proofs.Sampling Proofs.TimeMeta Proofs.Spectra Proofs.Calibrate Proofs.CalibrateFinal Proofs.Gather Proofs.GatherData Proofs.GatherQuick Proofs.PipelineShape Proofs.PipelineFinal
  Proofs.UnitsCal Proofs.OwnChans Proofs.Refused.
From Verif Require Proofs.Later.
Open Scope list_scope. Open Scope Z_scope.

Section Cal.
  Variables (cis : Q -> cq) (cdiv : cq -> cq -> cq).
  Definition divided (tf : list cq) (f : nat) (e : cq) : option cq := match nth_error tf f with Some t => Some (cdiv e t) | None => None end.
  Lemma levels_coef md C idx cal levels : (idx < C)%nat -> (forall l, In l levels -> 0 <= l < sm_n_levels md) -> NoDup levels ->
    forall da da', calibrate_levels cis cdiv md idx cal levels da = Ok da' -> level_arrays md C da ->
    forall l m y y', 0 <= l < sm_n_levels md -> nth_error (sm_levels md) (Z.to_nat l) = Some m -> dict_get l da = Ok (nd3 y) -> dict_get l da' = Ok (nd3 y') ->
      (~ In l levels -> y' = y) /\
      (In l levels -> exists tf, interpolate cis (sl_freqs m) cal = Ok tf /\
        forall w i f, coef y' w i f = match coef y w i f with Some e => if Nat.eqb idx i then divided tf f e else Some e | None => None end).
  Proof.
    intros HI. induction levels as [|l levels IH]; intros HR ND da da' A LA j mj y y' Hj Mj Y Y'; [cbn [calibrate_levels] in A; injection A as <-; split; [intros _; apply nd3_inj; congruence|intros []]|].
    pose proof (HR l (or_introl eq_refl)) as Hl. inversion ND as [|l0 ls0 NI ND']; subst.
    assert (ONE : forall d d1, calibrate_levels cis cdiv md idx cal [l] d = Ok d1 -> level_arrays md C d -> level_arrays md C d1) by (intros d d1 K; eapply calibrate_levels_arrays; [exact HI| |exact K]; intros k [<-|[]]; exact Hl).
    cbn [calibrate_levels] in A, ONE. destruct (py_nth (sm_levels md) l) as [m|] eqn:Em; [|discriminate]. cbn [bind] in A, ONE.
    apply bind_ok in A. destruct A as (x & Ex & A). apply bind_ok in A. destruct A as (x' & Ex' & A).
    assert (LA' : level_arrays md C (upd_key l x' da)) by (apply (ONE da); [rewrite Ex; cbn [bind]; rewrite Ex'; reflexivity|exact LA]). clear ONE.
    destruct (LA' j Hj) as (mj' & y1 & _ & Y1 & _). pose proof Y1 as U. rewrite dict_get_upd in U by eauto.
    destruct (IH (fun k Hk => HR k (or_intror Hk)) ND' _ _ A LA' j mj y1 y' Hj Mj Y1 Y') as [K1 K2].
    destruct (Z.eqb_spec j l) as [->|NE].
    - split; [intros F; destruct F; left; reflexivity|]. intros _. rewrite (K1 NI). destruct (LA l Hl) as (ma & xa & A1 & A2 & A3 & A4 & A5). rewrite Ex in A2. injection A2 as ->.
      rewrite py_nth_nat in Em by lia. assert (ma = m) as -> by congruence. assert (mj = m) as -> by congruence. assert (xa = y) as -> by (apply nd3_inj; congruence).
      assert (T : exists tf, interpolate cis (sl_freqs m) cal = Ok tf).
      { unfold calibrate_level in Ex'. apply bind_ok in Ex'. destruct Ex' as (col & _ & B). apply bind_ok in B. destruct B as (v & B & _). unfold calibrate in B. apply bind_ok in B. destruct B as (tf & T & _). eauto. }
      destruct T as (tf & T). exists tf. split; [exact T|]. assert (NY : y <> []) by (intros ->; cbn in A3; lia). destruct (calibrate_level_coef cis cdiv _ _ _ _ _ _ _ Ex' A5 HI NY T) as (u & E1 & CO).
      assert (y1 = u) as -> by (apply nd3_inj; congruence). exact CO.
    - assert (y1 = y) as -> by (apply nd3_inj; congruence). split; [intros F; apply K1; intros G; apply F; right; exact G|]. intros [F|F]; [congruence|]. exact (K2 F).
  Qed.
  Definition fate (readers : list (chan -> res cal_data)) (cs : list chan) (freqs : list Q) (name : chan) (f : nat) (e : cq) : option cq :=
    if chan_in name cs then match get_cal_data readers name with
      | None => Some e
      | Some cal => match interpolate cis freqs cal with Ok tf => divided tf f e | Err _ => None end
      end else Some e.
  Lemma chans_coef md readers cs : NoDup (sm_chans md) -> NoDup cs -> let C := length (sm_chans md) in
    forall da da', calibrate_chans cis cdiv md readers cs da = Ok da' -> level_arrays md C da ->
    forall l m y y', 0 <= l < sm_n_levels md -> nth_error (sm_levels md) (Z.to_nat l) = Some m -> dict_get l da = Ok (nd3 y) -> dict_get l da' = Ok (nd3 y') ->
    forall w i f name, nth_error (sm_chans md) i = Some name ->
      coef y' w i f = match coef y w i f with Some e => fate readers cs (sl_freqs m) name f e | None => None end.
  Proof.
    intros NC ND C. induction cs as [|c cs IH]; intros da da' A LA l m y y' Hl M Y Y' w i f name HN; cbn [calibrate_chans] in A.
    - injection A as <-. assert (y' = y) as -> by (apply nd3_inj; congruence). unfold fate. cbn [chan_in existsb]. destruct (coef y w i f); reflexivity.
    - inversion ND as [|c0 cs0 NI ND']; subst. assert (FT : forall n e, n <> c -> fate readers (c :: cs) (sl_freqs m) n f e = fate readers cs (sl_freqs m) n f e).
      { intros n e Hn. unfold fate, chan_in. cbn [existsb]. apply String.eqb_neq in Hn. unfold chan in *. rewrite Hn. reflexivity. }
      assert (FC : forall e, fate readers cs (sl_freqs m) c f e = Some e) by (intros e; unfold fate; rewrite (chan_in_not _ _ NI); reflexivity).
      assert (FH : chan_in c (c :: cs) = true) by (unfold chan_in; cbn [existsb]; rewrite String.eqb_refl; reflexivity).
      destruct (get_cal_data readers c) as [cal|] eqn:GC.
      2:{ rewrite (IH ND' _ _ A LA l m y y' Hl M Y Y' w i f name HN). destruct (coef y w i f) as [e|]; [|reflexivity]. destruct (string_dec name c) as [->|Hn]; [|symmetry; apply FT; exact Hn].
          rewrite FC. unfold fate. rewrite FH, GC. reflexivity. }
      destruct (first_index c (sm_chans md)) as [idx|] eqn:E; [|discriminate]. apply bind_ok in A. destruct A as (d1 & A1 & A).
      assert (HI : (idx < C)%nat) by exact (first_index_lt _ _ _ E).
      assert (RG : forall k, In k (arange (sm_n_levels md)) -> 0 <= k < sm_n_levels md) by (intros k Hk; apply arange_in; exact Hk).
      assert (L1 : level_arrays md C d1) by (eapply calibrate_levels_arrays; [exact HI|exact RG|exact A1|exact LA]).
      destruct (L1 l Hl) as (_ & y1 & _ & Y1 & _). rewrite (IH ND' _ _ A L1 l m y1 y' Hl M Y1 Y' w i f name HN).
      destruct (levels_coef md C idx cal _ HI RG (arange_NoDup _) _ _ A1 LA l m y y1 Hl M Y Y1) as [_ K]. destruct K as (tf & T & K); [apply arange_in; exact Hl|]. rewrite K.
      destruct (coef y w i f) as [e|]; [|reflexivity]. pose proof (first_index_spec _ _ _ E) as [EI _]. destruct (Nat.eqb_spec idx i) as [<-|NE].
      + assert (name = c) as -> by congruence. unfold fate at 2. rewrite FH, GC, T. unfold divided. destruct (nth_error tf f) as [t|]; [rewrite FC; reflexivity|reflexivity].
      + rewrite FT; [reflexivity|]. intros ->. apply NE. apply (proj1 (NoDup_nth_error (sm_chans md)) NC); [exact HI|]. unfold chan in *. congruence.
  Qed.
End Cal.
Lemma coef_vec {A} (x : list (list (list A))) w i f : coef x w i f = match nd_vec (nd3 x) [w; i] with Some r => nth_error r f | None => None end.
Proof. unfold coef. rewrite nd_vec_nd3. destruct (nth_error x w) as [win|]; [|reflexivity]. destruct (nth_error win i); reflexivity. Qed.
Lemma cal_chans_in sel z ca cb : In z ca -> In z cb -> chan_in z (get_cal_chans sel ca) = chan_in z (get_cal_chans sel cb).
Proof.
  intros A B. apply Bool.eq_true_iff_eq. rewrite !chan_in_iff'. destruct sel as [l|]; cbn [get_cal_chans]; [|tauto]. rewrite !filter_In, !chan_in_iff'. tauto.
Qed.
Lemma cal_chans_NoDup sel ca : NoDup ca -> (forall l, sel = Some l -> NoDup l) -> NoDup (get_cal_chans sel ca).
Proof. intros A B. destruct sel as [l|]; cbn [get_cal_chans]; [|exact A]. apply NoDup_filter. apply B. reflexivity. Qed.
(** two recordings' evaluation data with the same rows of the channels cs *)
Definition pair_ok (cs : list chan) (p : dec_params) (a b : spec_data cq) : Prop :=
  let ca := sm_chans (sd_md a) in let cb := sm_chans (sd_md b) in
  (0 < length ca)%nat /\ (0 < length cb)%nat /\ NoDup ca /\ NoDup cb /\ (forall z, In z cs -> In z ca /\ In z cb) /\ sm_n_levels (sd_md b) = sm_n_levels (sd_md a) /\ sm_levels (sd_md b) = sm_levels (sd_md a) /\
  evaluated (length ca) p a /\ evaluated (length cb) p b /\
  forall l x y, 0 <= l < sm_n_levels (sd_md a) -> sd_at a l = Ok (nd3 x) -> sd_at b l = Ok (nd3 y) -> vsame (places cs ca cb) (nd3 x) (nd3 y).
Lemma arrays_of C p d : evaluated C p d -> level_arrays (sd_md d) C (sd_data d).
Proof.
  intros (_ & _ & R3) j Hj. destruct (R3 j Hj) as (m & y & Q1 & Q2 & Q3 & Q4 & Q5 & _). exists m, y. split; [exact Q1|]. split; [exact Q2|]. split; [exact Q3|]. split; assumption.
Qed.
Lemma cal_pair cis cdiv readers sel cs p a b a' b' : (forall l, sel = Some l -> NoDup l) -> pair_ok cs p a b ->
  calibrator_run cis cdiv readers sel a = Ok a' -> calibrator_run cis cdiv readers sel b = Ok b' -> pair_ok cs p a' b'.
Proof.
  intros NS (LCA & LCB & NA & NB & IN & S1 & S2 & EA & EB & V) A B. destruct (calibrated_evaluated _ _ _ _ _ _ _ A EA) as [EA' CA']. destruct (calibrated_evaluated _ _ _ _ _ _ _ B EB) as [EB' CB'].
  unfold calibrator_run in A, B. apply bind_ok in A. destruct A as (da & A1 & A). apply bind_ok in B. destruct B as (db & B1 & B). apply make_spec_ok in A. apply make_spec_ok in B. subst a' b'.
  unfold pair_ok. cbn [sd_md with_spec_history sm_n_levels sm_levels sm_chans] in *. split; [exact LCA|]. split; [exact LCB|]. split; [exact NA|]. split; [exact NB|]. split; [exact IN|]. split; [exact S1|]. split; [exact S2|]. split; [exact EA'|]. split; [exact EB'|].
  intros l x y Hl X Y k i j (z & Z1 & Z2 & Z3). destruct (IN z Z1) as [ZA ZB]. pose proof EA as (_ & _ & RA). pose proof EB as (_ & _ & RB).
  destruct (RA l Hl) as (m & x0 & M & X0 & LX0 & _). destruct (RB l ltac:(lia)) as (m' & y0 & M' & Y0 & LY0 & _). assert (m' = m) as -> by congruence.
  pose proof EA' as (_ & _ & QA). pose proof EB' as (_ & _ & QB). cbn [sd_md with_spec_history sm_n_levels sm_levels] in QA, QB.
  destruct (QA l Hl) as (m1 & x1 & M1 & X1 & LX & _ & SX & _). destruct (QB l ltac:(lia)) as (m2 & y1 & M2 & Y1 & LY & _ & SY & _).
  assert (x1 = x) as -> by (apply nd3_inj; congruence). assert (y1 = y) as -> by (apply nd3_inj; congruence). assert (m1 = m) as -> by congruence. assert (m2 = m) as -> by congruence.
  assert (CO : forall f, coef x k i f = coef y k j f).
  { intros f. rewrite (chans_coef cis cdiv (sd_md a) readers _ NA (cal_chans_NoDup sel _ NA NS) _ _ A1 (arrays_of _ _ _ EA) l m x0 x Hl M X0 X k i f z Z2).
    rewrite (chans_coef cis cdiv (sd_md b) readers _ NB (cal_chans_NoDup sel _ NB NS) _ _ B1 (arrays_of _ _ _ EB) l m y0 y ltac:(lia) M' Y0 Y k j f z Z3).
    assert (E : coef x0 k i f = coef y0 k j f). { rewrite !coef_vec. rewrite (V l x0 y0 Hl X0 Y0 k i j (ex_intro _ z (conj Z1 (conj Z2 Z3)))). reflexivity. }
    rewrite E. destruct (coef y0 k j f) as [e|]; [|reflexivity]. unfold fate. rewrite (cal_chans_in sel z _ _ ZA ZB). reflexivity. }
  rewrite !nd_vec_nd3. destruct (nth_error x k) as [u|] eqn:Ux.
  2:{ apply nth_error_None in Ux. assert (Uy : nth_error y k = None) by (apply nth_error_None; lia). rewrite Uy. reflexivity. }
  destruct (nth_error y k) as [v|] eqn:Uy. 2:{ apply nth_error_None in Uy. assert (k < length x)%nat by (apply nth_error_Some; congruence). lia. }
  destruct (SX _ (nth_error_In _ _ Ux)) as [LU _]. destruct (SY _ (nth_error_In _ _ Uy)) as [LV _].
  assert (Ii : (i < length (sm_chans (sd_md a)))%nat) by (apply nth_error_Some; unfold chan in *; congruence). assert (Jj : (j < length (sm_chans (sd_md b)))%nat) by (apply nth_error_Some; unfold chan in *; congruence).
  destruct (nth_error u i) as [r|] eqn:Ur. 2:{ apply nth_error_None in Ur. lia. } destruct (nth_error v j) as [s|] eqn:Us. 2:{ apply nth_error_None in Us. lia. }
  f_equal. apply nth_error_ext'. intros f. specialize (CO f). unfold coef in CO. rewrite Ux, Uy, Ur, Us in CO. exact CO.
Qed.
Lemma pair_chans cs p ea eb l ds : pair_ok cs p ea eb -> incl ds cs -> (0 <= l < sm_n_levels (sd_md ea))%Z -> sd_get_chans eb l ds = sd_get_chans ea l ds.
Proof.
  intros (LCA & LCB & NA & NB & IN & S1 & S2 & (_ & LA1 & VA) & (_ & LB1 & VB) & V0) I Hl.
  destruct (VA l Hl) as (ma & x & M1 & X1 & X2 & X2' & X3 & _). pose proof Hl as Hl'. rewrite <- S1 in Hl'. destruct (VB l Hl') as (mb & y & M2 & Y1 & Y2 & _ & Y3 & _). assert (mb = ma) as -> by congruence.
  pose proof (V0 l x y Hl X1 Y1) as V. unfold sd_get_chans.
  assert (G : forall cx, (forall x, In x cs -> In x cx) -> exists is, mapM (fun c => match first_index c cx with None => Err ChannelNotFoundError | Some i => Ok i end) ds = Ok is).
  { intros cx Hcx. clear -I Hcx. induction ds as [|d ds IH]; [eexists; reflexivity|]. destruct (Calibrate.first_index_in d cx (Hcx _ (I _ (or_introl eq_refl)))) as (i & Ei & _). destruct (IH (fun z H => I z (or_intror H))) as (is & E).
    exists (i :: is). cbn [mapM]. rewrite Ei, E. reflexivity. }
  destruct (G (sm_chans (sd_md ea)) (fun z H => proj1 (IN z H))) as (is & Ei). destruct (G (sm_chans (sd_md eb)) (fun z H => proj2 (IN z H))) as (js & Ej). rewrite Ei, Ej. cbn [bind]. rewrite X1, Y1. cbn [bind].
  pose proof (first_places cs _ _ _ _ _ I NA NB Ei Ej) as PL. set (ca := sm_chans (sd_md ea)) in *. set (cb := sm_chans (sd_md eb)) in *.
  assert (KA : forall i, In i is -> (i < length ca)%nat). { intros i Hi. apply In_nth_error in Hi. destruct Hi as [k Hk]. destruct (Forall2_nth_error _ _ _ _ _ PL Hk) as (j & _ & (z & _ & P1 & _)). apply nth_error_Some. unfold chan in *. congruence. }
  assert (KB : forall j, In j js -> (j < length cb)%nat). { intros i Hi. apply In_nth_error in Hi. destruct Hi as [k Hk]. destruct (Forall2_nth_error_r _ _ _ _ _ PL Hk) as (j & _ & (z & _ & _ & P1)). apply nth_error_Some. unfold chan in *. congruence. }
  assert (NX : x <> []) by (intros ->; cbn in X2; lia). assert (NY : y <> []) by (intros ->; cbn in Y2; lia).
  rewrite (nd_picks_nd3 is x (length ca)), (nd_picks_nd3 js y (length cb)); try assumption.
  - f_equal. f_equal. apply nth_error_ext'. intros k. rewrite !nth_error_map.
    assert (LL : length x = length y) by lia. destruct (nth_error x k) as [u|] eqn:Ux.
    2:{ apply nth_error_None in Ux. assert (Uy : nth_error y k = None) by (apply nth_error_None; lia). rewrite Uy. reflexivity. }
    destruct (nth_error y k) as [v|] eqn:Uy. 2:{ apply nth_error_None in Uy. assert (k < length x)%nat by (apply nth_error_Some; congruence). lia. }
    cbn [option_map]. f_equal. clear Ei Ej KA KB. induction PL as [|i j is js P PL IH]; [reflexivity|]. unfold picks. cbn [flat_map]. fold (picks is u). fold (picks js v). rewrite IH. f_equal.
    specialize (V k i j P). rewrite !nd_vec_nd3, Ux, Uy in V. rewrite V. reflexivity.
  - intros w Hw. exact (proj1 (Y3 w Hw)).
  - intros w Hw. exact (proj1 (X3 w Hw)).
Qed.
Lemma pair_quick cs p name tf ea eb : pair_ok cs p ea eb -> incl (tf_names tf) cs -> quick_gather name p tf eb = quick_gather name p tf ea.
Proof.
  intros HP I. pose proof HP as (_ & _ & _ & _ & _ & S1 & S2 & _).
  assert (E : forall ds, incl ds cs -> quick_combined name p eb ds = quick_combined name p ea ds).
  { intros ds Hd. unfold quick_combined. rewrite S1. assert (M : forall l, sd_level_md eb l = sd_level_md ea l) by (intros l; unfold sd_level_md; rewrite S2; reflexivity).
    assert (Q : forall ls data, (forall l, In l ls -> (0 <= l < sm_n_levels (sd_md ea))%Z) -> quick_levels (dp_per_level p) eb ds ls data = quick_levels (dp_per_level p) ea ds ls data).
    { induction ls as [|l ls IH]; intros data Hls; cbn [quick_levels]; [reflexivity|]. rewrite M, (pair_chans cs p ea eb l ds HP Hd (Hls l (or_introl eq_refl))).
      destruct (sd_level_md ea l); cbn [bind]; [|reflexivity]. destruct (sd_get_chans ea l ds); cbn [bind]; [|reflexivity]. destruct (quick_freqs _ _ _ _ _); cbn [bind]; [apply IH; intros; apply Hls; right; assumption|reflexivity]. }
    rewrite Q by (intros l Hl; apply CalibrateFinal.arange_in in Hl; exact Hl). rewrite (Later.mapM_same (sd_level_md eb) (sd_level_md ea)) by exact M. reflexivity. }
  assert (I1 : incl (tf_out tf) cs) by (intros x Hx; apply I; unfold tf_names; rewrite !in_app_iff; auto). assert (I2 : incl (tf_in tf) cs) by (intros x Hx; apply I; unfold tf_names; rewrite !in_app_iff; auto).
  assert (I3 : incl (tf_cross tf) cs) by (intros x Hx; apply I; unfold tf_names; rewrite !in_app_iff; auto). unfold quick_gather. rewrite !E by assumption. reflexivity.
Qed.
Section Whole.
  Variables (L : library) (c : config) (cs : list chan).
  Hypothesis GO : good_oracles (l_orc L).
  Lemma evals_pair ref a b pa pb ea eb : Forall (defines cs) (cf_time c) -> agree_on cs a b -> processable L c a -> processable L c b ->
    to_evals L c ref a = Ok (pa, ea) -> to_evals L c ref b = Ok (pb, eb) -> pb = pa /\ pair_ok cs pa ea eb.
  Proof.
    intros HD HA PA PB A B. destruct (evals_agree L c cs GO _ _ _ _ _ _ _ HD HA PA PB A B) as (<- & NA & NB & IN & ST). pose proof ST as (S1 & S2 & _). split; [reflexivity|].
    destruct (to_evals_evaluated _ _ _ _ _ _ PA A) as (ta & _ & _ & CA & LA & _ & VA). destruct (to_evals_evaluated _ _ _ _ _ _ PB B) as (tb & _ & _ & CB & LB & _ & VB).
    unfold pair_ok. split; [rewrite CA; lia|]. split; [rewrite CB; lia|]. split; [exact NA|]. split; [exact NB|]. split; [exact IN|]. split; [exact S1|]. split; [exact S2|]. split; [exact VA|]. split; [exact VB|].
    intros l x y _ X Y. exact (at_same _ _ _ _ _ _ ST X Y).
  Qed.
  Lemma c98_cal readers name a b : Forall (defines cs) (cf_time c) -> agree_on cs a b -> processable L c a -> processable L c b -> incl (tf_names (cf_tf c)) cs -> (forall l, cf_cal_chans c = Some l -> NoDup l) ->
    (exists p e r, to_evals L c (first_time (meta a)) a = Ok (p, e) /\ run_calibration L c readers e = Ok r) -> (exists p e r, to_evals L c (first_time (meta b)) b = Ok (p, e) /\ run_calibration L c readers e = Ok r) ->
    quick_tf L c (Some readers) name b = quick_tf L c (Some readers) name a.
  Proof.
    intros HD HA PA PB I NS (pa & ea & ra & A & CA) (pb & eb & rb & B & CB). unfold quick_tf. rewrite A, B. cbn [bind]. assert (FT : first_time (meta b) = first_time (meta a)) by apply HA. rewrite FT in B.
    destruct (evals_pair _ _ _ _ _ _ _ HD HA PA PB A B) as (-> & HP). rewrite CA, CB. cbn [bind].
    rewrite (pair_quick cs pa name (cf_tf c) ra rb (cal_pair _ _ readers _ cs pa ea eb ra rb NS HP CA CB) I). reflexivity.
  Qed.
  Lemma chans_cal readers ref a b p ea eb ra rb l ds : Forall (defines cs) (cf_time c) -> agree_on cs a b -> processable L c a -> processable L c b -> (forall l, cf_cal_chans c = Some l -> NoDup l) ->
    to_evals L c ref a = Ok (p, ea) -> to_evals L c ref b = Ok (p, eb) -> run_calibration L c readers ea = Ok ra -> run_calibration L c readers eb = Ok rb ->
    incl ds cs -> (0 <= l < sm_n_levels (sd_md ra))%Z -> sd_get_chans rb l ds = sd_get_chans ra l ds.
  Proof.
    intros HD HA PA PB NS A B CA CB I Hl. destruct (evals_pair _ _ _ _ _ _ _ HD HA PA PB A B) as (_ & HP).
    exact (pair_chans cs p ra rb l ds (cal_pair _ _ readers _ cs p ea eb ra rb NS HP CA CB) I Hl).
  Qed.
End Whole.
