(** C48 for a whole site and project *)
From Coq Require Import String Ascii Sorted Permutation.
From Verif Require Import Base.Prelude Base.ListUtil Base.NdArray
  Model.Sampling Model.Time Model.Decimate Model.Window Model.Spectra Model.Calibrate Model.Gather Spec.Calibrate Spec.Gather
  Proofs.Sampling Proofs.TimeMeta Proofs.Spectra Proofs.Calibrate Proofs.CalibrateFinal Base.SortNames Proofs.Gather Proofs.GatherData.
Open Scope list_scope. Open Scope Z_scope.

Lemma dict_set_new {B} k (v : B) l : ~ In k (map fst l) -> dict_set k v l = l ++ [(k, v)].
Proof.
  intros H. unfold dict_set. destruct (existsb (fun kv => Z.eqb (fst kv) k) l) eqn:E; [|reflexivity].
  exfalso. apply existsb_exists in E. destruct E as (x & Hx & E). apply Z.eqb_eq in E. apply H. apply in_map_iff. eauto.
Qed.
Lemma fold_dict_set {B} (l acc : list (Z * B)) : NoDup (map fst (acc ++ l)) ->
  fold_left (fun d kv => dict_set (fst kv) (snd kv) d) l acc = acc ++ l.
Proof.
  revert acc. induction l as [|[k v] t IH]; intros acc H; cbn [fold_left fst snd]; [rewrite app_nil_r; reflexivity|].
  rewrite dict_set_new.
  - rewrite IH; rewrite <- app_assoc; [reflexivity|exact H].
  - rewrite map_app in H. cbn [map fst] in H. apply NoDup_remove_2 in H. intros C. apply H. apply in_or_app. left. exact C.
Qed.
Lemma dict_get_in {B} k (v : B) l : NoDup (map fst l) -> In (k, v) l -> dict_get k l = Ok v.
Proof.
  unfold dict_get. induction l as [|[j x] t IH]; intros N H; [destruct H|]. cbn [map fst] in N. apply NoDup_cons_iff in N. destruct N as [N1 N2].
  cbn [find fst]. destruct (Z.eqb_spec j k) as [->|Hn].
  - destruct H as [H|H]; [congruence|]. exfalso. apply N1. apply in_map_iff. exists (k, v). auto.
  - destruct H as [H|H]; [congruence|]. apply IH; assumption.
Qed.
Lemma find_name {B} (l : list (string * B)) n x : NoDup (map fst l) -> In (n, x) l -> find (fun y => String.eqb (fst y) n) l = Some (n, x).
Proof.
  induction l as [|[j y] t IH]; intros N H; [destruct H|]. cbn [map fst] in N. apply NoDup_cons_iff in N. destruct N as [N1 N2].
  cbn [find fst]. destruct (String.eqb_spec j n) as [->|Hn].
  - destruct H as [H|H]; [congruence|]. exfalso. apply N1. apply in_map_iff. exists (n, x). auto.
  - destruct H as [H|H]; [congruence|]. apply IH; assumption.
Qed.

Section Final.
  Context {A : Type}.
  Variable junk : Z -> nat -> nat -> list (list A).
  Hypothesis junk_length : forall k r c, length (junk k r c) = r.

  Lemma empty_data_ok s chans : exists data F, empty_data junk s chans = Ok data /\ state s F data.
  Proof.
    set (P := dp_per_level (sel_params s)). set (L := sel_n_levels s).
    set (g := fun li : Z * Z => (P * fst li + snd li, junk (P * fst li + snd li) (match sel_table s (fst li) with Ok t => length t | Err _ => 0%nat end) (length chans))).
    assert (M : mapM (fun li : Z * Z => n <- get_n_wins s (fst li) (snd li) ;; Ok (P * fst li + snd li, junk (P * fst li + snd li) (Z.to_nat n) (length chans)))
           (list_prod (arange L) (arange P)) = Ok (map g (list_prod (arange L) (arange P)))).
    { apply mapM_eq. intros [l f] Hin. apply in_prod_iff in Hin. destruct Hin as [H1 H2]. apply arange_in in H1, H2. cbn [fst snd].
      destruct (sel_tables_ok s l H1) as [t Ht]. destruct (c47_evals s l f t H1 H2 Ht) as [_ ->]. cbn [bind]. unfold g. cbn [fst snd]. rewrite Ht, Nat2Z.id. reflexivity. }
    assert (ND : NoDup (map fst (map g (list_prod (arange L) (arange P))))).
    { rewrite map_map. unfold g. cbn [fst].
      assert (N0 : NoDup (list_prod (arange L) (arange P))).
      { generalize (arange_NoDup L). generalize (arange L) as a. induction a as [|x a IH]; intros Na; cbn [list_prod]; [constructor|].
        apply NoDup_cons_iff in Na. destruct Na as [N1 N2].
        assert (NA : forall (u v : list (Z * Z)), NoDup u -> NoDup v -> (forall z, In z u -> In z v -> False) -> NoDup (u ++ v)).
        { clear. induction u as [|x u IH]; intros v Nu Nv H; [exact Nv|]. apply NoDup_cons_iff in Nu. destruct Nu as [A1 A2]. cbn. constructor.
          - intros C. apply in_app_or in C. destruct C as [C|C]; [contradiction|]. apply (H x); [left; reflexivity|exact C].
          - apply IH; auto. intros z Z1 Z2. apply (H z); [right; exact Z1|exact Z2]. }
        apply NA; [|apply IH; exact N2|].
        - apply FinFun.Injective_map_NoDup; [|apply arange_NoDup]. intros p q E. congruence.
        - intros z Z1 Z2. apply in_map_iff in Z1. destruct Z1 as (f & <- & _). apply in_prod_iff in Z2. tauto. }
      assert (HIN : forall li, In li (list_prod (arange L) (arange P)) -> 0 <= snd li < P).
      { intros [l f] H. apply in_prod_iff in H. destruct H as [_ H]. apply arange_in in H. exact H. }
      revert N0 HIN. generalize (list_prod (arange L) (arange P)) as z. clear - s. induction z as [|[l f] z IH]; intros N H; cbn [map]; [constructor|].
      apply NoDup_cons_iff in N. destruct N as [N1 N2]. constructor; [|apply IH; [exact N2|intros; apply H; right; assumption]].
      intros C. apply in_map_iff in C. destruct C as ([l' f'] & E & C). cbn [fst snd] in E.
      destruct (key_inj s l' f' l f (H _ (or_intror C)) (H _ (or_introl eq_refl)) E) as [-> ->]. contradiction. }
    eexists. exists (fun l f => junk (P * l + f) (match sel_table s l with Ok t => length t | Err _ => 0%nat end) (length chans)). split.
    - unfold empty_data. fold P L. rewrite M. cbn [bind]. rewrite fold_dict_set by exact ND. reflexivity.
    - cbn [app]. intros l f t H1 H2 H3. split.
      + apply dict_get_in; [exact ND|]. apply in_map_iff. exists (l, f). split; [unfold g; cbn [fst snd]; rewrite ?H3; reflexivity|].
        apply in_prod_iff. split; apply arange_in; assumption.
      + rewrite H3. apply junk_length.
  Qed.

  (** rows named [name] have to come from that measurement *)
  Definition from_meas (st : site A) (chans : list chan) (name : string) (l f g : Z) (row : list A) : Prop :=
    exists fs d m, In (name, (fs, Ok d)) st /\ nth_error (sm_levels (sd_md d)) (Z.to_nat l) = Some m /\
      0 <= g - sl_offset m < sl_n_wins m /\ window_row d chans l (g - sl_offset m) f row.

  Lemma populate_all_ok s st col chans :
    NoDup (map fst st) -> chans <> [] ->
    (forall l t g names, 0 <= l < sel_n_levels s -> sel_table s l = Ok t -> In (g, names) t ->
       exists fs d m, In (nth col names EmptyString, (fs, Ok d)) st /\ good_evals (dp_per_level (sel_params s)) d /\ incl chans (sm_chans (sd_md d)) /\
         l < sm_n_levels (sd_md d) /\ nth_error (sm_levels (sd_md d)) (Z.to_nat l) = Some m /\ 0 <= g - sl_offset m < sl_n_wins m) ->
    forall meas F data, NoDup meas ->
    (forall n, In n meas -> exists l t g names, 0 <= l < sel_n_levels s /\ sel_table s l = Ok t /\ In (g, names) t /\ nth col names EmptyString = n) ->
    state s F data ->
    exists data' F', populate_all s st col chans meas data = Ok data' /\ state s F' data' /\
      forall l f t, 0 <= l < sel_n_levels s -> 0 <= f < dp_per_level (sel_params s) -> sel_table s l = Ok t ->
      forall r g names, nth_error t r = Some (g, names) ->
        (In (nth col names EmptyString) meas -> exists row, nth_error (F' l f) r = Some row /\ from_meas st chans (nth col names EmptyString) l f g row) /\
        (~ In (nth col names EmptyString) meas -> nth_error (F' l f) r = nth_error (F l f) r).
  Proof.
    intros NS Hc HW. induction meas as [|name rest IH]; intros F data ND HM St.
    - exists data, F. split; [reflexivity|]. split; [exact St|]. intros l f t _ _ _ r g names _. split; [intros []|reflexivity].
    - apply NoDup_cons_iff in ND. destruct ND as [Nn ND].
      destruct (HM name (or_introl eq_refl)) as (l1 & t1 & g1 & names1 & P1 & P2 & P3 & P4).
      destruct (HW l1 t1 g1 names1 P1 P2 P3) as (fs & d & m1 & Hin & GE & Inc & _). rewrite P4 in Hin.
      assert (RD : read_evals st name = Ok d).
      { unfold read_evals. rewrite (find_name st name _ NS Hin). reflexivity. }
      assert (UN : forall fs' d', In (name, (fs', Ok d')) st -> d' = d).
      { intros fs' d' K. pose proof (find_name st name _ NS Hin) as E1. pose proof (find_name st name _ NS K) as E2. rewrite E1 in E2. congruence. }
      destruct (populate_ok s col name d chans (from_meas st chans name) GE Hc Inc) with (levels := arange (sel_n_levels s)) (F := F) (data := data)
        as (data1 & F1 & E1 & St1 & Fi1 & _).
      { intros l t g names Q1 Q2 Q3 Q4 Q5. destruct (HW l t g names Q1 Q3 Q4) as (fs' & d' & m & K & _ & _ & _ & K1 & K2). rewrite Q5 in K.
        rewrite (UN _ _ K) in K1. eauto. }
      { intros l f g m row Q1 Q2 Q3. exists fs, d, m. auto. }
      { apply arange_sorted. } { intros l Hl. apply arange_in in Hl. exact Hl. } { exact St. }
      destruct (IH F1 data1 ND (fun n K => HM n (or_intror K)) St1) as (data' & F' & E' & St' & Fi').
      exists data', F'. split; [cbn [populate_all]; rewrite RD; cbn [bind]; rewrite E1; cbn [bind]; exact E'|]. split; [exact St'|].
      intros l f t H1 H2 H3 r g names Hr. destruct (Fi1 l f t H1 H2 H3 r g names Hr) as [A1 A2]. destruct (Fi' l f t H1 H2 H3 r g names Hr) as [B1 B2].
      split.
      + intros [K|K].
        * rewrite B2 by (rewrite <- K; exact Nn). rewrite <- K. apply A1. split; [|symmetry; exact K]. split; [apply arange_in; exact H1|].
          destruct (HW l t g names H1 H3 (nth_error_In _ _ Hr)) as (fs' & d' & m & Q & _ & _ & Q2 & _). rewrite <- K in Q. rewrite <- (UN _ _ Q). exact Q2.
        * apply B1. exact K.
      + intros K. rewrite B2 by (intros C; apply K; right; exact C). apply A2. intros [_ C]. apply K. left. symmetry. exact C.
  Qed.

  Lemma site_data_ok : forall (proj : project A) names p s site_name chans freqs, selector_run proj names p = Ok s ->
    In site_name names -> chans <> [] -> good_site proj p site_name chans -> sel_eval_freqs s = Ok freqs ->
    (exists level t, 0 <= level < sel_n_levels s /\ sel_table s level = Ok t /\ t <> []) ->
    exists cb, get_site_data junk proj s site_name chans = Ok cb /\ cb_chans cb = chans /\ cb_eval_freqs cb = freqs /\
      gathered_from proj s site_name chans (cb_data cb).
  Proof.
    intros proj names p s site_name chans freqs H Hin Hc GS Hf (l0 & t0 & Hl0 & Ht0 & Hne).
    destruct (c47 _ _ _ _ _ H) as (Hsites & HND & Hp & _ & Htab).
    assert (Hs : In site_name (sel_sites s)) by (apply Hsites; exact Hin).
    destruct (first_index_in site_name (sel_sites s) Hs) as (col & Ecol & Ncol).
    assert (ST : exists st, find (fun x => String.eqb (fst x) site_name) proj = Some (site_name, st)).
    { destruct t0 as [|[g0 row0] t0']; [congruence|]. destruct (Htab l0 Hl0) as (t & Ht & _ & Hrow). rewrite Ht0 in Ht. injection Ht as <-.
      destruct (Forall2_nth_error _ _ _ _ _ (proj1 (Hrow g0 row0) (or_introl eq_refl)) Ncol) as (nm & _ & ms & (st & E & _) & _). eauto. }
    destruct ST as [st Hst]. destruct (GS st Hst) as [NDst Hgood].
    (* every row of every table *)
    assert (ROW : forall l t g nm, 0 <= l < sel_n_levels s -> sel_table s l = Ok t -> In (g, nm) t ->
       nth_error nm col = Some (nth col nm EmptyString) /\
       exists fs d m, In (nth col nm EmptyString, (fs, Ok d)) st /\ good_evals (dp_per_level (sel_params s)) d /\ incl chans (sm_chans (sd_md d)) /\
         l < sm_n_levels (sd_md d) /\ nth_error (sm_levels (sd_md d)) (Z.to_nat l) = Some m /\ 0 <= g - sl_offset m < sl_n_wins m).
    { intros l t g nm Hl Ht Hg. destruct (Htab l Hl) as (t' & Ht' & _ & Hrow). rewrite Ht in Ht'. injection Ht' as <-.
      destruct (Forall2_nth_error _ _ _ _ _ (proj1 (Hrow g nm) Hg) Ncol) as (name & Nn & ms & Hms & Sup).
      rewrite (nth_error_nth _ _ EmptyString Nn). split; [exact Nn|].
      destruct Hms as (st' & E' & Ems). rewrite Hst in E'. injection E' as <-.
      destruct Sup as (bf & md & af & Esplit & (HL & m & Hm & Hg') & _).
      assert (Hin' : In (name, md) ms) by (rewrite Esplit; apply in_or_app; right; left; reflexivity).
      rewrite Ems in Hin'. apply in_flat_map in Hin'. destruct Hin' as ([n' [fs r]] & Hin' & K). cbn [fst snd] in K.
      destruct (Qeq_bool fs (dp_fs p)) eqn:Q; [|destruct K]. destruct r as [d|]; [|destruct K]. destruct K as [K|[]]. injection K as -> <-.
      destruct (Hgood name fs d Hin' Q) as [G I]. exists fs, d, m. rewrite Hp. split; [exact Hin'|]. split; [exact G|]. split; [exact I|]. split; [exact HL|]. split; [exact Hm|]. lia. }
    set (meas := sorted_set (map (in_col col) (concat (sel_tables s)))).
    assert (INT : forall g nm, In (g, nm) (concat (sel_tables s)) <-> exists l t, 0 <= l < sel_n_levels s /\ sel_table s l = Ok t /\ In (g, nm) t).
    { intros g nm. rewrite in_concat. split.
      - intros (t & Ht & Hg). apply In_nth_error in Ht. destruct Ht as [k Hk]. assert (k < length (sel_tables s))%nat by (apply nth_error_Some; congruence).
        exists (Z.of_nat k), t. unfold sel_n_levels, sel_table. rewrite Nat2Z.id, Hk. destruct (Z.ltb_spec (Z.of_nat k) 0); [lia|]. split; [lia|]. auto.
      - intros (l & t & Hl & Ht & Hg). exists t. split; [|exact Hg]. unfold sel_table in Ht. destruct (nth_error (sel_tables s) (Z.to_nat l)) as [t'|] eqn:E; [|discriminate].
        destruct (l <? 0); [discriminate|]. injection Ht as <-. eapply nth_error_In. exact E. }
    assert (HM : sel_measurements s site_name = Ok meas).
    { unfold sel_measurements. destruct (sel_tables s) eqn:E; [unfold sel_n_levels in Hl0; rewrite E in Hl0; cbn in Hl0; lia|].
      unfold col_of. rewrite Ecol. cbn [bind]. reflexivity. }
    destruct (empty_data_ok s chans) as (data0 & F0 & E0 & St0).
    destruct (populate_all_ok s st col chans NDst Hc) with (meas := meas) (F := F0) (data := data0) as (data' & F' & E' & St' & Fi').
    { intros l t g nm Hl Ht Hg. exact (proj2 (ROW l t g nm Hl Ht Hg)). }
    { apply sorted_set_nodup. }
    { intros n Hn. apply (proj1 (sorted_set_in _ _)) in Hn. apply in_map_iff in Hn. destruct Hn as ([g nm] & E & Hn). apply INT in Hn. destruct Hn as (l & t & P1 & P2 & P3).
      exists l, t, g, nm. auto. }
    { exact St0. }
    exists (mkComb chans freqs (Z.of_nat (length data')) meas data'). split.
    { unfold get_site_data. unfold get_site. rewrite Hst. cbn [bind]. rewrite HM. cbn [bind]. rewrite E0. cbn [bind].
      destruct meas as [|a b] eqn:EM.
      - exfalso. destruct t0 as [|[g0 nm0] t0']; [congruence|].
        assert (K : In (in_col col (g0, nm0)) meas).
        { unfold meas. apply sorted_set_in. apply in_map. apply INT. exists l0, ((g0, nm0) :: t0'). split; [exact Hl0|]. split; [exact Ht0|left; reflexivity]. }
        rewrite EM in K. destruct K.
      - unfold col_of. rewrite Ecol. cbn [bind]. rewrite E'. cbn [bind]. rewrite Hf. reflexivity. }
    split; [reflexivity|]. split; [reflexivity|]. cbn [cb_data]. exists st, col. split; [exact Hst|]. split; [exact Ncol|].
    intros level f t Hl Hf0 Ht. destruct (St' level f t Hl Hf0 Ht) as [G L]. exists (F' level f). split.
    { unfold dict_get, key_of in G. destruct (find (fun kv : Z * list (list A) => (fst kv =? dp_per_level (sel_params s) * level + f)%Z) data') as [[k v]|] eqn:E; [|discriminate].
      pose proof (find_some _ _ E) as [_ Ek]. cbn in Ek. apply Z.eqb_eq in Ek. subst k. congruence. }
    split; [exact L|]. intros r g nm Hr. destruct (ROW level t g nm Hl Ht (nth_error_In _ _ Hr)) as [Nn _].
    destruct (proj1 (Fi' level f t Hl Hf0 Ht r g nm Hr)) as (row & Hrow & fs & d & m & P1 & P2 & P3 & P4).
    { unfold meas. apply sorted_set_in. apply in_map_iff. exists (g, nm). split; [reflexivity|]. apply INT. exists level, t. split; [exact Hl|]. split; [exact Ht|].
      eapply nth_error_In. exact Hr. }
    exists (nth col nm EmptyString), fs, d, m, row. auto 10.
  Qed.

  Lemma c48 : forall (proj : project A) names p s tf out_name in_name cross_name freqs, selector_run proj names p = Ok s ->
    let in_site := or_else in_name out_name in let cross_site := or_else cross_name in_site in
    In out_name names -> In in_site names -> In cross_site names ->
    tf_out tf <> [] -> tf_in tf <> [] -> tf_cross tf <> [] ->
    good_site proj p out_name (tf_out tf) -> good_site proj p in_site (tf_in tf) -> good_site proj p cross_site (tf_cross tf) ->
    sel_eval_freqs s = Ok freqs -> (exists level t, 0 <= level < sel_n_levels s /\ sel_table s level = Ok t /\ t <> []) ->
    exists g, project_gather junk proj s tf out_name in_name cross_name = Ok g /\
      gathered_from proj s out_name (tf_out tf) (cb_data (g_out g)) /\
      gathered_from proj s in_site (tf_in tf) (cb_data (g_in g)) /\
      gathered_from proj s cross_site (tf_cross tf) (cb_data (g_cross g)) /\
      cb_eval_freqs (g_out g) = freqs /\ cb_eval_freqs (g_in g) = freqs /\ cb_eval_freqs (g_cross g) = freqs /\
      cb_chans (g_out g) = tf_out tf /\ cb_chans (g_in g) = tf_in tf /\ cb_chans (g_cross g) = tf_cross tf.
  Proof.
    intros proj names p s tf on inn cn freqs H in_site cross_site I1 I2 I3 C1 C2 C3 G1 G2 G3 Hf Hne.
    destruct (site_data_ok proj names p s on (tf_out tf) freqs H I1 C1 G1 Hf Hne) as (a & Ea & A1 & A2 & A3).
    destruct (site_data_ok proj names p s in_site (tf_in tf) freqs H I2 C2 G2 Hf Hne) as (b & Eb & B1 & B2 & B3).
    destruct (site_data_ok proj names p s cross_site (tf_cross tf) freqs H I3 C3 G3 Hf Hne) as (c & Ec & D1 & D2 & D3).
    exists (mkGathered a b c). split.
    { unfold project_gather. fold (or_else inn on). fold in_site. fold (or_else cn in_site). fold cross_site. rewrite Ea. cbn [bind]. rewrite Eb. cbn [bind]. rewrite Ec. reflexivity. }
    cbn [g_out g_in g_cross]. auto 12.
  Qed.
End Final.

(** without a shared window the gathering fails instead of returning empty data *)
Lemma no_windows : forall A junk (proj : project A) s tf out_name st, find (fun x => String.eqb (fst x) out_name) proj = Some (out_name, st) ->
  In out_name (sel_sites s) -> (forall t, In t (sel_tables s) -> t = []) -> project_gather junk proj s tf out_name None None = Err AttributeError.
Proof.
  intros A junk proj s tf on st Hst Hin Ht. unfold project_gather, get_site_data, get_site. rewrite Hst. cbn [bind].
  assert (HM : sel_measurements s on = Ok []).
  { unfold sel_measurements. destruct (sel_tables s) as [|t ts] eqn:E; [reflexivity|]. unfold col_of.
    destruct (first_index_in on (sel_sites s) Hin) as (i & -> & _). cbn [bind]. rewrite <- E.
    assert (concat (sel_tables s) = []); [|rewrite H; reflexivity]. rewrite E. clear E. induction (t :: ts) as [|x l IH]; [reflexivity|].
    cbn [concat]. rewrite (Ht x (or_introl eq_refl)). apply IH. intros y Hy. apply Ht. right. exact Hy. }
  rewrite HM. cbn [bind].
  assert (E : exists d, empty_data junk s (tf_out tf) = Ok d).
  { unfold empty_data. match goal with |- context [mapM ?f ?l] => destruct (mapM_total f l) as [x ->] end; [|eexists; reflexivity].
    intros [l f] K. apply in_prod_iff in K. destruct K as [K1 K2]. apply arange_in in K1, K2. destruct (sel_tables_ok s l K1) as [t Htab].
    destruct (c47_evals s l f t K1 K2 Htab) as [_ K]. cbn [fst snd]. rewrite K. eexists. reflexivity. }
  destruct E as [d ->]. reflexivity.
Qed.
