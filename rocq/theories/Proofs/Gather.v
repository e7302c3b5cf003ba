(** Proofs for C46 and C47 *)
From Coq Require Import String Ascii Sorted Permutation.
From Verif Require Import Base.Prelude Base.ListUtil Base.NdArray
  Model.Sampling Model.Time Model.Decimate Model.Window Model.Spectra Model.Calibrate Model.Gather Spec.Gather
  Proofs.Sampling Proofs.TimeMeta Proofs.Spectra Proofs.Calibrate Proofs.CalibrateFinal Base.SortNames.
Open Scope list_scope. Open Scope Z_scope.

Lemma insert_win_perm x l : Permutation (insert_win x l) (x :: l).
Proof.
  induction l as [|y t IH]; cbn; [reflexivity|]. destruct (fst x <=? fst y); [reflexivity|].
  rewrite IH. apply perm_swap.
Qed.
Lemma sort_wins_perm l : Permutation (sort_wins l) l.
Proof. induction l as [|x t IH]; cbn; [reflexivity|]. fold (sort_wins t). rewrite insert_win_perm, IH. reflexivity. Qed.
Lemma insert_win_sorted x l : StronglySorted Z.le (map fst l) -> StronglySorted Z.le (map fst (insert_win x l)).
Proof.
  induction l as [|y t IH]; cbn; intros H; [constructor; constructor|].
  inversion H as [|? ? H1 H2]; subst. destruct (Z.leb_spec (fst x) (fst y)); cbn.
  - constructor; [exact H|]. constructor; [exact H0|]. eapply Forall_impl; [|exact H2]. cbn. lia.
  - constructor; [apply IH; exact H1|]. apply Forall_forall. intros z Hz.
    rewrite (Permutation_map fst (insert_win_perm x t)) in Hz. cbn in Hz. destruct Hz as [<-|Hz]; [lia|].
    rewrite Forall_forall in H2. apply H2. exact Hz.
Qed.
Lemma sort_wins_sorted l : StronglySorted Z.le (map fst (sort_wins l)).
Proof. induction l as [|x t IH]; cbn; [constructor|]. apply insert_win_sorted. exact IH. Qed.
Lemma sorted_nodup l : StronglySorted Z.le l -> NoDup l -> StronglySorted Z.lt l.
Proof.
  induction l as [|x t IH]; intros H N; [constructor|]. inversion H; inversion N; subst. constructor; [auto|].
  apply Forall_forall. intros y Hy. rewrite Forall_forall in H3. specialize (H3 y Hy). assert (x <> y) by congruence. lia.
Qed.

(** the first pair with a given index survives *)
Lemma dedupe_in seen l g n : In (g, n) (dedupe seen l) <->
  ~ In g seen /\ exists a b, l = a ++ (g, n) :: b /\ ~ In g (map fst a).
Proof.
  revert seen. induction l as [|[h m] t IH]; intros seen; cbn [dedupe].
  - split; [intros []|]. intros (_ & a & b & H & _). destruct a; discriminate.
  - assert (EX : existsb (Z.eqb h) seen = true <-> In h seen).
    { rewrite existsb_exists. split; [intros (y & Hy & E); apply Z.eqb_eq in E; subst; exact Hy|intros; exists h; split; [assumption|apply Z.eqb_refl]]. }
    destruct (existsb (Z.eqb h) seen).
    + rewrite IH. split; intros (H & a & b & E & N); (split; [exact H|]).
      * exists ((h, m) :: a), b. split; [cbn; congruence|]. cbn. intros [->|K]; [tauto|contradiction].
      * destruct a as [|[h' m'] a]; cbn in E; [injection E as -> -> ->; tauto|]. injection E as -> -> ->.
        exists a, b. split; [reflexivity|]. intros K. apply N. right. exact K.
    + cbn [In]. rewrite IH. assert (NS : ~ In h seen) by (intros K; apply EX in K; discriminate). split.
      * intros [E|(H & a & b & E & N)].
        { injection E as -> ->. split; [exact NS|]. exists [], t. split; [reflexivity|]. intros []. }
        split; [intros K; apply H; right; exact K|]. exists ((h, m) :: a), b. split; [cbn; congruence|]. cbn.
        intros [->|K]; [apply H; left; reflexivity|contradiction].
      * intros (H & a & b & E & N). destruct a as [|[h' m'] a]; cbn in E.
        { injection E as -> -> ->. left. reflexivity. }
        injection E as -> -> ->. right. split.
        { intros [->|K]; [apply N; left; reflexivity|contradiction]. }
        exists a, b. split; [reflexivity|]. intros K. apply N. right. exact K.
Qed.
Lemma dedupe_nodup seen l : NoDup (map fst (dedupe seen l)) /\ forall g, In g (map fst (dedupe seen l)) -> ~ In g seen.
Proof.
  revert seen. induction l as [|[h m] t IH]; intros seen; cbn [dedupe].
  - split; [constructor|intros ? []].
  - assert (EX : existsb (Z.eqb h) seen = true <-> In h seen).
    { rewrite existsb_exists. split; [intros (y & Hy & E); apply Z.eqb_eq in E; subst; exact Hy|intros; exists h; split; [assumption|apply Z.eqb_refl]]. }
    destruct (existsb (Z.eqb h) seen); [apply IH|].
    destruct (IH (h :: seen)) as [N H]. cbn [map fst]. split.
    + constructor; [|exact N]. intros K. apply (H h K). left. reflexivity.
    + intros g [<-|K]; [intros C; apply EX in C; discriminate|]. intros C. apply (H g K). right. exact C.
Qed.

Definition contains_win (level : Z) (x : string * spec_md) (g : Z) : Prop := has_window (snd x) level g.
Lemma meas_wins_spec level x w : 0 <= level -> meas_wins level x = Ok w ->
  forall g n, In (g, n) w <-> n = fst x /\ has_window (snd x) level g.
Proof.
  intros Hl H g n. unfold meas_wins in H. unfold has_window. rewrite Z.geb_leb in H.
  destruct (Z.leb_spec (sm_n_levels (snd x)) level).
  - injection H as <-. split; [intros []|]. lia.
  - apply bind_ok in H. destruct H as (m & Hm & H). injection H as <-. unfold level_md in Hm. rewrite py_nth_nat in Hm by exact Hl.
    destruct (nth_error (sm_levels (snd x)) (Z.to_nat level)) as [m'|] eqn:E; [|discriminate]. injection Hm as ->.
    rewrite in_map_iff. split.
    + intros (k & Hk & Hin). injection Hk as <- <-. apply arange_in in Hin. split; [reflexivity|]. split; [assumption|].
      exists m. split; [reflexivity|lia].
    + intros (-> & _ & m0 & Em & Hg). injection Em as <-. exists (g - sl_offset m). split; [f_equal; lia|]. apply arange_in. lia.
Qed.

Lemma in_concat_first (level : Z) ms ws g n : 0 <= level -> Forall2 (fun x w => meas_wins level x = Ok w) ms ws ->
  (exists a b, concat ws = a ++ (g, n) :: b /\ ~ In g (map fst a)) <-> supplies ms level g n.
Proof.
  intros Hl F. induction F as [|x w ms ws Hx F IH]; cbn [concat].
  - split; [intros (a & b & H & _); destruct a; discriminate|]. intros (a & md & b & H & _). destruct a; discriminate.
  - pose proof (meas_wins_spec level x w Hl Hx) as S. destruct x as [xn xmd]. cbn [fst snd] in S.
    split.
    + intros (a & b & H & N). destruct (in_dec Z.eq_dec g (map fst w)) as [I|I].
      * (* in this measurement *)
        assert (Hw : has_window xmd level g).
        { apply in_map_iff in I. destruct I as ([g' n'] & E & I). cbn in E. subst g'. apply S in I. tauto. }
        assert (n = xn).
        { assert (In (g, n) w); [|apply S in H0; tauto].
          apply app_eq_app in H. destruct H as (l & [[-> H]|[-> H]]).
          - destruct l as [|p l]; cbn in H; [|injection H as <- ->].
            + (* w = a: contradiction *) rewrite app_nil_r in I. contradiction.
            + apply in_or_app. right. left. reflexivity.
          - exfalso. apply N. rewrite map_app. apply in_or_app. left. exact I. }
        subst n. exists [], xmd, ms. split; [reflexivity|]. split; [exact Hw|]. intros ? ? [].
      * assert (E : exists a' , a = w ++ a' /\ concat ws = a' ++ (g, n) :: b).
        { apply app_eq_app in H. destruct H as (l & [[-> H]|[-> H]]).
          - destruct l as [|p l]; cbn in H.
            + exists []. rewrite !app_nil_r. split; [reflexivity|]. symmetry. exact H.
            + injection H as <- ->. exfalso. apply I. rewrite map_app. apply in_or_app. right. left. reflexivity.
          - exists l. split; [reflexivity|exact H]. }
        destruct E as (a' & -> & E). destruct (proj1 IH) as (bf & md & af & -> & Hw & Hb).
        { exists a', b. split; [exact E|]. intros K. apply N. rewrite map_app. apply in_or_app. right. exact K. }
        exists ((xn, xmd) :: bf), md, af. split; [reflexivity|]. split; [exact Hw|]. intros n' md' [K|K]; [|apply (Hb n'); exact K].
        injection K as <- <-. intros C. apply I. apply in_map_iff. exists (g, xn). split; [reflexivity|]. apply S. split; [reflexivity|exact C].
    + intros (bf & md & af & H & Hw & Hb). destruct bf as [|[bn bmd] bf]; cbn in H.
      * injection H as -> -> ->. assert (In (g, n) w) by (apply S; auto).
        assert (FI : exists a b, w = a ++ (g, n) :: b /\ ~ In g (map fst a)).
        { assert (S' : forall g' n', In (g', n') w -> n' = n) by (intros g' n' K; apply S in K; tauto).
          clear - H S'. induction w as [|[g' n'] w IH]; [destruct H|].
          destruct (Z.eq_dec g' g) as [->|Hn].
          - rewrite (S' g n' (or_introl eq_refl)). exists [], w. split; [reflexivity|intros []].
          - destruct H as [H|H]; [injection H; congruence|]. destruct IH as (a & b & E & N); [exact H|intros; eapply S'; right; eassumption|].
            exists ((g', n') :: a), b. split; [cbn; congruence|]. cbn. intros [C|C]; [congruence|contradiction]. }
        destruct FI as (a & b & -> & N). exists a, (b ++ concat ws). split; [rewrite <- app_assoc; reflexivity|exact N].
      * injection H as -> -> ->. destruct (proj2 IH) as (a & b & E & N).
        { exists bf, md, af. split; [reflexivity|]. split; [exact Hw|]. intros n' md' K. apply (Hb n' md'). right. exact K. }
        exists (w ++ a), b. split; [rewrite E, app_assoc; reflexivity|]. rewrite map_app. intros K. apply in_app_or in K. destruct K as [K|K]; [|contradiction].
        apply in_map_iff in K. destruct K as ([g' n'] & Eg & K). cbn in Eg. subst g'. apply S in K. destruct K as [_ K].
        apply (Hb bn bmd); [left; reflexivity|exact K].
Qed.

Lemma c46 : forall ms level w, 0 <= level -> level_wins ms level = Ok w ->
  increasing_z (map fst w) /\ forall g name, In (g, name) w <-> supplies ms level g name.
Proof.
  intros ms level w Hl H. unfold level_wins in H. apply bind_ok in H. destruct H as (ws & Hws & H). injection H as <-.
  apply mapM_ok in Hws. split.
  - apply sorted_nodup; [apply sort_wins_sorted|]. eapply Permutation_NoDup; [symmetry; apply Permutation_map; apply sort_wins_perm|].
    apply dedupe_nodup.
  - intros g name. rewrite <- (in_concat_first level ms ws g name Hl Hws).
    assert (P : In (g, name) (sort_wins (dedupe [] (concat ws))) <-> In (g, name) (dedupe [] (concat ws))).
    { split; apply Permutation_in; [|symmetry]; apply sort_wins_perm. }
    rewrite P, dedupe_in. split; [intros [_ H]; exact H|]. intros H. split; [intros []|exact H].
Qed.
Lemma c46_total : forall ms level, 0 <= level -> (forall n md, In (n, md) ms -> levels_ok md) -> exists w, level_wins ms level = Ok w.
Proof.
  intros ms level Hl H. unfold level_wins. destruct (mapM_total (meas_wins level) ms) as [ws ->]; [|eexists; reflexivity].
  intros [n md] Hin. unfold meas_wins. cbn [fst snd]. rewrite Z.geb_leb. destruct (Z.leb_spec (sm_n_levels md) level); [eexists; reflexivity|].
  unfold level_md. rewrite py_nth_nat by exact Hl. specialize (H n md Hin). unfold levels_ok in H.
  destruct (nth_error (sm_levels md) (Z.to_nat level)) as [m|] eqn:E; [eexists; reflexivity|].
  apply nth_error_None in E. lia.
Qed.

(** ** C47 *)
Lemma zmax_spec l : l <> [] -> In (zmax l) l /\ forall x, In x l -> x <= zmax l.
Proof.
  destruct l as [|a t]; [congruence|]. intros _. unfold zmax.
  assert (H : forall t a, (fold_left Z.max t a = a \/ In (fold_left Z.max t a) t) /\ a <= fold_left Z.max t a /\ forall x, In x t -> x <= fold_left Z.max t a).
  { clear. induction t as [|b t IH]; intros a; cbn [fold_left]; [split; [left; reflexivity|split; [lia|intros ? []]]|].
    destruct (IH (Z.max a b)) as (A & B & C). split; [|split].
    - destruct A as [A|A]; [|right; right; exact A]. rewrite A. destruct (Z.max_spec a b) as [[_ ->]|[_ ->]]; [right; left; reflexivity|left; reflexivity].
    - lia.
    - intros x [<-|Hx]; [lia|apply C; exact Hx]. }
  destruct (H t a) as (A & B & C). split; [destruct A as [->|A]; [left; reflexivity|right; exact A]|].
  intros x [<-|Hx]; [exact B|apply C; exact Hx].
Qed.
Lemma zmin_spec l : l <> [] -> In (zmin l) l /\ forall x, In x l -> zmin l <= x.
Proof.
  destruct l as [|a t]; [congruence|]. intros _. unfold zmin.
  assert (H : forall t a, (fold_left Z.min t a = a \/ In (fold_left Z.min t a) t) /\ fold_left Z.min t a <= a /\ forall x, In x t -> fold_left Z.min t a <= x).
  { clear. induction t as [|b t IH]; intros a; cbn [fold_left]; [split; [left; reflexivity|split; [lia|intros ? []]]|].
    destruct (IH (Z.min a b)) as (A & B & C). split; [|split].
    - destruct A as [A|A]; [|right; right; exact A]. rewrite A. destruct (Z.min_spec a b) as [[_ ->]|[_ ->]]; [left; reflexivity|right; left; reflexivity].
    - lia.
    - intros x [<-|Hx]; [lia|apply C; exact Hx]. }
  destruct (H t a) as (A & B & C). split; [destruct A as [->|A]; [left; reflexivity|right; exact A]|].
  intros x [<-|Hx]; [exact B|apply C; exact Hx].
Qed.

(** what [site_wins] delivers *)
Lemma site_wins_spec {A} (proj : project A) name fs ws : site_wins proj name fs = Ok ws ->
  exists ms, site_measurements proj name fs ms /\ ms <> [] /\
    (forall l, 0 <= l -> l < Z.of_nat (length ws) <-> exists n md, In (n, md) ms /\ l < sm_n_levels md) /\
    (forall l, 0 <= l < Z.of_nat (length ws) -> level_wins ms l = Ok (nth (Z.to_nat l) ws [])).
Proof.
  intros H. unfold site_wins in H. apply bind_ok in H. destruct H as (st & Hst & H).
  unfold get_site in Hst. destruct (find _ proj) as [[n s]|] eqn:F; [|discriminate]. injection Hst as ->.
  assert (n = name). { apply find_some in F. destruct F as [_ F]. cbn in F. apply String.eqb_eq in F. exact F. } subst n.
  set (ms := evals_metadata st fs) in *. exists ms. split; [exists st; split; [exact F|reflexivity]|].
  destruct (Z.eqb_spec (Z.of_nat (length ms)) 0) as [E|E]; [discriminate|].
  assert (Hne : ms <> []) by (intros K; rewrite K in E; cbn in E; lia). split; [exact Hne|].
  set (mx := zmax (map (fun x => sm_n_levels (snd x)) ms)) in *.
  destruct (zmax_spec (map (fun x => sm_n_levels (snd x)) ms)) as [MI MX]; [destruct ms; [congruence|discriminate]|]. fold mx in MI, MX.
  apply mapM_ok in H. pose proof (Forall2_length' _ _ _ H) as L. rewrite arange_length in L.
  split.
  - intros l Hl. split.
    + intros Hlt. assert (l < mx) by lia. apply in_map_iff in MI. destruct MI as ([n md] & E1 & E2). exists n, md. split; [exact E2|]. cbn in E1. lia.
    + intros (n & md & Hin & Hlt). assert (sm_n_levels md <= mx); [|lia]. apply MX. apply in_map_iff. exists (n, md). split; [reflexivity|exact Hin].
  - intros l Hl. assert (N : nth_error (arange mx) (Z.to_nat l) = Some l).
    { rewrite arange_nth by lia. f_equal. lia. }
    destruct (Forall2_nth_error _ _ _ _ _ H N) as (w & Hw & E1). rewrite E1. f_equal. symmetry. apply nth_error_nth. exact Hw.
Qed.

Lemma all_some_spec {B} (l : list (option B)) r : all_some l = Some r <-> Forall2 (fun o x => o = Some x) l r.
Proof.
  revert r. induction l as [|[x|] t IH]; intros r; cbn [all_some].
  - split; [intros H; injection H as <-; constructor|intros H; inversion H; reflexivity].
  - split.
    + intros H. destruct (all_some t) as [r'|]; [|discriminate]. injection H as <-. constructor; [reflexivity|]. apply IH. reflexivity.
    + intros H. inversion H as [|? y ? r' E F]; subst. apply IH in F. rewrite F. cbn. congruence.
  - split; [discriminate|]. intros H. inversion H; discriminate.
Qed.
Lemma find_win_spec w g n : increasing_z (map fst w) -> find_win w g = Some n <-> In (g, n) w.
Proof.
  intros H. unfold find_win. induction w as [|[h m] t IH]; cbn [find fst].
  - split; [discriminate|intros []].
  - inversion H as [|? ? H1 H2]; subst. destruct (Z.eqb_spec h g) as [->|Hn].
    + split; [intros E; injection E as ->; left; reflexivity|]. intros [E|E]; [congruence|].
      exfalso. rewrite Forall_forall in H2. assert (g < g); [|lia]. apply H2. apply in_map_iff. exists (g, n). split; [reflexivity|exact E].
    + rewrite (IH H1). split; [intros E; right; exact E|]. intros [E|E]; [congruence|exact E].
Qed.
Lemma flat_map_sorted {B} (f : Z * string -> option B) w : increasing_z (map fst w) ->
  let t := flat_map (fun gn => match f gn with Some row => [(fst gn, row)] | None => [] end) w in
  increasing_z (map fst t) /\ forall g row, In (g, row) t <-> exists n, In (g, n) w /\ f (g, n) = Some row.
Proof.
  intros H t. assert (I : forall g row, In (g, row) t <-> exists n, In (g, n) w /\ f (g, n) = Some row).
  { intros g row. unfold t. rewrite in_flat_map. split.
    - intros ([g' n] & Hin & K). destruct (f (g', n)) as [r|] eqn:E; [|destruct K]. destruct K as [K|[]]. cbn in K. injection K as <- <-. eauto.
    - intros (n & Hin & E). exists (g, n). split; [exact Hin|]. rewrite E. left. reflexivity. }
  split; [|exact I]. clear I. unfold t. clear t. induction w as [|[g n] w IH]; cbn [flat_map]; [constructor|].
  inversion H as [|? ? H1 H2]; subst. destruct (f (g, n)) as [row|]; [|apply IH; exact H1]. cbn [app map fst]. constructor; [apply IH; exact H1|].
  apply Forall_forall. intros x Hx. rewrite Forall_forall in H2. apply H2.
  apply in_map_iff in Hx. destruct Hx as ([g' r'] & <- & Hx). apply in_flat_map in Hx. destruct Hx as ([g2 n2] & Hin & K).
  destruct (f (g2, n2)); [|destruct K]. destruct K as [K|[]]. cbn in K. injection K as <- <-. cbn. apply in_map_iff. exists (g2, n2). auto.
Qed.
Lemma join_spec ws : ws <> [] -> (forall w, In w ws -> increasing_z (map fst w)) ->
  increasing_z (map fst (join ws)) /\ forall g row, In (g, row) (join ws) <-> Forall2 (fun w n => In (g, n) w) ws row.
Proof.
  intros Hne H. destruct ws as [|w ws']; [congruence|]. unfold join. set (ws := w :: ws') in *.
  destruct (flat_map_sorted (fun gn => all_some (map (fun w' => find_win w' (fst gn)) ws)) w) as [S I]; [apply H; left; reflexivity|].
  split; [exact S|]. intros g row. rewrite I. cbn [fst].
  assert (K : all_some (map (fun w' => find_win w' g) ws) = Some row <-> Forall2 (fun w n => In (g, n) w) ws row).
  { rewrite all_some_spec. clear I S. clearbody ws. clear Hne. revert row. induction ws as [|x t IH]; intros row; cbn [map].
    - split; intros F; inversion F; constructor.
    - split; intros F; inversion F as [|? y ? r' E F']; subst; constructor.
      + apply find_win_spec; [apply H; left; reflexivity|exact E].
      + apply IH; [intros; apply H; right; assumption|exact F'].
      + apply find_win_spec; [apply H; left; reflexivity|exact E].
      + apply IH; [intros; apply H; right; assumption|exact F']. }
  rewrite <- K. split; [intros (n & _ & E); exact E|]. intros E. pose proof (proj1 K E) as F.
  inversion F as [|? n ? ? Hn _]; subst. exists n. split; [exact Hn|exact E].
Qed.

Lemma site_measurements_fun {A} (proj : project A) s fs a b : site_measurements proj s fs a -> site_measurements proj s fs b -> a = b.
Proof. intros (st & F & ->) (st' & F' & ->). rewrite F in F'. injection F' as <-. reflexivity. Qed.

Lemma c47 : forall A (proj : project A) names p s, selector_run proj names p = Ok s ->
  (forall n, In n (sel_sites s) <-> In n names) /\ NoDup (sel_sites s) /\ sel_params s = p /\
  (forall level, 0 <= level -> level < sel_n_levels s <-> all_sites_have proj (dp_fs p) names level) /\
  forall level, 0 <= level < sel_n_levels s -> exists t, sel_table s level = Ok t /\
    increasing_z (map fst t) /\
    forall g row, In (g, row) t <->
      Forall2 (fun site name => exists ms, site_measurements proj site (dp_fs p) ms /\ supplies ms level g name) (sel_sites s) row.
Proof.
  intros A proj names p s H. unfold selector_run in H. apply bind_ok in H. destruct H as (sw & Hsw & H).
  apply mapM_ok in Hsw. destruct (Z.eqb_spec (Z.of_nat (length sw)) 0) as [E0|E0]; [discriminate|].
  apply bind_ok in H. destruct H as (u & _ & H). injection H as <-. cbn [sel_sites sel_params].
  set (n := zmin (map (fun w : list wins => Z.of_nat (length w)) sw)). set (nm := sorted_set names) in *.
  assert (Hne : sw <> []) by (intros K; rewrite K in E0; cbn in E0; lia).
  destruct (zmin_spec (map (fun w : list wins => Z.of_nat (length w)) sw)) as [MI ML]; [destruct sw; [congruence|discriminate]|]. fold n in MI, ML.
  assert (Hn0 : 0 <= n) by (apply in_map_iff in MI; destruct MI as (w & <- & _); lia).
  assert (NL : forall t : Z -> list (Z * list string), Z.of_nat (length (map t (arange n))) = n) by (intros t; rewrite map_length, arange_length; lia).
  split; [intros x; apply sorted_set_in|]. split; [apply sorted_set_nodup|]. split; [reflexivity|]. split.
  - intros level Hl. unfold sel_n_levels. cbn [sel_tables]. rewrite NL. split.
    + intros Hlt site Hs. apply sorted_set_in in Hs. fold nm in Hs. apply In_nth_error in Hs. destruct Hs as [i Hi].
      destruct (Forall2_nth_error _ _ _ _ _ Hsw Hi) as (ws & Hws & Es). destruct (site_wins_spec _ _ _ _ Es) as (ms & Hms & _ & Hlv & _).
      assert (n <= Z.of_nat (length ws)) by (apply ML; apply in_map_iff; exists ws; split; [reflexivity|eapply nth_error_In; exact Hws]).
      destruct (proj1 (Hlv level Hl)) as (n0 & md & Hin & Hlt'); [lia|]. exists ms, n0, md. auto.
    + intros Hall. apply in_map_iff in MI. destruct MI as (ws & En & Hin). apply In_nth_error in Hin. destruct Hin as [i Hi].
      destruct (Forall2_nth_error_r _ _ _ _ _ Hsw Hi) as (site & Hs & Es). destruct (site_wins_spec _ _ _ _ Es) as (ms & Hms & _ & Hlv & _).
      destruct (Hall site) as (ms' & n0 & md & Hms' & Hin & Hlt); [apply sorted_set_in; eapply nth_error_In; exact Hs|].
      rewrite (site_measurements_fun _ _ _ _ _ Hms' Hms) in Hin. rewrite <- En. apply Hlv; [exact Hl|eauto].
  - intros level. unfold sel_n_levels. cbn [sel_tables]. rewrite NL. intros Hl.
    eexists. split.
    { unfold sel_table. cbn [sel_tables]. rewrite nth_error_map, arange_nth by lia. cbn [option_map].
      destruct (Z.ltb_spec level 0); [lia|]. rewrite Z2Nat.id by lia. reflexivity. }
    set (cols := map (fun w : list wins => nth (Z.to_nat level) w []) sw).
    assert (PER : Forall2 (fun site c => increasing_z (map fst c) /\ forall g name, In (g, name) c <->
        exists ms, site_measurements proj site (dp_fs p) ms /\ supplies ms level g name) nm cols).
    { unfold cols. clear - Hsw ML Hl. clearbody nm n. induction Hsw as [|site ws nm sw Es F IH]; cbn [map]; constructor.
      - destruct (site_wins_spec _ _ _ _ Es) as (ms & Hms & _ & _ & Hlw).
        assert (n <= Z.of_nat (length ws)) by (apply ML; left; reflexivity).
        destruct (c46 ms level _ (proj1 Hl) (Hlw level ltac:(lia))) as [S I]. split; [exact S|]. intros g name. rewrite I.
        split; [eauto|]. intros (ms' & Hms' & Hs). rewrite (site_measurements_fun _ _ _ _ _ Hms Hms'). exact Hs.
      - apply IH. intros x Hx. apply ML. right. exact Hx. }
    destruct (join_spec cols) as [S I].
    { unfold cols. destruct sw; [congruence|discriminate]. }
    { intros w Hw. apply In_nth_error in Hw. destruct Hw as [i Hi]. destruct (Forall2_nth_error_r _ _ _ _ _ PER Hi) as (x & _ & K & _). exact K. }
    split; [exact S|]. intros g row. transitivity (Forall2 (fun w n => In (g, n) w) cols row); [apply I|]. clear - PER. revert row. induction PER as [|site c nm cols [_ Hc] F IH]; intros row.
    + split; intros H; inversion H; constructor.
    + split; intros H; inversion H as [|? y ? r' E F']; subst; constructor; try (apply IH; exact F'); apply Hc; exact E.
Qed.
Lemma c47_names : forall A (proj : project A) names names' p, (forall n, In n names <-> In n names') ->
  selector_run proj names p = selector_run proj names' p.
Proof. intros A proj names names' p H. unfold selector_run. rewrite (sorted_set_ext _ _ H). reflexivity. Qed.
Lemma c47_evals : forall s level idx t, 0 <= level < sel_n_levels s -> 0 <= idx < dp_per_level (sel_params s) -> sel_table s level = Ok t ->
  get_eval_wins s level idx = Ok t /\ get_n_wins s level idx = Ok (Z.of_nat (length t)).
Proof.
  intros s level idx t Hl Hi Ht. unfold get_eval_wins, get_n_wins, sel_has_eval. rewrite Ht. cbn [bind].
  destruct (Z.leb_spec 0 idx); [|lia]. destruct (Z.ltb_spec idx (dp_per_level (sel_params s))); [|lia].
  rewrite Z.geb_leb. destruct (Z.leb_spec (sel_n_levels s) level); [lia|]. split; reflexivity.
Qed.
