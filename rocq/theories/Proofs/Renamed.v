(** C103: the names and the order of the measurements. *)
From Coq Require Import String Ascii Sorted Permutation.
From Verif Require Import Base.Prelude Base.ListUtil Base.NdArray
  Model.Sampling Model.Time Model.Decimate Model.Window Model.Spectra Model.Calibrate Model.Gather Spec.Calibrate Spec.Gather
  Proofs.Sampling Proofs.TimeMeta Proofs.Spectra Proofs.Calibrate Proofs.CalibrateFinal Base.SortNames Proofs.Gather Proofs.GatherData Proofs.GatherFinal Proofs.GatherQuick Spec.Renamed.
Open Scope list_scope. Open Scope Z_scope.

Lemma has_window_dec md level g : {has_window md level g} + {~ has_window md level g}.
Proof.
  unfold has_window. destruct (Z_lt_dec level (sm_n_levels md)) as [H|H]; [|right; tauto].
  destruct (nth_error (sm_levels md) (Z.to_nat level)) as [m|] eqn:E.
  - destruct (Z_le_dec (sl_offset m) g) as [A|A]; [destruct (Z_lt_dec g (sl_offset m + sl_n_wins m)) as [B|B]|].
    + left. split; [exact H|]. exists m. auto.
    + right. intros (_ & m' & [= <-] & K). lia.
    + right. intros (_ & m' & [= <-] & K). lia.
  - right. intros (_ & m' & F & _). discriminate.
Qed.
Lemma supplies_exists ms level g : (exists name, supplies ms level g name) <-> exists n md, In (n, md) ms /\ has_window md level g.
Proof.
  split.
  - intros (name & before & md & after & -> & H & _). exists name, md. split; [apply in_or_app; right; left; reflexivity|exact H].
  - induction ms as [|[n0 md0] ms IH]; intros (n & md & Hin & H); [destruct Hin|]. destruct (has_window_dec md0 level g) as [K|K].
    + exists n0, [], md0, ms. split; [reflexivity|]. split; [exact K|intros ? ? []].
    + destruct Hin as [E|Hin]; [injection E as <- <-; contradiction|]. destruct IH as (name & before & md1 & after & -> & H1 & H2); [eauto|].
      exists name, ((n0, md0) :: before), md1, after. split; [reflexivity|]. split; [exact H1|]. intros n' md' [E|E]; [injection E as <- <-; exact K|exact (H2 _ _ E)].
Qed.
Lemma supplies_in ms level g name : supplies ms level g name -> exists md, In (name, md) ms /\ has_window md level g.
Proof. intros (b & md & a & -> & H & _). exists md. split; [apply in_or_app; right; left; reflexivity|exact H]. Qed.
(** the measurements of a site are its data with names *)
Lemma measurements_data {A} (proj : project A) site fs ms : site_measurements proj site fs ms ->
  forall md, (exists n, In (n, md) ms) <-> exists d, data_of proj site fs d /\ sd_md d = md.
Proof.
  intros (st & F & ->) md. split.
  - intros (n & Hin). apply in_flat_map in Hin. destruct Hin as ([n0 [f r]] & K & Hin). cbn [fst snd] in Hin. destruct (Qeq_bool f fs) eqn:E; [|destruct Hin]. destruct r as [d|e]; [|destruct Hin]. destruct Hin as [E2|[]]. injection E2 as <- <-.
    exists d. split; [|reflexivity]. exists st, n0, f. auto.
  - intros (d & (st' & n & f & F' & Hin & E) & <-). assert (st' = st) as -> by congruence. exists n. apply in_flat_map. exists (n, (f, Ok d)). split; [exact Hin|]. cbn [fst snd]. rewrite E. left. reflexivity.
Qed.
Lemma measurement_entry {A} (proj : project A) site fs ms st n md : site_measurements proj site fs ms -> find (fun x => String.eqb (fst x) site) proj = Some (site, st) ->
  In (n, md) ms -> exists f d, In (n, (f, Ok d)) st /\ Qeq_bool f fs = true /\ sd_md d = md.
Proof.
  intros (st' & F & ->) F' Hin. assert (st' = st) as -> by congruence. apply in_flat_map in Hin. destruct Hin as ([n0 [f r]] & K & Hin). cbn [fst snd] in Hin. destruct (Qeq_bool f fs) eqn:E; [|destruct Hin]. destruct r as [d|e]; [|destruct Hin]. destruct Hin as [E2|[]]. injection E2 as <- <-. eauto.
Qed.
Lemma increasing_ext l : forall l', increasing_z l -> increasing_z l' -> (forall g, In g l <-> In g l') -> l = l'.
Proof.
  induction l as [|x l IH]; intros [|y l'] S S' H.
  - reflexivity.
  - exfalso. apply (H y). left. reflexivity.
  - exfalso. apply (H x). left. reflexivity.
  - apply StronglySorted_inv in S, S'. destruct S as [S1 S2], S' as [T1 T2]. rewrite Forall_forall in S2, T2.
    assert (x = y) as <-. { destruct (proj1 (H x) (or_introl eq_refl)) as [E|E]; [congruence|]. destruct (proj2 (H y) (or_introl eq_refl)) as [E2|E2]; [congruence|]. specialize (T2 _ E). specialize (S2 _ E2). lia. }
    f_equal. apply IH; [exact S1|exact T1|]. intros g. split; intros K.
    + destruct (proj1 (H g) (or_intror K)) as [<-|E]; [|exact E]. specialize (S2 _ K). lia.
    + destruct (proj2 (H g) (or_intror K)) as [<-|E]; [|exact E]. specialize (T2 _ K). lia.
Qed.
Lemma nodup_entry {B} (l : list (string * B)) n x y : NoDup (map fst l) -> In (n, x) l -> In (n, y) l -> x = y.
Proof. intros N H K. pose proof (find_name _ _ _ N H). pose proof (find_name _ _ _ N K). congruence. Qed.

Section Two.
  Context {A : Type}.
  Variables (proj proj' : project A) (names : list string) (p : dec_params).
  Hypothesis SD : same_data (dp_fs p) names proj proj'.
  Hypothesis SEP : separate (dp_fs p) names proj.

  Lemma all_have level : all_sites_have proj (dp_fs p) names level <-> all_sites_have proj' (dp_fs p) names level.
  Proof.
    unfold all_sites_have. split; intros H site Hs; destruct (H site Hs) as (ms & n & md & M & Hin & L); destruct (SD site Hs) as ((st & st' & F & F' & _) & E).
    - assert (D : exists d, data_of proj site (dp_fs p) d /\ sd_md d = md) by (apply (measurements_data _ _ _ _ M); eauto). destruct D as (d & D & Ed).
      assert (M' : exists ms', site_measurements proj' site (dp_fs p) ms') by (eexists; exists st'; split; [exact F'|reflexivity]). destruct M' as (ms' & M').
      destruct (proj2 (measurements_data _ _ _ _ M' md)) as (n' & Hn'); [exists d; split; [apply E; exact D|exact Ed]|]. exists ms', n', md. auto.
    - assert (D : exists d, data_of proj' site (dp_fs p) d /\ sd_md d = md) by (apply (measurements_data _ _ _ _ M); eauto). destruct D as (d & D & Ed).
      assert (M' : exists ms', site_measurements proj site (dp_fs p) ms') by (eexists; exists st; split; [exact F|reflexivity]). destruct M' as (ms' & M').
      destruct (proj2 (measurements_data _ _ _ _ M' md)) as (n' & Hn'); [exists d; split; [apply E; exact D|exact Ed]|]. exists ms', n', md. auto.
  Qed.
  Lemma supply site level g : In site names ->
    (exists name ms, site_measurements proj site (dp_fs p) ms /\ supplies ms level g name) <-> (exists name ms, site_measurements proj' site (dp_fs p) ms /\ supplies ms level g name).
  Proof.
    intros Hs. destruct (SD site Hs) as ((st & st' & F & F' & _) & E).
    assert (G : forall (P : project A) s0, find (fun x => String.eqb (fst x) site) P = Some (site, s0) -> (exists name ms, site_measurements P site (dp_fs p) ms /\ supplies ms level g name) <-> exists d, data_of P site (dp_fs p) d /\ has_window (sd_md d) level g).
    { intros P s0 FP. split.
      - intros (name & ms & M & S). apply supplies_in in S. destruct S as (md & Hin & W). destruct (proj1 (measurements_data _ _ _ _ M md)) as (d & D & Ed); [eauto|]. exists d. rewrite Ed. auto.
      - intros (d & D & W). assert (M : exists ms, site_measurements P site (dp_fs p) ms) by (eexists; exists s0; split; [exact FP|reflexivity]). destruct M as (ms & M).
        destruct (proj2 (measurements_data _ _ _ _ M (sd_md d))) as (n & Hin); [eauto|]. destruct (proj2 (supplies_exists ms level g)) as (name & S); [eauto|]. eauto. }
    rewrite (G _ _ F), (G _ _ F'). split; intros (d & D & W); exists d; (split; [apply E; exact D|exact W]).
  Qed.
  Variables (s s' : selection).
  Hypotheses (HS : selector_run proj names p = Ok s) (HS' : selector_run proj' names p = Ok s').
  Lemma sites_same : sel_sites s' = sel_sites s /\ sel_params s = p /\ sel_params s' = p.
  Proof.
    pose proof HS as H. pose proof HS' as H'. unfold selector_run in H, H'. apply bind_ok in H. destruct H as (a & _ & H). apply bind_ok in H'. destruct H' as (a' & _ & H').
    destruct (Z.of_nat (length a) =? 0); [discriminate|]. destruct (Z.of_nat (length a') =? 0); [discriminate|]. apply bind_ok in H. destruct H as (b & _ & H). apply bind_ok in H'. destruct H' as (b' & _ & H').
    injection H as <-. injection H' as <-. auto.
  Qed.
  Lemma levels_same : sel_n_levels s' = sel_n_levels s.
  Proof.
    destruct (c47 _ _ _ _ _ HS) as (_ & _ & _ & L & _). destruct (c47 _ _ _ _ _ HS') as (_ & _ & _ & L' & _).
    assert (0 <= sel_n_levels s) by (unfold sel_n_levels; lia). assert (0 <= sel_n_levels s') by (unfold sel_n_levels; lia).
    destruct (Z.lt_trichotomy (sel_n_levels s') (sel_n_levels s)) as [K|[K|K]]; [|exact K|]; exfalso.
    - apply (Z.lt_irrefl (sel_n_levels s')). apply (L' (sel_n_levels s')); [assumption|]. apply all_have. apply L; assumption.
    - apply (Z.lt_irrefl (sel_n_levels s)). apply (L (sel_n_levels s)); [assumption|]. apply all_have. apply L'; assumption.
  Qed.
  Lemma windows_same level t t' : 0 <= level < sel_n_levels s -> sel_table s level = Ok t -> sel_table s' level = Ok t' -> map fst t = map fst t'.
  Proof.
    intros Hl Ht Ht'. destruct (c47 _ _ _ _ _ HS) as (I1 & _ & _ & _ & T). destruct (c47 _ _ _ _ _ HS') as (_ & _ & _ & _ & T').
    destruct (T level Hl) as (t0 & E & S & X). assert (t0 = t) as -> by congruence. destruct (T' level) as (t0 & E' & S' & X'); [rewrite levels_same; exact Hl|]. assert (t0 = t') as -> by congruence.
    apply increasing_ext; [exact S|exact S'|]. destruct sites_same as (ES & _ & _). rewrite ES in X'.
    assert (G : forall (P : project A) tt, (forall g row, In (g, row) tt <-> Forall2 (fun site name => exists ms, site_measurements P site (dp_fs p) ms /\ supplies ms level g name) (sel_sites s) row) ->
      forall g, In g (map fst tt) <-> forall site, In site (sel_sites s) -> exists name ms, site_measurements P site (dp_fs p) ms /\ supplies ms level g name).
    { intros P tt K g. split.
      - intros Hg. apply in_map_iff in Hg. destruct Hg as ([g0 row] & <- & Hin). apply K in Hin. cbn [fst]. intros site Hsite. apply In_nth_error in Hsite. destruct Hsite as [i Hi]. destruct (Forall2_nth_error _ _ _ _ _ Hin Hi) as (n & _ & ms & M). exists n, ms. exact M.
      - intros Hall. assert (R : exists row, Forall2 (fun site name => exists ms, site_measurements P site (dp_fs p) ms /\ supplies ms level g name) (sel_sites s) row).
        { clear -Hall. induction (sel_sites s) as [|x l IH]; [exists []; constructor|]. destruct IH as (row & R); [intros y Hy; apply Hall; right; exact Hy|]. destruct (Hall x (or_introl eq_refl)) as (n & M). exists (n :: row). constructor; assumption. }
        destruct R as (row & R). apply in_map_iff. exists (g, row). split; [reflexivity|]. apply K. exact R. }
    intros g. rewrite (G proj t X g), (G proj' t' X' g). split; intros H site Hsite; apply supply; try (apply I1; exact Hsite); exact (H site Hsite).
  Qed.

  Let P := dp_per_level p.
  Hypothesis GE : forall site d, In site names -> data_of proj site (dp_fs p) d -> good_evals P d.

  Lemma rows_same site cs data data' level f t t' : In site names ->
    gathered_from proj s site cs data -> gathered_from proj' s' site cs data' -> 0 <= level < sel_n_levels s -> 0 <= f < P ->
    sel_table s level = Ok t -> sel_table s' level = Ok t' -> dict_get (P * level + f) data = dict_get (P * level + f) data'.
  Proof.
    intros Hs (st & col & F & Hcol & G) (st' & col' & F' & Hcol' & G') Hl Hf Ht Ht'. destruct sites_same as (ES & EP & EP'). rewrite EP in G. rewrite EP' in G'. fold P in G, G'.
    destruct (SD site Hs) as ((st0 & st0' & F0 & F0' & N & N') & ED). assert (st0 = st) as -> by congruence. assert (st0' = st') as -> by congruence.
    destruct (G level f t Hl Hf Ht) as (rows & R1 & R2 & R3). assert (Hl' : 0 <= level < sel_n_levels s') by (rewrite levels_same; exact Hl).
    destruct (G' level f t' Hl' Hf Ht') as (rows' & R1' & R2' & R3'). pose proof (windows_same level t t' Hl Ht Ht') as W.
    unfold dict_get. rewrite R1, R1'. f_equal. assert (LT : length t = length t') by (rewrite <- (map_length fst t), W, map_length; reflexivity).
    destruct (c47 _ _ _ _ _ HS) as (_ & _ & _ & _ & T). destruct (c47 _ _ _ _ _ HS') as (_ & _ & _ & _ & T').
    destruct (T level Hl) as (t0 & E0 & _ & X). assert (t0 = t) as -> by congruence. destruct (T' level Hl') as (t0 & E0' & _ & X'). assert (t0 = t') as -> by congruence.
    assert (EX : forall i, nth_error rows i = nth_error rows' i).
    { intros i. destruct (nth_error t i) as [[g nm]|] eqn:Ei.
      2:{ apply nth_error_None in Ei. transitivity (@None (list A)); [|symmetry]; apply nth_error_None; lia. }
      destruct (nth_error t' i) as [[g' nm']|] eqn:Ei'; [|apply nth_error_None in Ei'; assert (i < length t)%nat by (apply nth_error_Some; congruence); lia].
      assert (g' = g) as ->. { assert (K : nth_error (map fst t) i = nth_error (map fst t') i) by (rewrite W; reflexivity). rewrite !nth_error_map, Ei, Ei' in K. cbn in K. congruence. }
      destruct (R3 i g nm Ei) as (n1 & f1 & d1 & m1 & row1 & A1 & A2 & A3 & A4 & A5 & A6). destruct (R3' i g nm' Ei') as (n2 & f2 & d2 & m2 & row2 & B1 & B2 & B3 & B4 & B5 & B6).
      rewrite A5, B5. f_equal.
      assert (D1 : data_of proj site (dp_fs p) d1).
      { pose proof (proj1 (X g nm) (nth_error_In _ _ Ei)) as Q. destruct (Forall2_nth_error _ _ _ _ _ Q Hcol) as (n & En & ms & M & S). assert (n = n1) as -> by congruence.
        apply supplies_in in S. destruct S as (md & Hin & _). destruct (measurement_entry _ _ _ _ _ _ _ M F Hin) as (f0 & d0 & K & Kf & _).
        pose proof (nodup_entry _ _ _ _ N A2 K) as E. assert (d1 = d0) as -> by congruence. assert (f1 = f0) as -> by congruence. exists st, n1, f0. auto. }
      assert (D2 : data_of proj' site (dp_fs p) d2).
      { pose proof (proj1 (X' g nm') (nth_error_In _ _ Ei')) as Q. destruct (Forall2_nth_error _ _ _ _ _ Q Hcol') as (n & En & ms & M & S). assert (n = n2) as -> by congruence.
        apply supplies_in in S. destruct S as (md & Hin & _). destruct (measurement_entry _ _ _ _ _ _ _ M F' Hin) as (f0 & d0 & K & Kf & _).
        pose proof (nodup_entry _ _ _ _ N' B2 K) as E. assert (d2 = d0) as -> by congruence. assert (f2 = f0) as -> by congruence. exists st', n2, f0. auto. }
      apply ED in D2. assert (HW : forall d m, data_of proj site (dp_fs p) d -> nth_error (sm_levels (sd_md d)) (Z.to_nat level) = Some m -> 0 <= g - sl_offset m < sl_n_wins m -> has_window (sd_md d) level g).
      { intros d m D Em Hg. destruct (GE site d Hs D) as (_ & LO & _). unfold levels_ok in LO. split.
        - assert (Z.to_nat level < length (sm_levels (sd_md d)))%nat by (apply nth_error_Some; congruence). lia.
        - exists m. split; [exact Em|]. lia. }
      assert (d1 = d2) as <-. { apply (SEP site d1 d2 level g Hs D1 D2); [lia|exact (HW _ _ D1 A3 A4)|exact (HW _ _ D2 B3 B4)]. }
      assert (m2 = m1) as -> by congruence. exact (window_row_fun _ _ _ _ _ _ _ A6 B6). }
    clear -EX. revert rows' EX. induction rows as [|x l IH]; intros [|y l'] EX; [reflexivity|specialize (EX 0%nat); discriminate|specialize (EX 0%nat); discriminate|].
    f_equal; [specialize (EX 0%nat); cbn in EX; congruence|]. apply IH. intros i. exact (EX (S i)).
  Qed.
  Lemma eval_freqs_same : sel_eval_freqs s' = sel_eval_freqs s.
  Proof. destruct sites_same as (_ & E & E'). unfold sel_eval_freqs. rewrite E, E', levels_same. reflexivity. Qed.
  Lemma nonempty_same : (exists level t, 0 <= level < sel_n_levels s /\ sel_table s level = Ok t /\ t <> []) -> exists level t, 0 <= level < sel_n_levels s' /\ sel_table s' level = Ok t /\ t <> [].
  Proof.
    intros (level & t & Hl & Ht & Hn). destruct (sel_tables_ok s' level) as (t' & Ht'); [rewrite levels_same; exact Hl|]. exists level, t'. split; [rewrite levels_same; exact Hl|]. split; [exact Ht'|].
    pose proof (windows_same level t t' Hl Ht Ht') as W. intros ->. destruct t; [congruence|discriminate].
  Qed.
End Two.
Lemma selector_ok {A} (proj proj' : project A) names p s : same_data (dp_fs p) names proj proj' ->
  (forall site d, In site names -> data_of proj site (dp_fs p) d -> levels_ok (sd_md d)) -> selector_run proj names p = Ok s -> exists s', selector_run proj' names p = Ok s'.
Proof.
  intros SD LO H. unfold selector_run in *. apply bind_ok in H. destruct H as (sw & Hsw & H). apply mapM_ok in Hsw.
  assert (W : exists sw', mapM (fun n => site_wins proj' n (dp_fs p)) (sorted_set names) = Ok sw').
  { apply mapM_total. intros site Hsite. pose proof (proj1 (sorted_set_in _ _) Hsite) as Hn. apply In_nth_error in Hsite. destruct Hsite as [i Hi]. destruct (Forall2_nth_error _ _ _ _ _ Hsw Hi) as (ws & _ & Ew).
    destruct (site_wins_spec _ _ _ _ Ew) as (ms & M & Hne & _). destruct (SD site Hn) as ((st & st' & F & F' & _) & ED).
    unfold site_wins, get_site. rewrite F'. cbn [bind]. assert (M' : site_measurements proj' site (dp_fs p) (evals_metadata st' (dp_fs p))) by (exists st'; split; [exact F'|reflexivity]).
    assert (Hne' : evals_metadata st' (dp_fs p) <> []).
    { destruct ms as [|[n md] ms]; [congruence|]. destruct (proj1 (measurements_data _ _ _ _ M md)) as (d & D & Ed); [exists n; left; reflexivity|].
      destruct (proj2 (measurements_data _ _ _ _ M' md)) as (n' & K); [exists d; split; [apply ED; exact D|exact Ed]|]. intros E. rewrite E in K. destruct K. }
    destruct (Z.eqb_spec (Z.of_nat (length (evals_metadata st' (dp_fs p)))) 0) as [E|_]; [destruct (evals_metadata st' (dp_fs p)); [congruence|cbn in E; lia]|].
    apply mapM_total. intros l Hl. apply arange_in in Hl. apply c46_total; [lia|]. intros n md Hin. destruct (proj1 (measurements_data _ _ _ _ M' md)) as (d & D & <-); [eauto|]. apply (LO site d Hn). apply ED. exact D. }
  destruct W as (sw' & W). rewrite W. cbn [bind]. apply mapM_ok in W. pose proof (Forall2_length' _ _ _ W) as L. pose proof (Forall2_length' _ _ _ Hsw) as L'. assert (L2 : length sw' = length sw) by lia. rewrite L2.
  destruct (Z.of_nat (length sw) =? 0); [discriminate|].
  match goal with |- context [mapM (get_site proj') ?l] => destruct (mapM_total (get_site proj') l) as [u ->] end; [|eexists; reflexivity].
  intros site Hsite. apply (proj1 (sorted_set_in _ _)) in Hsite. destruct (SD site Hsite) as ((st & st' & _ & F' & _) & _). unfold get_site. rewrite F'. eauto.
Qed.
Lemma some_window {A} junk (proj : project A) s site cs cb : get_site_data junk proj s site cs = Ok cb -> exists level t, 0 <= level < sel_n_levels s /\ sel_table s level = Ok t /\ t <> [].
Proof.
  intros H. unfold get_site_data in H. apply bind_ok in H. destruct H as (st & _ & H). apply bind_ok in H. destruct H as (meas & M & H). apply bind_ok in H. destruct H as (data & _ & H).
  destruct meas as [|n meas]; [discriminate|]. unfold sel_measurements in M. destruct (sel_tables s) as [|t0 ts] eqn:E; [discriminate|]. rewrite <- E in M. apply bind_ok in M. destruct M as (i & _ & M).
  assert (Hin : exists x, In x (concat (sel_tables s))).
  { assert (K : In n (sorted_set (map (in_col i) (concat (sel_tables s))))) by (assert (K : sorted_set (map (in_col i) (concat (sel_tables s))) = n :: meas) by congruence; rewrite K; left; reflexivity).
    apply (proj1 (sorted_set_in _ _)) in K. apply in_map_iff in K. destruct K as (x & _ & K). eauto. }
  destruct Hin as (x & Hx). apply in_concat in Hx. destruct Hx as (t & Ht & Hx). apply In_nth_error in Ht. destruct Ht as [k Hk]. assert (k < length (sel_tables s))%nat by (apply nth_error_Some; congruence).
  exists (Z.of_nat k), t. unfold sel_n_levels, sel_table. rewrite Nat2Z.id, Hk. destruct (Z.ltb_spec (Z.of_nat k) 0); [lia|]. split; [lia|]. split; [reflexivity|]. intros ->. destruct Hx.
Qed.
Lemma good_site_of {A} n (proj : project A) p site cs st : dp_per_level p = n -> find (fun x => String.eqb (fst x) site) proj = Some (site, st) -> NoDup (map fst st) ->
  good_data n (dp_fs p) proj site cs -> good_site proj p site cs.
Proof.
  intros <- F N G st0 F0. assert (st0 = st) as -> by congruence. split; [exact N|]. intros name fs d Hin E. apply G. exists st, name, fs. auto.
Qed.
