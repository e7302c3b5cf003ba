(** Transfer functions between sites. *)
From Coq Require Import String Sorted.
From Verif Require Import Base.Prelude Base.ListUtil Base.NdArray Base.Cplx Base.SortNames
  Model.Sampling Model.Time Model.Decimate Model.Window Model.Spectra Model.Calibrate Model.Gather Model.Regression Model.Pipeline
  Spec.Calibrate Spec.Gather Spec.Regression Spec.Pipeline Spec.Remote
  Proofs.Sampling Proofs.TimeMeta Proofs.DecParams Proofs.DecFinal Proofs.Spectra Proofs.Calibrate Proofs.Gather Proofs.GatherData Proofs.GatherFinal Proofs.GatherQuick Proofs.RegressionFinal Proofs.RegressionQuick Proofs.PipelineFinal.
Open Scope list_scope. Open Scope Z_scope.

Lemma supplies_fun ms level g n1 n2 : supplies ms level g n1 -> supplies ms level g n2 -> n1 = n2.
Proof.
  intros (b1 & md1 & a1 & E1 & H1 & F1) (b2 & md2 & a2 & E2 & H2 & F2). revert b1 b2 E1 E2 F1 F2. induction ms as [|[n md] ms IH]; intros b1 b2 E1 E2 F1 F2; [destruct b1; discriminate|].
  destruct b1 as [|x1 b1], b2 as [|x2 b2]; cbn in E1, E2.
  - congruence.
  - exfalso. apply (F2 n1 md1); [left; congruence|exact H1].
  - exfalso. apply (F1 n2 md2); [left; congruence|exact H2].
  - apply (IH b1 b2); [congruence|congruence|intros x y K; apply (F1 x y); right; exact K|intros x y K; apply (F2 x y); right; exact K].
Qed.
Lemma site_row_fun pr fs site chans level g f r1 r2 :
  (forall st, find (fun x : string * Gather.site cq => String.eqb (fst x) site) pr = Some (site, st) -> NoDup (map fst st)) ->
  site_row pr fs site chans level g f r1 -> site_row pr fs site chans level g f r2 -> r1 = r2.
Proof.
  intros ND (st & ms & name & fs1 & d & m & F & M & S & I & N & W) (st' & ms' & name' & fs2 & d' & m' & F' & M' & S' & I' & N' & W').
  assert (st' = st) as -> by congruence. rewrite (site_measurements_fun _ _ _ _ _ M' M) in S'. rewrite (supplies_fun _ _ _ _ _ S' S) in I'.
  pose proof (find_name _ _ _ (ND st F) I) as E. rewrite (find_name _ _ _ (ND st F) I') in E. assert (d' = d) as -> by congruence. assert (m' = m) as -> by congruence.
  exact (window_row_fun _ _ _ _ _ _ _ W W').
Qed.
Lemma concat_nth {B} n (ls : list (list B)) i j : (forall l, In l ls -> length l = n) -> (j < n)%nat ->
  nth_error (concat ls) (n * i + j) = match nth_error ls i with Some l => nth_error l j | None => None end.
Proof.
  intros H Hj. revert i. induction ls as [|l ls IH]; intros i; [destruct i, (n * _ + j)%nat; reflexivity|]. cbn [concat].
  pose proof (H l (or_introl eq_refl)) as L. destruct i as [|i].
  - rewrite Nat.mul_0_r. cbn [Nat.add nth_error]. apply nth_error_app1. lia.
  - rewrite nth_error_app2 by nia. replace (n * S i + j - length l)%nat with (n * i + j)%nat by nia. cbn [nth_error]. apply IH. intros x Hx. apply H. right. exact Hx.
Qed.
Lemma or_else_in o (d : string) l : In d l -> (forall x, o = Some x -> In x l) -> In (or_else o d) l.
Proof. destruct o as [x|]; cbn; intros H K; [apply K; reflexivity|exact H]. Qed.

(** selecting succeeds when every site has readable data *)
Lemma selector_total (pr : project cq) names p : names <> [] -> all_sites_have pr (dp_fs p) names 0 ->
  (forall site, In site names -> exists chans, good_site pr p site chans) -> exists s, selector_run pr names p = Ok s.
Proof.
  intros Hne Hall Hg. unfold selector_run.
  destruct (mapM_total (fun n => site_wins pr n (dp_fs p)) (sorted_set names)) as [sw Hsw].
  { intros n Hn. apply (proj1 (sorted_set_in _ _)) in Hn. destruct (Hall n Hn) as (ms & n0 & md & (st & F & E) & Hin & _). destruct (Hg n Hn) as [chans G].
    unfold site_wins, get_site. rewrite F. cbn [bind]. fold (evals_metadata st (dp_fs p)) in E.
    change (flat_map _ st) with (evals_metadata st (dp_fs p)) in E. rewrite <- E.
    destruct (Z.eqb_spec (Z.of_nat (length ms)) 0) as [K|K]; [destruct ms; [destruct Hin|cbn in K; lia]|].
    apply mapM_total. intros l Hl. apply c46_total.
    - unfold arange in Hl. apply in_map_iff in Hl. destruct Hl as (k & <- & _). lia.
    - intros n1 md1 H1. rewrite E in H1. unfold evals_metadata in H1. apply in_flat_map in H1. destruct H1 as ([n2 [fs2 r2]] & H2 & H3). cbn [fst snd] in H3.
      destruct (Qeq_bool fs2 (dp_fs p)) eqn:Q; [|destruct H3]. destruct r2 as [d2|]; [|destruct H3]. destruct H3 as [H3|[]]. injection H3 as <- <-.
      destruct (G st F) as [_ G2]. destruct (G2 n2 fs2 d2 H2 Q) as [(_ & G3 & _) _]. exact G3. }
  rewrite Hsw. cbn [bind]. apply mapM_ok in Hsw. pose proof (Forall2_length' _ _ _ Hsw) as L.
  destruct (Z.eqb_spec (Z.of_nat (length sw)) 0) as [K|K].
  { exfalso. destruct names as [|n names]; [congruence|]. assert (In n (sorted_set (n :: names))) as Hn by (apply sorted_set_in; left; reflexivity).
    destruct (sorted_set (n :: names)); [destruct Hn|]. cbn in L. lia. }
  destruct (mapM_total (get_site pr) (sorted_set names)) as [u Hu]; [|rewrite Hu; eexists; reflexivity].
  intros n Hn. apply (proj1 (sorted_set_in _ _)) in Hn. destruct (Hall n Hn) as (ms & n0 & md & (st & F & _) & _). unfold get_site. rewrite F. exists st. reflexivity.
Qed.
(** a row of the table names the supplier of every site *)
Lemma table_row (pr : project cq) sites fs level g row col site name :
  Forall2 (fun site name => exists ms, site_measurements pr site fs ms /\ supplies ms level g name) sites row ->
  nth_error sites col = Some site -> nth_error row col = Some name -> exists ms, site_measurements pr site fs ms /\ supplies ms level g name.
Proof. intros H. revert col. induction H as [|x y sites row E H IH]; intros [|col] H1 H2; cbn in *; try discriminate; [|apply (IH col); assumption]. assert (x = site) as <- by congruence. assert (y = name) as <- by congruence. exact E. Qed.
Lemma row_exists (pr : project cq) sites fs level g : (forall site, In site sites -> exists name ms, site_measurements pr site fs ms /\ supplies ms level g name) ->
  exists row, Forall2 (fun site name => exists ms, site_measurements pr site fs ms /\ supplies ms level g name) sites row.
Proof.
  induction sites as [|x sites IH]; intros H; [exists []; constructor|]. destruct IH as [row Hr]; [intros s K; apply H; right; exact K|].
  destruct (H x (or_introl eq_refl)) as (name & E). exists (name :: row). constructor; assumption.
Qed.

(** the rows gathered for a site are its window rows *)
Definition rows_of (pr : project cq) (fs : Q) (site : string) (chans : list chan) (level f : Z) (t : list (Z * list string)) (rows : list (list cq)) : Prop :=
  length rows = length t /\ forall r g names, nth_error t r = Some (g, names) -> exists row, nth_error rows r = Some row /\ site_row pr fs site chans level g f row.
Lemma gathered_rows (pr : project cq) s names p site chans data level f t : selector_run pr names p = Ok s ->
  gathered_from pr s site chans data -> 0 <= level < sel_n_levels s -> 0 <= f < dp_per_level p -> sel_table s level = Ok t ->
  exists rows, dict_get (dp_per_level p * level + f) data = Ok rows /\ rows_of pr (dp_fs p) site chans level f t rows.
Proof.
  intros HS (st & col & F & HC & G) Hl Hf Ht. destruct (c47 _ _ _ _ _ HS) as (_ & _ & Ep & _ & T). rewrite Ep in G.
  destruct (G level f t Hl Hf Ht) as (rows & Fd & Lr & R). exists rows. split; [apply find_dict; exact Fd|]. split; [exact Lr|].
  intros r g nm Hr. destruct (R r g nm Hr) as (name & fs & d & m & row & N1 & N2 & N3 & _ & N4 & W). exists row. split; [exact N4|].
  destruct (T level Hl) as (t' & Ht' & _ & In_t). assert (t' = t) as -> by congruence.
  destruct (table_row _ _ _ _ _ _ _ _ _ (proj1 (In_t g nm) (nth_error_In _ _ Hr)) HC N1) as (ms & M & S).
  exists st, ms, name, fs, d, m. auto 10.
Qed.
Lemma window_row_length (d : spec_data cq) chans level w f row : window_row d chans level w f row -> length row = length chans.
Proof. intros (x & _ & H). symmetry. exact (Forall2_length' _ _ _ H). Qed.
Lemma rows_wide pr fs site chans level f t rows : rows_of pr fs site chans level f t rows -> wide (length chans) rows.
Proof.
  intros [L R] row K. apply In_nth_error in K. destruct K as [r Hr]. destruct (nth_error t r) as [[g nm]|] eqn:E.
  - destruct (R r g nm E) as (row' & H1 & (st & ms & name & fs' & d & m & _ & _ & _ & _ & _ & W)). assert (row' = row) as -> by congruence. exact (window_row_length _ _ _ _ _ _ W).
  - apply nth_error_None in E. assert (r < length rows)%nat by (apply nth_error_Some; congruence). lia.
Qed.

Lemma remote (L : library) (c : config) proj st fs out_site in_name cross_name p Zt :
  let pr := view (cf_name c) proj st in let tf := cf_tf c in
  let in_site := or_else in_name out_site in let cross_site := or_else cross_name in_site in
  l_cmul L = ctimes -> junk_shape (l_junk1 L) (l_junk2 L) -> junk_rows L -> least_squares (l_fit L) ->
  tf_out tf <> [] -> tf_in tf <> [] -> tf_cross tf <> [] -> NoDup (tf_out tf) -> NoDup (tf_in tf) -> keys_distinct tf ->
  dec_params_of L c fs = Ok p -> 1 <= ds_per_level (cf_dec c) ->
  good_site pr p out_site (tf_out tf) -> good_site pr p in_site (tf_in tf) -> good_site pr p cross_site (tf_cross tf) ->
  all_sites_have pr (dp_fs p) [out_site; in_site; cross_site] 0 ->
  (forall level, all_sites_have pr (dp_fs p) [out_site; in_site; cross_site] level -> level < dp_n_levels p) ->
  (forall level f, length (Zt level f) = length (tf_out tf) /\ wide (length (tf_in tf)) (Zt level f)) ->
  related pr (dp_fs p) tf out_site in_site Zt ->
  (forall level f, 0 <= level -> all_sites_have pr (dp_fs p) [out_site; in_site; cross_site] level -> 0 <= f < dp_per_level p ->
     windows_determine pr (dp_fs p) tf out_site in_site cross_site level f) ->
  exists sol, process_evals_to_tf L c proj st fs out_site in_name cross_name = Ok sol /\
    forall level f, 0 <= level -> all_sites_have pr (dp_fs p) [out_site; in_site; cross_site] level -> 0 <= f < dp_per_level p ->
      exists t fr, sol_tensor sol (dp_per_level p * level + f) = Ok t /\ Forall2 (Forall2 ceq) t (Zt level f) /\
        nth_error (so_freqs sol) (Z.to_nat (dp_per_level p * level + f)) = Some fr /\ level_eval_freq p level f = Ok fr.
Proof.
  intros pr tf in_site cross_site HM HJ HR HF C1 C2 C3 ND1 ND2 KD HP HPL G1 G2 G3 A0 AL HZ HRel HDet.
  set (names := out_site :: match in_name with Some x => [x] | None => [] end ++ match cross_name with Some x => [x] | None => [] end).
  assert (I1 : In out_site names) by (left; reflexivity).
  assert (I2 : In in_site names). { unfold in_site, names. apply or_else_in; [left; reflexivity|]. intros x ->. right. left. reflexivity. }
  assert (I3 : In cross_site names). { unfold cross_site. apply or_else_in; [exact I2|]. intros x ->. unfold names. right. apply in_or_app. right. left. reflexivity. }
  assert (IN : forall n, In n names <-> In n [out_site; in_site; cross_site]).
  { intros n. split.
    - unfold names, cross_site, in_site. destruct in_name, cross_name; cbn; intuition.
    - intros [<-|[<-|[<-|[]]]]; assumption. }
  assert (AH : forall l, all_sites_have pr (dp_fs p) names l <-> all_sites_have pr (dp_fs p) [out_site; in_site; cross_site] l).
  { intros l. split; intros H n Hn; apply H; apply IN; exact Hn. }
  destruct (selector_total pr names p) as [s HS]; [discriminate|apply AH; exact A0| |].
  { intros n Hn. apply IN in Hn. destruct Hn as [<-|[<-|[<-|[]]]]; eauto. }
  destruct (c47 _ _ _ _ _ HS) as (S1 & S2 & Ep & SL & ST).
  assert (LV : forall level, 0 <= level < sel_n_levels s <-> 0 <= level /\ all_sites_have pr (dp_fs p) [out_site; in_site; cross_site] level).
  { intros l. rewrite <- AH. specialize (SL l). intuition lia. }
  (* sizes of the parameters *)
  assert (PS : dp_per_level p = ds_per_level (cf_dec c) /\ Z.of_nat (length (dp_eval_freqs p)) = dp_n_levels p * dp_per_level p).
  { unfold dec_params_of in HP. destruct (setup_run_inv _ _ _ _ _ _ HP) as (freqs & factors & _ & _ & _ & _ & E).
    assert (0 <= ds_n_levels (cf_dec c)). { assert (0 < dp_n_levels p) by (apply AL; exact A0). rewrite E in H. cbn in H. lia. }
    destruct (setup_size _ _ _ _ _ _ H ltac:(lia) HP) as (E1 & _ & E3). split; [exact E3|exact E1]. }
  destruct PS as [EP SZ]. set (P := dp_per_level p) in *. assert (HP1 : 1 <= P) by lia.
  assert (N0 : 0 < sel_n_levels s) by (apply (LV 0); split; [lia|exact A0]).
  (* the tables hold every shared window *)
  assert (SH : forall level g t, 0 <= level < sel_n_levels s -> sel_table s level = Ok t ->
     (forall site, In site [out_site; in_site; cross_site] -> exists name ms, site_measurements pr site (dp_fs p) ms /\ supplies ms level g name) ->
     exists row, In (g, row) t).
  { intros level g t Hl Ht H. destruct (ST level Hl) as (t' & Ht' & _ & In_t). assert (t' = t) as -> by congruence.
    destruct (row_exists pr (sel_sites s) (dp_fs p) level g) as [row Hr]; [intros x Hx; apply H; apply IN; apply S1; exact Hx|]. exists row. apply In_t. exact Hr. }
  assert (SR : forall site chans level g f row, site_row pr (dp_fs p) site chans level g f row -> exists name ms, site_measurements pr site (dp_fs p) ms /\ supplies ms level g name).
  { intros site chans level g f row (st0 & ms & name & fs' & d & m & _ & M & S & _). exists name, ms. split; assumption. }
  (* frequencies *)
  destruct (mapM_total (level_eval_freqs p) (arange (sel_n_levels s))) as [ls Hls].
  { intros l Hl. unfold arange in Hl. apply in_map_iff in Hl. destruct Hl as (k & <- & Hk). apply in_seq in Hk.
    assert (Hlv : 0 <= Z.of_nat k < sel_n_levels s) by (unfold sel_n_levels in *; lia).
    destruct (c29_lookup p (Z.of_nat k) 0 ltac:(lia) SZ) as (x & E & _); [split; [lia|apply AL; apply LV; exact Hlv]|]. exists x. exact E. }
  assert (FQ : sel_eval_freqs s = Ok (concat ls)) by (unfold sel_eval_freqs; rewrite Ep, Hls; reflexivity).
  assert (LL : length ls = Z.to_nat (sel_n_levels s)). { apply mapM_ok in Hls. apply Forall2_length' in Hls. rewrite arange_length in Hls. congruence. }
  assert (LE : forall l, In l ls -> length l = Z.to_nat P).
  { intros l Hl. apply In_nth_error in Hl. destruct Hl as [i Hi]. apply mapM_ok in Hls. destruct (Forall2_nth_error_r _ _ _ _ _ Hls Hi) as (x & Hx & E).
    assert (Hd : 0 <= ds_per_level (cf_dec c)) by lia. pose proof (level_freqs_len _ _ _ _ _ _ _ _ Hd HP E) as K. unfold P. lia. }
  assert (NT : exists level t, 0 <= level < sel_n_levels s /\ sel_table s level = Ok t /\ t <> []).
  { exists 0. destruct (ST 0 ltac:(lia)) as (t & Ht & _). exists t. split; [lia|]. split; [exact Ht|]. intros ->.
    assert (K : Forall (fun d => ceq d c0) (repeat (mkC 1 0) (length (tf_in tf)))).
    { apply (HDet 0 0 ltac:(lia) A0 ltac:(unfold P in *; lia)); [apply repeat_length|]. intros g orow irow crow cc R1 R2 R3 _. exfalso.
      destruct (SH 0 g [] ltac:(lia) Ht) as [row []]. intros site [<-|[<-|[<-|[]]]]; eauto. }
    destruct (tf_in tf) as [|i0 r0]; [congruence|]. cbn [length repeat] in K. apply Forall_inv in K. destruct K as [K _]. cbn in K. lra. }
  assert (JR : forall k r cc, length (l_junk L k r cc) = r) by exact HR.
  destruct (c48 (l_junk L) JR pr names p s tf out_site in_name cross_name (concat ls) HS I1 I2 I3 C1 C2 C3 G1 G2 G3 FQ NT) as (g & Hg & D1 & D2 & D3 & F1 & F2 & F3 & _).
  (* the data of a key *)
  assert (KEY : forall k, (k < length (concat ls))%nat -> let level := Z.of_nat k / P in let f := Z.of_nat k mod P in
     0 <= level < sel_n_levels s /\ 0 <= f < P /\ Z.of_nat k = P * level + f).
  { intros k Hk level f. rewrite (concat_len (Z.to_nat P) ls LE), LL in Hk.
    assert (Z.of_nat k < sel_n_levels s * P) by nia. pose proof (Z.div_mod (Z.of_nat k) P ltac:(lia)) as E. pose proof (Z.mod_pos_bound (Z.of_nat k) P ltac:(lia)) as B.
    fold level f in E, B. split; [|split; [exact B|exact E]]. split; [apply Z.div_pos; lia|]. apply Z.div_lt_upper_bound; lia. }
  set (Zk := fun k : nat => Zt (Z.of_nat k / P) (Z.of_nat k mod P)).
  assert (DATA : forall k, (k < length (concat ls))%nat -> exists t outs ins crosses, freq_data g k outs ins crosses /\ sel_table s (Z.of_nat k / P) = Ok t /\
     rows_of pr (dp_fs p) out_site (tf_out tf) (Z.of_nat k / P) (Z.of_nat k mod P) t outs /\
     rows_of pr (dp_fs p) in_site (tf_in tf) (Z.of_nat k / P) (Z.of_nat k mod P) t ins /\
     rows_of pr (dp_fs p) cross_site (tf_cross tf) (Z.of_nat k / P) (Z.of_nat k mod P) t crosses).
  { intros k Hk. destruct (KEY k Hk) as (K1 & K2 & K3). destruct (ST _ K1) as (t & Ht & _).
    destruct (gathered_rows pr s names p _ _ _ _ _ t HS D1 K1 K2 Ht) as (o & Eo & Ro). destruct (gathered_rows pr s names p _ _ _ _ _ t HS D2 K1 K2 Ht) as (i & Ei & Ri).
    destruct (gathered_rows pr s names p _ _ _ _ _ t HS D3 K1 K2 Ht) as (x & Ex & Rx). fold P in Eo, Ei, Ex. rewrite <- K3 in Eo, Ei, Ex.
    exists t, o, i, x. split; [split; [exact Eo|split; [exact Ei|exact Ex]]|]. auto. }
  destruct (c50_end (l_junk1 L) (l_junk2 L) (l_fit L) tf g Zk HJ HF) as (r & sol & Hr & Hs & Hfr & Hten); try assumption.
  - intros k Hk. rewrite F1 in Hk. destruct (DATA k Hk) as (t & outs & ins & crosses & FD & _ & R1 & R2 & R3). exists outs, ins, crosses. split; [exact FD|].
    split; [rewrite (proj1 R1), (proj1 R2); reflexivity|]. split; [rewrite (proj1 R1), (proj1 R3); reflexivity|].
    split; [exact (rows_wide _ _ _ _ _ _ _ _ R1)|]. split; [exact (rows_wide _ _ _ _ _ _ _ _ R2)|exact (rows_wide _ _ _ _ _ _ _ _ R3)].
  - intros k _. apply HZ.
  - intros k outs ins crosses Hk FD. rewrite F1 in Hk. destruct (DATA k Hk) as (t & outs' & ins' & crosses' & (E1 & E2 & E3) & Ht & R1 & R2 & R3).
    destruct FD as (E1' & E2' & E3'). assert (outs' = outs) as -> by congruence. assert (ins' = ins) as -> by congruence. assert (crosses' = crosses) as -> by congruence.
    destruct (KEY k Hk) as (K1 & K2 & K3). split.
    + intros w orow irow Ho Hi. destruct (nth_error t w) as [[g0 nm]|] eqn:E.
      * destruct (proj2 R1 w g0 nm E) as (ro & A & B). destruct (proj2 R2 w g0 nm E) as (ri & A' & B').
        assert (ro = orow) as -> by congruence. assert (ri = irow) as -> by congruence. exact (HRel _ _ _ _ _ B B').
      * apply nth_error_None in E. assert (w < length outs)%nat by (apply nth_error_Some; congruence). pose proof (proj1 R1). lia.
    + intros D LD H. destruct (proj1 (LV _) K1) as [_ KA]. apply (HDet _ _ (proj1 K1) KA K2 D LD). intros g0 orow irow crow cc Q1 Q2 Q3 Hc.
      destruct (SH _ g0 t K1 Ht) as [row Hrow]; [intros site [<-|[<-|[<-|[]]]]; eauto|]. apply In_nth_error in Hrow. destruct Hrow as [w Hw].
      destruct (proj2 R2 w g0 row Hw) as (ri & A & B). destruct (proj2 R3 w g0 row Hw) as (rc & A' & B').
      assert (ri = irow) as -> by (eapply site_row_fun; [|exact B|exact Q2]; intros st0 Hst; exact (proj1 (G2 st0 Hst))).
      assert (rc = crow) as -> by (eapply site_row_fun; [|exact B'|exact Q3]; intros st0 Hst; exact (proj1 (G3 st0 Hst))).
      exact (H w irow crow cc A A' Hc).
  - exists sol. split.
    { unfold process_evals_to_tf. fold names. fold pr. rewrite HP. cbn [bind]. rewrite HS. cbn [bind]. fold tf. rewrite Hg. cbn [bind]. unfold run_regression. fold tf. rewrite HM, Hr. cbn [bind]. exact Hs. }
    intros level f Hl HA Hf. assert (Hlv : 0 <= level < sel_n_levels s) by (apply LV; split; assumption).
    set (k := Z.to_nat (P * level + f)). assert (Ek : Z.of_nat k = P * level + f) by (unfold k; nia).
    assert (Hk : (k < length (concat ls))%nat). { rewrite (concat_len (Z.to_nat P) ls LE), LL. apply Nat2Z.inj_lt. rewrite Ek, Nat2Z.inj_mul, !Z2Nat.id by lia. nia. }
    assert (Hk' : (k < length (cb_eval_freqs (g_out g)))%nat) by (rewrite F1; exact Hk).
    destruct (Hten k Hk') as (t & Et & Rt). rewrite Ek in Et.
    assert (Dv : (P * level + f) / P = level) by (symmetry; apply (Z.div_unique _ _ _ f); lia). assert (Md : (P * level + f) mod P = f) by (symmetry; apply (Z.mod_unique _ _ level); lia).
    unfold Zk in Rt. rewrite Ek, Dv, Md in Rt.
    destruct (c29_lookup p level f ltac:(lia) SZ) as (lf & Elf & _ & Hlf & _); [split; [lia|apply AL; exact HA]|]. destruct (Hlf Hf) as (fr & Efr & Nfr).
    exists t, fr. split; [exact Et|]. split; [exact Rt|]. split; [|exact Efr]. rewrite Hfr, F1.
    assert (NL : nth_error ls (Z.to_nat level) = Some lf).
    { assert (N : nth_error (arange (sel_n_levels s)) (Z.to_nat level) = Some level) by (rewrite arange_nth by lia; f_equal; lia).
      destruct (mapM_nth _ _ _ _ _ Hls N) as (y & Hy & Ey). congruence. }
    change (nth_error (concat ls) k = Some fr). replace k with (Z.to_nat P * Z.to_nat level + Z.to_nat f)%nat by (unfold k; nia).
    rewrite (concat_nth (Z.to_nat P)) by (assumption || lia). rewrite NL. exact Nfr.
Qed.
