(** C08 with consistent metadata, C11, C13, C23 *)
From Coq Require Import String.
From Verif Require Import Base.Prelude Base.Rounding Base.ListUtil Base.Interp Model.Sampling Model.Time
  Spec.Sampling Spec.Time Proofs.Sampling Proofs.SamplingFloat Proofs.Period Proofs.TimeMeta.
Open Scope Q_scope.

Lemma meta_span {rnd} (G : good_rnd rnd) m :
  0 < fs m -> (1 <= n_samples m <= 2 ^ 49 - 1)%Z ->
  last_time m == stamp (first_time m) (period rnd (fs m)) (n_samples m - 1) ->
  first_time m <= last_time m /\ (last_time m - first_time m) * fs m < inject_Z (n_samples m) - (1#2).
Proof.
  intros Hf Hn E. destruct (span_bound G (fs m) (n_samples m) Hf Hn) as [A B]. unfold stamp in E.
  rewrite E. split; [lra|].
  assert (X : first_time m + inject_Z (n_samples m - 1) * period rnd (fs m) - first_time m ==
              inject_Z (n_samples m - 1) * period rnd (fs m)) by ring.
  rewrite X. exact B.
Qed.

Lemma read_range_valid {rnd} (G : good_rnd rnd) m ft tt fsm tsm a b :
  0 < fs m -> (1 <= n_samples m <= 2 ^ 49 - 1)%Z ->
  last_time m == stamp (first_time m) (period rnd (fs m)) (n_samples m - 1) ->
  get_read_samples rnd m ft tt fsm tsm = Ok (a, b) ->
  (0 <= a)%Z /\ (a < b)%Z /\ (b <= n_samples m - 1)%Z.
Proof.
  intros Hf Hn E H. destruct (meta_span G m Hf Hn E) as [A B].
  eapply read_samples_valid; eauto; lra.
Qed.

(** sample indices computed by Subsection lie in the recording *)
Lemma sub_indices {rnd} (G : good_rnd rnd) m f t a b :
  0 < fs m -> (1 <= n_samples m <= 2 ^ 49 - 1)%Z ->
  last_time m == stamp (first_time m) (period rnd (fs m)) (n_samples m - 1) ->
  from_time_to_sample rnd (fs m) (first_time m) (last_time m) f = Ok a ->
  to_time_to_sample rnd (fs m) (first_time m) (last_time m) t = Ok b ->
  (0 <= a)%Z /\ (b <= n_samples m - 1)%Z.
Proof.
  intros Hf Hn E Ha Hb. destruct (meta_span G m Hf Hn E) as [A B]. split.
  - eapply from_time_nonneg; eauto; lra.
  - eapply to_time_range in Hb; eauto; try lia; try lra.
Qed.

(** C11: Subsection and a reader given the same times select the same thing, for
    every rounding *)
Lemma reader_subsection rnd td f t :
  match subsection rnd f t td, reader_run rnd (meta td) (dtype td) (rows td) (Some f) (Some t) None None with
  | Ok s, Ok r => rows s = rows r /\ dtype s = dtype r /\
      with_history (meta s) (history (meta td)) = with_history (meta r) (history (meta td))
  | Err _, Err _ => True
  | _, _ => False
  end.
Proof.
  unfold subsection, reader_run, get_read_samples, datetimes_to_samples.
  destruct (from_time_to_sample _ _ _ _ f) as [a|e]; cbn; [|exact I].
  destruct (to_time_to_sample _ _ _ _ t) as [b|e]; cbn; [|exact I].
  unfold samples_to_datetimes. destruct (Z.geb_spec a b); cbn; [exact I|].
  repeat split; reflexivity.
Qed.

(** ** C13 *)
Lemma filter_run_hist orc bt o cut p td td' :
  filter_run orc bt o cut p td = Ok td' -> history (meta td') = history (meta td) ++ [CProc p].
Proof.
  unfold filter_run. intros H. inv_bind H. inv_bind H. injection H as <-. reflexivity.
Qed.

Lemma run_hist rnd drnd orc p td td' :
  run rnd drnd orc p td = Ok td' -> history (meta td') = history (meta td) ++ [CProc p].
Proof.
  destruct p; cbn [run]; intros H.
  - destruct (subsection_inv _ _ _ _ _ H) as (a & b & _ & _ & _ & ->). reflexivity.
  - unfold interpolate_nans in H. inv_bind H. injection H as <-. reflexivity.
  - unfold remove_mean in H. injection H as <-. reflexivity.
  - unfold add in H. inv_bind H. inv_bind H. injection H as <-. reflexivity.
  - unfold multiply in H. inv_bind H. inv_bind H. injection H as <-. reflexivity.
  - eapply filter_run_hist; exact H.
  - eapply filter_run_hist; exact H.
  - eapply filter_run_hist; exact H.
  - eapply filter_run_hist; exact H.
  - unfold resample in H. inv_bind H. injection H as <-. reflexivity.
  - unfold decimate in H. inv_bind H. injection H as <-. reflexivity.
  - unfold shift_timestamps in H. destruct (Qle_bool _ _); [discriminate|].
    destruct (_ <? _)%Z; [discriminate|]. injection H as <-. reflexivity.
  - unfold apply_function in H. inv_bind H. injection H as <-. reflexivity.
Qed.

Lemma run_all_hist rnd drnd orc ps td td' :
  run_all rnd drnd orc ps td = Ok td' -> history (meta td') = history (meta td) ++ map CProc ps.
Proof.
  revert td. induction ps as [|p t IH]; intros td H; cbn in H.
  - injection H as <-. cbn. rewrite app_nil_r. reflexivity.
  - inv_bind H. rewrite (IH _ H), (run_hist _ _ _ _ _ _ B). rewrite <- app_assoc. reflexivity.
Qed.

(** ** C23 *)
Definition rows_ok (n : Z) (k : nat) (d : list (list cell)) : Prop :=
  length d = k /\ (forall r, In r d -> Z.of_nat (length r) = n).

Lemma rows_ok_nonempty n k d : rows_ok n k d -> (0 < k)%nat -> d <> [] /\ width d = n.
Proof.
  intros [A B] C. destruct d as [|r d]; [cbn in A; lia|]. split; [discriminate|].
  cbn. apply B. left. reflexivity.
Qed.

(** metadata made by adjust_time_metadata is consistent with data of that width *)
Lemma adjust_consistent rnd td fs' first n d p :
  consistent rnd td -> rows_ok n (length (rows td)) d ->
  consistent rnd (new_time_data td (Some (adjust_time_metadata rnd (meta td) fs' first n)) (Some d) (Some p)).
Proof.
  intros (A & B & C & D & E) H. assert (0 < length (rows td))%nat by (destruct (rows td); [congruence|cbn; lia]).
  destruct (rows_ok_nonempty _ _ _ H H0) as [N _]. destruct H as [H1 H2].
  unfold consistent. cbn. repeat split; try assumption.
  - rewrite H1. exact B.
  - unfold stamp, period. ring.
Qed.

(** same metadata (other than history), same shape *)
Lemma same_shape_consistent rnd td d p :
  consistent rnd td -> rows_ok (n_samples (meta td)) (length (rows td)) d ->
  consistent rnd (new_time_data td None (Some d) (Some p)).
Proof.
  intros (A & B & C & D & E) H. assert (0 < length (rows td))%nat by (destruct (rows td); [congruence|cbn; lia]).
  destruct (rows_ok_nonempty _ _ _ H H0) as [N _]. destruct H as [H1 H2].
  unfold consistent. cbn. repeat split; try assumption. rewrite H1. exact B.
Qed.

Lemma rows_ok_mapM n n' f (d d' : list (list cell)) :
  (forall r, In r d -> Z.of_nat (length r) = n) ->
  (forall x y, f x = Ok y -> Z.of_nat (length x) = n -> Z.of_nat (length y) = n') ->
  mapM f d = Ok d' -> rows_ok n' (length d) d'.
Proof.
  intros Hn Hf H. apply mapM_ok in H. split; [symmetry; eapply Forall2_length'; exact H|].
  intros r Hr. apply In_nth_error in Hr. destruct Hr as [i Hi].
  destruct (Forall2_nth_error_r _ _ _ _ _ H Hi) as (x & Hx & Ex).
  eapply Hf; [exact Ex|]. apply Hn. eapply nth_error_In; exact Hx.
Qed.

Lemma rows_ok_map n n' f (d : list (list cell)) :
  (forall r, In r d -> Z.of_nat (length r) = n) ->
  (forall x, Z.of_nat (length x) = n -> Z.of_nat (length (f x)) = n') ->
  rows_ok n' (length d) (map f d).
Proof.
  intros Hn Hf. split; [apply map_length|]. intros r Hr. apply in_map_iff in Hr.
  destruct Hr as (x & <- & Hx). apply Hf, Hn, Hx.
Qed.

Lemma rows_ok_upd n k i r d : rows_ok n k d -> Z.of_nat (length r) = n -> rows_ok n k (upd_nth i r d).
Proof.
  intros [A B] H. split; [rewrite upd_nth_length; exact A|]. intros x Hx.
  apply In_nth_error in Hx. destruct Hx as [j Hj]. rewrite nth_error_upd in Hj.
  destruct (Nat.eqb i j).
  - destruct (Nat.ltb i (length d)); [|discriminate]. injection Hj as <-. exact H.
  - apply B. eapply nth_error_In; exact Hj.
Qed.

Lemma fill_from_length pts i l l' : fill_from pts i l = Ok l' -> length l' = length l.
Proof.
  revert i l'. induction l as [|[v|] t IH]; intros i l' H; cbn in H.
  - injection H as <-. reflexivity.
  - inv_bind H. injection H as <-. cbn. f_equal. eapply IH; exact B.
  - inv_bind H. inv_bind H. injection H as <-. cbn. f_equal. eapply IH; exact B0.
Qed.
Lemma interp_chan_length l l' : interpolate_nans_chan l = Ok l' -> length l' = length l.
Proof.
  unfold interpolate_nans_chan. destruct (existsb is_nan l); intros H.
  - eapply fill_from_length; exact H.
  - injection H as <-. reflexivity.
Qed.
Lemma interp_rows_ok all cs d d' n k : rows_ok n k d -> interp_rows all cs d = Ok d' -> rows_ok n k d'.
Proof.
  revert d. induction cs as [|c t IH]; intros d Hd H; cbn in H.
  - injection H as <-. exact Hd.
  - destruct (chan_index all c) as [i|]; [|discriminate].
    destruct (nth_error d i) as [r|] eqn:E; [|discriminate]. inv_bind H.
    eapply IH; [|exact H]. apply rows_ok_upd; [exact Hd|].
    apply interp_chan_length in B. rewrite B. apply Hd. eapply nth_error_In; exact E.
Qed.

Lemma rowwise_ok op d vs d' n k : rows_ok n k d -> rowwise op d vs = Ok d' -> rows_ok n k d'.
Proof.
  intros [A B] H. unfold rowwise in H. destruct (Nat.eqb_spec (length d) (length vs)) as [E|]; [|discriminate].
  injection H as <-. split.
  - rewrite map_length, combine_length, <- E. lia.
  - intros r Hr. apply in_map_iff in Hr. destruct Hr as ([x v] & <- & Hx). cbn. rewrite map_length.
    apply B. eapply in_combine_l; exact Hx.
Qed.

Lemma rows_ok_self rnd td : consistent rnd td -> rows_ok (n_samples (meta td)) (length (rows td)) (rows td).
Proof. intros (A & B & C & D & E). split; auto. Qed.

(** ceil of ceil *)
Lemma ceil_ceil n a b : (1 <= a)%Z -> (1 <= b)%Z ->
  (((n + a - 1) / a + b - 1) / b = (n + a * b - 1) / (a * b))%Z.
Proof.
  intros Ha Hb.
  replace ((n + a - 1) / a + b - 1)%Z with ((n + a - 1) / a + (b - 1))%Z by lia.
  replace ((n + a - 1) / a + (b - 1))%Z with ((n + a - 1 + (b - 1) * a) / a)%Z by (rewrite Z.div_add by lia; reflexivity).
  rewrite Z.div_div by lia. f_equal. ring.
Qed.

Lemma prodZ_pos l : (forall x, In x l -> (1 <= x)%Z) -> (1 <= prodZ l)%Z.
Proof.
  induction l as [|x t IH]; intros H; cbn; [lia|].
  pose proof (H x (or_introl eq_refl)). assert (1 <= prodZ t)%Z by (apply IH; intros y Hy; apply H; right; exact Hy).
  nia.
Qed.

Lemma decimate_steps_shape orc fl d d' n : good_oracles orc ->
  (forall x, In x fl -> (1 <= x)%Z) ->
  (forall r, In r d -> Z.of_nat (length r) = n) ->
  decimate_steps orc fl d = Ok d' ->
  rows_ok ((n + prodZ fl - 1) / prodZ fl) (length d) d'.
Proof.
  intros G. revert d n. induction fl as [|f t IH]; intros d n Hp Hn H; cbn in H.
  - injection H as <-. cbn. split; [reflexivity|]. intros r Hr. rewrite (Hn r Hr), Z.div_1_r. lia.
  - pose proof (Hp f (or_introl eq_refl)) as Hf.
    assert (Ht : forall x, In x t -> (1 <= x)%Z) by (intros; apply Hp; right; assumption).
    destruct (Z.eqb_spec f 1) as [->|N].
    + cbn [prodZ]. rewrite Z.mul_1_l. exact (IH d n Ht Hn H).
    + inv_bind H.
      assert (R : rows_ok ((n + f - 1) / f) (length d) a).
      { eapply rows_ok_mapM; [exact Hn| |exact B]. intros x y E L.
        destruct (go_decimate _ G _ _ _ E) as [_ E2]. rewrite E2, L. reflexivity. }
      destruct R as [R1 R2]. specialize (IH a _ Ht R2 H). rewrite R1 in IH.
      rewrite (ceil_ceil n f (prodZ t) Hf (prodZ_pos _ Ht)) in IH. exact IH.
Qed.

Lemma apply_rows_ok td fncs d d' n k :
  (forall r, In r (rows td) -> Z.of_nat (length r) = n) ->
  rows_ok n k d -> (k = length (rows td)) -> apply_rows td fncs d = Ok d' -> rows_ok n k d'.
Proof.
  intros Hn. revert d. induction fncs as [|[c f] t IH]; intros d Hd Hk H; cbn [apply_rows] in H.
  - injection H as <-. exact Hd.
  - destruct (chan_in c (chans (meta td))) eqn:EC.
    + inv_bind H. rename a into r. unfold get_chan in B. rewrite EC in B.
      destruct (chan_index _ c) as [i|]; [|discriminate].
      destruct (nth_error (rows td) i) as [r'|] eqn:Ei; [|discriminate]. injection B as ->.
      destruct (Nat.eqb_spec (length (f r)) (length (nth i d []))) as [E|]; [|discriminate].
      eapply IH; [|exact Hk|exact H]. apply rows_ok_upd; [exact Hd|]. rewrite E.
      destruct Hd as [D1 D2]. apply D2. apply nth_In. rewrite D1, Hk.
      apply nth_error_Some. congruence.
    + eapply IH; eassumption.
Qed.

Lemma np_empty_ok orc d n : (forall r, In r d -> Z.of_nat (length r) = n) -> rows_ok n (length d) (np_empty orc d).
Proof.
  intros H. unfold np_empty. split; [rewrite map_length, seq_length; reflexivity|].
  intros r Hr. apply in_map_iff in Hr. destruct Hr as (i & <- & Hi). rewrite map_length, seq_length.
  apply H. apply nth_In. apply in_seq in Hi. lia.
Qed.

Lemma rnd_pos {rnd} (G : good_rnd rnd) x : 0 < x -> 0 < rnd x.
Proof.
  intros H. pose proof (gr_err _ G x) as E. rewrite (Qabs_pos x) in E by lra.
  apply Qabs_Qle_condition in E. lra.
Qed.

Lemma ceil_ge_1 n k : (1 <= n)%Z -> (1 <= k)%Z -> (1 <= (n + k - 1) / k)%Z.
Proof. intros. apply Z.div_le_lower_bound; lia. Qed.

(** products and bounds of the single factors: proved in Proofs/Factors.v *)
Definition factors_ok (orc : oracles) : Prop := forall f k, (1 <= f)%Z -> (2 <= k)%Z ->
  prodZ (downsample_factors orc k f) = f /\ (forall x, In x (downsample_factors orc k f) -> (1 <= x)%Z).

Lemma run_usable {rnd} (G : good_rnd rnd) drnd orc p td td' : good_oracles orc -> factors_ok orc ->
  valid_proc p -> usable rnd td -> (n_samples (meta td) < 2 ^ 49)%Z ->
  run rnd drnd orc p td = Ok td' -> usable rnd td'.
Proof.
  intros GO FO V (C & Hfs & Hn) Hb H. pose proof (rows_ok_self _ _ C) as R.
  pose proof C as (_ & _ & _ & Cn & Cl).
  assert (SS : forall d q, rows_ok (n_samples (meta td)) (length (rows td)) d ->
     usable rnd (new_time_data td None (Some d) (Some q))).
  { intros d q Hd. split; [apply same_shape_consistent; assumption|]. cbn. auto. }
  destruct p; cbn [run valid_proc] in *.
  - destruct (subsection_inv _ _ _ _ _ H) as (a & b & Ea & Eb & L & ->).
    destruct (sub_indices G (meta td) _ _ a b Hfs ltac:(lia) Cl Ea Eb) as [A B].
    split; [|cbn; split; [exact Hfs|lia]].
    change (consistent rnd (new_time_data td (Some (adjust_time_metadata rnd (meta td) (fs (meta td)) (stamp (first_time (meta td)) (period rnd (fs (meta td))) a) (b - a + 1)))
      (Some (map (slice a (b + 1)) (rows td))) (Some (CProc (PSubsection from_time to_time))))).
    apply adjust_consistent; [exact C|]. eapply rows_ok_map; [exact Cn|].
    intros x Hx. rewrite slice_length; lia.
  - unfold interpolate_nans in H. inv_bind H. injection H as <-. apply SS.
    eapply interp_rows_ok; [exact R|exact B].
  - unfold remove_mean in H. injection H as <-. apply SS. eapply rows_ok_map; [exact Cn|].
    intros x Hx. rewrite map_length. exact Hx.
  - unfold add in H. inv_bind H. inv_bind H. injection H as <-. apply SS. eapply rowwise_ok; [exact R|eassumption].
  - unfold multiply in H. inv_bind H. inv_bind H. injection H as <-. apply SS. eapply rowwise_ok; [exact R|eassumption].
  - unfold filter_run in H. inv_bind H. inv_bind H. injection H as <-. apply SS.
    eapply rows_ok_mapM; [exact Cn| |eassumption]. intros x y E L. rewrite (go_filter _ GO _ _ _ _ _ E). exact L.
  - unfold filter_run in H. inv_bind H. inv_bind H. injection H as <-. apply SS.
    eapply rows_ok_mapM; [exact Cn| |eassumption]. intros x y E L. rewrite (go_filter _ GO _ _ _ _ _ E). exact L.
  - unfold filter_run in H. inv_bind H. inv_bind H. injection H as <-. apply SS.
    eapply rows_ok_mapM; [exact Cn| |eassumption]. intros x y E L. rewrite (go_filter _ GO _ _ _ _ _ E). exact L.
  - unfold filter_run in H. inv_bind H. inv_bind H. injection H as <-. apply SS.
    eapply rows_ok_mapM; [exact Cn| |eassumption]. intros x y E L. rewrite (go_filter _ GO _ _ _ _ _ E). exact L.
  - unfold resample in H. inv_bind H. injection H as <-.
    set (frac := Qred _) in *. rename a into d.
    assert (NE : rows td <> []) by (destruct C; assumption).
    assert (UP : (1 <= Qnum frac)%Z).
    { destruct (rows td) as [|r0 rs] eqn:Er; [congruence|]. cbn in B. inv_bind B.
      destruct (go_resample _ GO _ _ _ _ B0) as [? _]. exact H. }
    assert (R' : rows_ok ((n_samples (meta td) * Qnum frac + Zpos (Qden frac) - 1) / Zpos (Qden frac)) (length (rows td)) d).
    { eapply rows_ok_mapM; [exact Cn| |exact B]. intros x y E L.
      destruct (go_resample _ GO _ _ _ _ E) as (_ & _ & E2). rewrite E2, L. reflexivity. }
    destruct (rows_ok_nonempty _ _ _ R') as [_ W]; [destruct (rows td); [congruence|cbn; lia]|].
    split; [rewrite W; apply adjust_consistent; assumption|].
    cbn. split; [exact V|]. rewrite W. apply ceil_ge_1; lia.
  - unfold decimate in H. inv_bind H. injection H as <-. rename a into d. destruct V as [V1 V2].
    destruct (FO _ _ V1 V2) as [F1 F2].
    pose proof (decimate_steps_shape orc _ _ _ _ GO F2 Cn B) as R'. rewrite F1 in R'.
    assert (NE : rows td <> []) by (destruct C; assumption).
    destruct (rows_ok_nonempty _ _ _ R') as [_ W]; [destruct (rows td); [congruence|cbn; lia]|].
    split; [rewrite W; apply adjust_consistent; assumption|].
    cbn. split; [|rewrite W; apply ceil_ge_1; lia].
    apply (rnd_pos G). apply Qlt_shift_div_l; [change 0 with (inject_Z 0); rewrite <- inject_Z_lt; lia|lra].
  - unfold shift_timestamps in H. destruct (Qle_bool _ _); [discriminate|].
    destruct (Z.ltb_spec (n_samples (meta td)) 2) as [|L]; [discriminate|]. injection H as <-.
    split; [apply adjust_consistent; [exact C|]|cbn; split; [exact Hfs|lia]].
    eapply rows_ok_map; [exact Cn|]. intros x Hx. rewrite !map_length, arange_length. lia.
  - unfold apply_function in H. inv_bind H. injection H as <-. apply SS.
    eapply apply_rows_ok; [exact Cn|apply np_empty_ok; exact Cn|reflexivity|exact B].
Qed.

Lemma run_all_usable {rnd} (G : good_rnd rnd) drnd orc ps td td' : good_oracles orc -> factors_ok orc ->
  Forall valid_proc ps -> usable rnd td ->
  (forall qs rest mid, ps = qs ++ rest -> run_all rnd drnd orc qs td = Ok mid -> (n_samples (meta mid) < 2 ^ 49)%Z) ->
  run_all rnd drnd orc ps td = Ok td' -> usable rnd td'.
Proof.
  intros GO FO. revert td. induction ps as [|p t IH]; intros td V U Hb H; cbn in H.
  - injection H as <-. exact U.
  - inv_bind H. inversion V as [|? ? V1 V2]; subst.
    apply (IH a V2); [|intros qs rest mid E1 E2; apply (Hb (p :: qs) rest mid); [rewrite E1; reflexivity|cbn; rewrite B; exact E2]|exact H].
    eapply (run_usable G); try eassumption. apply (Hb [] (p :: t) td); reflexivity.
Qed.
