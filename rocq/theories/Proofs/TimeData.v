(** Element level behaviour of the time processors: C15-C21, C24 *)
From Coq Require Import String.
From Verif Require Import Base.Prelude Base.Rounding Base.ListUtil Base.Interp Model.Sampling Model.Time
  Spec.Sampling Spec.Time Proofs.Sampling Proofs.SamplingFloat Proofs.Period Proofs.TimeMeta Proofs.TimeProc Proofs.Factors.
Open Scope Q_scope.

(** ** channel indices *)
Lemma last_index_spec i c cs j : last_index_from i c cs = Some j ->
  (i <= j)%nat /\ nth_error cs (j - i) = Some c.
Proof.
  revert i. induction cs as [|x t IH]; intros i H; cbn in H; [discriminate|].
  destruct (last_index_from (S i) c t) as [k|] eqn:E.
  - injection H as <-. destruct (IH _ E) as [A B]. split; [lia|].
    replace (k - i)%nat with (S (k - S i)) by lia. exact B.
  - destruct (String.eqb_spec x c) as [->|]; [|discriminate]. injection H as <-.
    split; [lia|]. rewrite Nat.sub_diag. reflexivity.
Qed.
Lemma last_index_none i c cs : last_index_from i c cs = None -> ~ In c cs.
Proof.
  revert i. induction cs as [|x t IH]; intros i H; cbn in H; [intros []|].
  destruct (last_index_from (S i) c t) eqn:E; [discriminate|].
  destruct (String.eqb_spec x c); [discriminate|]. intros [?|?]; [contradiction|]. eapply IH; eassumption.
Qed.
Lemma chan_index_nth cs c j : chan_index cs c = Some j -> nth_error cs j = Some c.
Proof. intros H. apply last_index_spec in H. rewrite Nat.sub_0_r in H. apply H. Qed.
Lemma chan_in_iff c cs : chan_in c cs = true <-> In c cs.
Proof.
  unfold chan_in. rewrite existsb_exists. split.
  - intros (x & Hx & E). apply String.eqb_eq in E. subst. exact Hx.
  - intros H. exists c. split; [exact H|apply String.eqb_refl].
Qed.
Lemma chan_index_in cs c : In c cs -> exists j, chan_index cs c = Some j /\ nth_error cs j = Some c.
Proof.
  intros H. destruct (chan_index cs c) as [j|] eqn:E.
  - exists j. split; [reflexivity|apply chan_index_nth; exact E].
  - exfalso. eapply last_index_none; eassumption.
Qed.
Lemma chan_index_nodup cs c j : NoDup cs -> nth_error cs j = Some c -> chan_index cs c = Some j.
Proof.
  intros N H. destruct (chan_index_in cs c (nth_error_In _ _ H)) as (k & E & F).
  rewrite E. f_equal. apply (proj1 (NoDup_nth_error cs) N); [apply nth_error_Some; congruence|congruence].
Qed.

(** ** C21 *)
Lemma get_set_same td c dt x td' : set_chan td c dt x = Ok td' -> get_chan td' c = Ok x.
Proof.
  unfold set_chan, get_chan. destruct (chan_in c (chans (meta td))) eqn:E; [|discriminate].
  destruct (negb _); [discriminate|]. destruct (negb _); [discriminate|].
  destruct (chan_index _ c) as [i|] eqn:Ei; [|discriminate].
  destruct (Nat.ltb_spec i (length (rows td))); [|discriminate]. intros H1. injection H1 as <-. cbn.
  rewrite E, Ei, nth_error_upd_eq by assumption. reflexivity.
Qed.
Lemma get_set_other td c c' dt x td' : set_chan td c dt x = Ok td' -> c' <> c -> get_chan td' c' = get_chan td c'.
Proof.
  unfold set_chan, get_chan. destruct (chan_in c (chans (meta td))) eqn:E; [|discriminate].
  destruct (negb _); [discriminate|]. destruct (negb _); [discriminate|].
  destruct (chan_index _ c) as [i|] eqn:Ei; [|discriminate].
  destruct (Nat.ltb_spec i (length (rows td))); [|discriminate]. intros H1 N. injection H1 as <-. cbn.
  destruct (chan_in c' _); [|reflexivity]. destruct (chan_index _ c') as [j|] eqn:Ej; [|reflexivity].
  rewrite nth_error_upd_neq; [reflexivity|]. intros <-.
  apply chan_index_nth in Ei. apply chan_index_nth in Ej. congruence.
Qed.
Lemma set_chan_meta td c dt x td' : set_chan td c dt x = Ok td' -> meta td' = meta td /\ dtype td' = dtype td.
Proof.
  unfold set_chan. destruct (chan_in _ _); [|discriminate].
  destruct (negb _); [discriminate|]. destruct (negb _); [discriminate|].
  destruct (chan_index _ c) as [i|]; [|discriminate]. destruct (Nat.ltb _ _); [|discriminate].
  intros H. injection H as <-. auto.
Qed.
Lemma set_chan_iff td c dt x : length (rows td) = length (chans (meta td)) ->
  (is_ok (set_chan td c dt x) = true <->
   In c (chans (meta td)) /\ Z.of_nat (length x) = n_samples (meta td) /\ dt = dtype td).
Proof.
  intros HL. unfold set_chan. rewrite <- chan_in_iff. destruct (chan_in c _) eqn:EC.
  - apply chan_in_iff, chan_index_in in EC. destruct EC as (j & Ej & Nj).
    destruct (Z.eqb_spec (Z.of_nat (length x)) (n_samples (meta td))); cbn [negb].
    + destruct (String.eqb_spec dt (dtype td)); cbn [negb].
      * rewrite Ej. destruct (Nat.ltb_spec j (length (rows td))) as [L|L].
        -- cbn. tauto.
        -- exfalso. rewrite HL in L. apply nth_error_None in L. congruence.
      * cbn. split; [discriminate|tauto].
    + cbn. split; [discriminate|tauto].
  - cbn. split; [discriminate|]. intros (? & _); discriminate.
Qed.
Lemma get_chan_iff td c : length (rows td) = length (chans (meta td)) ->
  (is_ok (get_chan td c) = true <-> In c (chans (meta td))).
Proof.
  intros HL. unfold get_chan. rewrite <- chan_in_iff. destruct (chan_in c _) eqn:EC; [|cbn; split; discriminate].
  apply chan_in_iff, chan_index_in in EC. destruct EC as (j & Ej & Nj). rewrite Ej.
  destruct (nth_error (rows td) j) eqn:E; [cbn; tauto|].
  exfalso. apply nth_error_None in E. rewrite HL in E. apply nth_error_None in E. congruence.
Qed.
Lemma get_chan_row td c r : NoDup (chans (meta td)) -> row_of td c r -> get_chan td c = Ok r.
Proof.
  intros N (i & A & B). unfold get_chan.
  rewrite (proj2 (chan_in_iff _ _) (nth_error_In _ _ A)), (chan_index_nodup _ _ _ N A), B. reflexivity.
Qed.

(** ** C16 *)
Lemma fold_cadd_some xs a : exists s, fold_left (cadd exact) (map Some xs) (Some a) = Some s /\ s == a + sumQ xs.
Proof.
  revert a. induction xs as [|x t IH]; intros a; cbn.
  - exists a. split; [reflexivity|ring].
  - destruct (IH (exact (a + x))) as (s & E & H). exists s. split; [exact E|].
    rewrite H. unfold exact, sumQ. cbn. ring.
Qed.
Lemma row_mean_some xs : xs <> [] -> exists mu, row_mean exact (map Some xs) = Some mu /\
  mu * inject_Z (Z.of_nat (length xs)) == sumQ xs.
Proof.
  intros N. unfold row_mean, row_sum. destruct (fold_cadd_some xs 0) as (s & E & H). rewrite E. cbn.
  rewrite map_length. assert (L : (0 < Z.of_nat (length xs))%Z) by (destruct xs; [congruence|cbn; lia]).
  destruct (Z.eqb_spec (Z.of_nat (length xs)) 0); [lia|].
  eexists. split; [reflexivity|]. unfold exact.
  assert (~ inject_Z (Z.of_nat (length xs)) == 0).
  { intro C. assert (inject_Z 0 < inject_Z (Z.of_nat (length xs))) by (rewrite <- inject_Z_lt; exact L). change (inject_Z 0) with 0 in *. lra. }
  rewrite H. field. assumption.
Qed.
Lemma sumQ_sub xs mu : sumQ (map (fun x => x - mu) xs) == sumQ xs - mu * inject_Z (Z.of_nat (length xs)).
Proof.
  induction xs as [|x t IH].
  - cbn. ring.
  - cbn [map sumQ fold_right]. fold (sumQ (map (fun x => x - mu) t)). fold (sumQ t). rewrite IH.
    cbn [length]. rewrite Nat2Z.inj_succ. unfold Z.succ. rewrite inject_Z_plus. change (inject_Z 1) with 1. ring.
Qed.
Lemma remove_mean_row xs : xs <> [] ->
  exists ys, map (fun v => csub exact v (row_mean exact (map Some xs))) (map Some xs) = map Some ys /\
    length ys = length xs /\ sumQ ys == 0 /\
    (forall i j xi xj yi yj, nth_error xs i = Some xi -> nth_error xs j = Some xj ->
       nth_error ys i = Some yi -> nth_error ys j = Some yj -> yi - yj == xi - xj) /\
    (sumQ xs == 0 -> Forall2 Qeq ys xs).
Proof.
  intros N. destruct (row_mean_some xs N) as (mu & E & H). rewrite E.
  exists (map (fun x => x - mu) xs). rewrite !map_map. split; [reflexivity|].
  split; [apply map_length|]. split; [rewrite sumQ_sub, H; ring|]. split.
  - intros i j xi xj yi yj A B C D. rewrite nth_error_map in C, D. rewrite A in C. rewrite B in D.
    cbn in C, D. injection C as <-. injection D as <-. ring.
  - intros Z0. assert (M0 : mu == 0).
    { rewrite Z0 in H. assert (L : (0 < Z.of_nat (length xs))%Z) by (destruct xs; [congruence|cbn; lia]).
      assert (~ inject_Z (Z.of_nat (length xs)) == 0).
      { intro C. assert (inject_Z 0 < inject_Z (Z.of_nat (length xs))) by (rewrite <- inject_Z_lt; exact L). change (inject_Z 0) with 0 in *. lra. }
      destruct (Qmult_integral _ _ H); [assumption|contradiction]. }
    clear - M0. induction xs as [|x t IH]; cbn; constructor; [|exact IH]. rewrite M0. ring.
Qed.

Lemma remove_mean_spec td td' : remove_mean exact td = Ok td' ->
  length (rows td') = length (rows td) /\
  forall i r xs, nth_error (rows td) i = Some r -> holds xs r -> xs <> [] ->
  exists r' ys, nth_error (rows td') i = Some r' /\ holds ys r' /\ length ys = length xs /\ sumQ ys == 0 /\
    (forall i j xi xj yi yj, nth_error xs i = Some xi -> nth_error xs j = Some xj ->
       nth_error ys i = Some yi -> nth_error ys j = Some yj -> yi - yj == xi - xj).
Proof.
  intros H. unfold remove_mean in H. injection H as <-. cbn. split; [apply map_length|].
  intros i r xs Hi -> N. rewrite nth_error_map, Hi. cbn.
  destruct (remove_mean_row xs N) as (ys & A & B & C & D & _).
  eexists. exists ys. split; [reflexivity|]. unfold holds. auto.
Qed.

Lemma Forall2_map_some ys xs : Forall2 Qeq ys xs -> Forall2 ceq (map Some ys) (map Some xs).
Proof. induction 1; cbn; constructor; auto. Qed.

Lemma remove_mean_idem td td1 td2 :
  (forall r, In r (rows td) -> exists xs, holds xs r /\ xs <> []) ->
  remove_mean exact td = Ok td1 -> remove_mean exact td1 = Ok td2 -> rows_eq (rows td2) (rows td1).
Proof.
  intros Hr H1 H2. unfold remove_mean in *. injection H1 as <-. injection H2 as <-. unfold new_time_data. cbn [rows].
  unfold rows_eq. induction (rows td) as [|r t IH]; [constructor|]. rewrite !map_cons. constructor; cbv beta.
  - destruct (Hr r (or_introl eq_refl)) as (xs & Hx & N). unfold holds in Hx. subst r.
    destruct (remove_mean_row xs N) as (ys & A & B & C & _ & _).
    rewrite A.
    assert (Ny : ys <> []) by (intros ->; destruct xs; [congruence|discriminate]).
    destruct (remove_mean_row ys Ny) as (zs & A' & _ & _ & _ & F). rewrite A'.
    apply Forall2_map_some. exact (F C).
  - apply IH. intros; apply Hr; right; assumption.
Qed.

(** ** C17 *)
Lemma number_points_cons_some s v t : number_points s (Some v :: t) = (inject_Z s, v) :: number_points (s + 1) t.
Proof. reflexivity. Qed.
Lemma number_points_cons_none s t : number_points s (None :: t) = number_points (s + 1) t.
Proof. reflexivity. Qed.

Lemma np_first s l x y : nth_error (number_points s l) 0 = Some (x, y) ->
  exists j, x = inject_Z (s + Z.of_nat j) /\ nth_error l j = Some (Some y) /\
            (forall q, (q < j)%nat -> nth_error l q = Some None).
Proof.
  revert s. induction l as [|[v|] t IH]; intros s H; cbn in H; [discriminate| |].
  - injection H as <- <-. exists 0%nat. rewrite Z.add_0_r. repeat split. intros q Hq; lia.
  - destruct (IH _ H) as (j & A & B & C). exists (S j). split; [rewrite A; f_equal; lia|]. split; [exact B|].
    intros [|q] Hq; [reflexivity|]. cbn. apply C. lia.
Qed.
Lemma np_nil s l : number_points s l = [] -> forall q x, nth_error l q <> Some (Some x).
Proof.
  revert s. induction l as [|[v|] t IH]; intros s H q x E.
  - destruct q; discriminate.
  - discriminate.
  - destruct q; [discriminate|]. exact (IH _ H q x E).
Qed.
Lemma np_nth s l p x y : nth_error (number_points s l) p = Some (x, y) ->
  exists j, x = inject_Z (s + Z.of_nat j) /\ nth_error l j = Some (Some y) /\
    (nth_error (number_points s l) (S p) = None -> forall q z, (j < q)%nat -> nth_error l q <> Some (Some z)) /\
    (forall x2 y2, nth_error (number_points s l) (S p) = Some (x2, y2) ->
       exists k, x2 = inject_Z (s + Z.of_nat k) /\ nth_error l k = Some (Some y2) /\ (j < k)%nat /\
         forall q, (j < q < k)%nat -> nth_error l q = Some None).
Proof.
  revert s p. induction l as [|[v|] t IH]; intros s p H; [destruct p; discriminate| |].
  - rewrite number_points_cons_some in *. destruct p as [|p].
    + cbn in H. injection H as <- <-. exists 0%nat. rewrite Z.add_0_r. split; [reflexivity|]. split; [reflexivity|]. split.
      * cbn. intros E q z Hq Ez. destruct q as [|q]; [lia|]. cbn in Ez.
        destruct (number_points (s + 1) t) eqn:En; [|discriminate]. exact (np_nil _ _ En q z Ez).
      * intros x2 y2 E. cbn in E.
        destruct (np_first (s + 1) t x2 y2) as (k & A & B & C).
        { destruct (number_points (s + 1) t); [discriminate|exact E]. }
        exists (S k). split; [rewrite A; f_equal; lia|]. split; [exact B|]. split; [lia|].
        intros [|q] Hq; [lia|]. cbn. apply C. lia.
    + cbn [nth_error] in H. destruct (IH _ _ H) as (j & A & B & C & D). exists (S j).
      split; [rewrite A; f_equal; lia|]. split; [exact B|]. cbn [nth_error]. split.
      * intros E q z Hq Ez. destruct q as [|q]; [lia|]. cbn in Ez. exact (C E q z ltac:(lia) Ez).
      * intros x2 y2 E. destruct (D x2 y2 E) as (k & A' & B' & C' & D'). exists (S k).
        split; [rewrite A'; f_equal; lia|]. split; [exact B'|]. split; [lia|].
        intros [|q] Hq; [lia|]. cbn. apply D'. lia.
  - rewrite number_points_cons_none in *. destruct (IH _ _ H) as (j & A & B & C & D). exists (S j).
    split; [rewrite A; f_equal; lia|]. split; [exact B|]. split.
    + intros E q z Hq Ez. destruct q as [|q]; [lia|]. cbn in Ez. exact (C E q z ltac:(lia) Ez).
    + intros x2 y2 E. destruct (D x2 y2 E) as (k & A' & B' & C' & D'). exists (S k).
      split; [rewrite A'; f_equal; lia|]. split; [exact B'|]. split; [lia|].
      intros [|q] Hq; [lia|]. cbn. apply D'. lia.
Qed.

Lemma np_incr s l : increasing (number_points s l) /\
  (forall x y, nth_error (number_points s l) 0 = Some (x, y) -> inject_Z s <= x).
Proof.
  revert s. induction l as [|[v|] t IH]; intros s.
  - split; [exact I|]. intros; discriminate.
  - rewrite number_points_cons_some. destruct (IH (s + 1)%Z) as [A B]. split.
    + cbn. destruct (number_points (s + 1) t) as [|[x y] r]; [exact I|]. cbn. split; [|exact A].
      specialize (B x y eq_refl). rewrite inject_Z_plus in B. change (inject_Z 1) with 1 in B. lra.
    + intros x y E. cbn in E. injection E as <- <-. lra.
  - rewrite number_points_cons_none. destruct (IH (s + 1)%Z) as [A B]. split; [exact A|].
    intros x y E. specialize (B x y E). rewrite inject_Z_plus in B. change (inject_Z 1) with 1 in B. lra.
Qed.

Lemma interp_gap l i v : nth_error l i = Some None -> interpolates (number_points 0 l) (inject_Z (Z.of_nat i)) v -> gap_value l i v.
Proof.
  intros Hi [x0 y0 A B C|p x0 y0 A A' B C|p xa ya xb yb A B C D F G].
  - destruct (np_first _ _ _ _ A) as (j & -> & Hj & Hq). rewrite <- inject_Z_le in B.
    assert (i <> j) by (intros ->; pose proof (eq_trans (eq_sym Hi) Hj) as X; discriminate X).
    eapply gap_left; [|exact Hj|exact Hq|exact C]. lia.
  - destruct (np_nth _ _ _ _ _ A) as (j & -> & Hj & HN & _). rewrite <- inject_Z_le in B.
    assert (i <> j) by (intros ->; pose proof (eq_trans (eq_sym Hi) Hj) as X; discriminate X).
    eapply gap_right; [|exact Hj|exact (HN A')|exact C]. lia.
  - destruct (np_nth _ _ _ _ _ A) as (j & -> & Hj & _ & HN). destruct (HN _ _ B) as (k & -> & Hk & Hjk & Hq).
    rewrite <- inject_Z_le in C, D. assert (i <> j) by (intros ->; pose proof (eq_trans (eq_sym Hi) Hj) as X; discriminate X). assert (i <> k) by (intros ->; pose proof (eq_trans (eq_sym Hi) Hk) as X; discriminate X).
    eapply (gap_between _ _ _ j k); [lia|exact Hj|exact Hk|exact Hq|].
    rewrite G. rewrite !Z.add_0_l.
    assert (E1 : inject_Z (Z.of_nat i) - inject_Z (Z.of_nat j) == inject_Z (Z.of_nat (i - j))).
    { rewrite Nat2Z.inj_sub by lia. unfold Z.sub. rewrite inject_Z_plus, inject_Z_opp. ring. }
    assert (E2 : inject_Z (Z.of_nat k) - inject_Z (Z.of_nat j) == inject_Z (Z.of_nat (k - j))).
    { rewrite Nat2Z.inj_sub by lia. unfold Z.sub. rewrite inject_Z_plus, inject_Z_opp. ring. }
    rewrite E1, E2. reflexivity.
Qed.

Lemma fill_from_spec pts s l l' : fill_from pts s l = Ok l' ->
  length l' = length l /\
  forall i, (forall v, nth_error l i = Some (Some v) -> nth_error l' i = Some (Some v)) /\
            (nth_error l i = Some None -> exists v, nth_error l' i = Some (Some v) /\ np_interp pts (inject_Z (s + Z.of_nat i)) = Ok v).
Proof.
  revert s l'. induction l as [|[v|] t IH]; intros s l' H; cbn in H.
  - injection H as <-. split; [reflexivity|]. intros [|i]; split; intros; discriminate.
  - inv_bind H. injection H as <-. destruct (IH _ _ B) as [L S]. split; [cbn; congruence|].
    intros [|i]; cbn.
    + split; [intros w E; exact E|discriminate].
    + destruct (S i) as [S1 S2]. split; [exact S1|]. intros E. destruct (S2 E) as (w & A1 & A2).
      exists w. split; [exact A1|]. rewrite <- A2. f_equal. f_equal. lia.
  - inv_bind H. inv_bind H. injection H as <-. destruct (IH _ _ B0) as [L S]. split; [cbn; congruence|].
    intros [|i]; cbn.
    + split; [discriminate|]. intros _. exists a. rewrite Z.add_0_r. auto.
    + destruct (S i) as [S1 S2]. split; [exact S1|]. intros E. destruct (S2 E) as (w & A1 & A2).
      exists w. split; [exact A1|]. rewrite <- A2. f_equal. f_equal. lia.
Qed.

Lemma fill_from_ok pts s l : pts <> [] -> exists l', fill_from pts s l = Ok l'.
Proof.
  intros N. revert s. induction l as [|[v|] t IH]; intros s; cbn; [eauto| |].
  - destruct (IH (s + 1)%Z) as [r ->]. cbn. eauto.
  - destruct (np_interp_total pts (inject_Z s) N) as [y ->]. destruct (IH (s + 1)%Z) as [r ->]. cbn. eauto.
Qed.

Lemma existsb_nan_false l : existsb is_nan l = false -> forall i, nth_error l i <> Some None.
Proof.
  intros H i E. apply nth_error_In in E. assert (existsb is_nan l = true); [|congruence].
  apply existsb_exists. exists None. auto.
Qed.
Lemma interp_chan_filled l l' : interpolate_nans_chan l = Ok l' -> filled l l'.
Proof.
  unfold interpolate_nans_chan. destruct (existsb is_nan l) eqn:E; intros H.
  - destruct (fill_from_spec _ _ _ _ H) as [L S]. split; [exact L|]. split.
    + intros i v. apply S.
    + intros i Hi. destruct (S i) as [_ S2]. destruct (S2 Hi) as (v & A & B). exists v. split; [exact A|].
      apply interp_gap; [exact Hi|]. apply np_interp_spec; [apply np_incr|]. rewrite Z.add_0_l in B. exact B.
  - injection H as <-. split; [reflexivity|]. split; [auto|]. intros i Hi. exfalso. eapply existsb_nan_false; eassumption.
Qed.
Lemma interp_chan_err l : is_ok (interpolate_nans_chan l) = false <->
  (l <> [] /\ forall i v, nth_error l i <> Some (Some v)).
Proof.
  unfold interpolate_nans_chan. split.
  - destruct (existsb is_nan l) eqn:E; [|discriminate]. intros H.
    split; [intros ->; discriminate|].
    destruct (number_points 0 l) as [|p r] eqn:En.
    + intros i v. apply (np_nil _ _ En).
    + destruct (fill_from_ok (p :: r) 0 l ltac:(discriminate)) as [l' F]. rewrite F in H. discriminate.
  - intros [N H]. destruct l as [|[v|] t]; [congruence|exfalso; apply (H 0%nat v); reflexivity|].
    cbn [existsb is_nan orb]. rewrite number_points_cons_none. cbn [fill_from].
    destruct (number_points (0 + 1) t) as [|[x y] r] eqn:En; [reflexivity|].
    exfalso. destruct (np_first _ _ x y ltac:(rewrite En; reflexivity)) as (j & _ & Hj & _).
    exact (H (S j) y Hj).
Qed.

Lemma interp_rows_spec all cs d d' : NoDup all ->
  (forall c, In c cs -> In c all) -> NoDup cs ->
  interp_rows all cs d = Ok d' ->
  length d' = length d /\
  (forall i r, nth_error d i = Some r ->
     exists r', nth_error d' i = Some r' /\
       ((exists c, In c cs /\ nth_error all i = Some c /\ interpolate_nans_chan r = Ok r') \/
        ((forall c, nth_error all i = Some c -> ~ In c cs) /\ r' = r))).
Proof.
  intros NA. revert d. induction cs as [|c t IH]; intros d Hin Nd H; cbn in H.
  - injection H as <-. split; [reflexivity|]. intros i r Hi. exists r. split; [exact Hi|]. right. split; [intros ? _ []|reflexivity].
  - destruct (chan_index all c) as [j|] eqn:Ej; [|discriminate].
    destruct (nth_error d j) as [rj|] eqn:Erj; [|discriminate]. inv_bind H.
    inversion Nd as [|? ? Nc Nt]; subst.
    destruct (IH (upd_nth j a d) ltac:(intros; apply Hin; right; assumption) Nt H) as [L S].
    rewrite upd_nth_length in L. split; [exact L|]. intros i r Hi.
    pose proof (chan_index_nth _ _ _ Ej) as Nj.
    destruct (Nat.eq_dec j i) as [<-|NE].
    + rewrite Erj in Hi. injection Hi as ->.
      destruct (S j a) as (r' & A & B0); [apply nth_error_upd_eq; apply nth_error_Some; congruence|].
      exists r'. split; [exact A|]. left. exists c. split; [left; reflexivity|]. split; [exact Nj|].
      destruct B0 as [(c' & C1 & C2 & C3)|[_ ->]]; [|exact B].
      assert (c' = c) by congruence. subst. contradiction.
    + destruct (S i r) as (r' & A & B0); [rewrite nth_error_upd_neq by exact NE; exact Hi|].
      exists r'. split; [exact A|]. destruct B0 as [(c' & C1 & C2 & C3)|[C1 C2]].
      * left. exists c'. split; [right; exact C1|]. auto.
      * right. split; [|exact C2]. intros c' Ec [<-|I]; [|exact (C1 c' Ec I)].
        pose proof (chan_index_nodup all c i NA Ec). congruence.
Qed.

Lemma interpolate_nans_spec td td' : NoDup (chans (meta td)) -> length (rows td) = length (chans (meta td)) ->
  interpolate_nans td = Ok td' ->
  length (rows td') = length (rows td) /\
  forall i r, nth_error (rows td) i = Some r ->
   exists r', nth_error (rows td') i = Some r' /\ interpolate_nans_chan r = Ok r' /\ filled r r'.
Proof.
  intros N L H. unfold interpolate_nans in H. inv_bind H. injection H as <-. cbn.
  destruct (interp_rows_spec _ _ _ _ N (fun c h => h) N B) as [L' S]. split; [exact L'|].
  intros i r Hi. destruct (S i r Hi) as (r' & A & [(c & C1 & C2 & C3)|[C1 C2]]).
  - exists r'. split; [exact A|]. split; [exact C3|]. apply interp_chan_filled; exact C3.
  - exfalso. destruct (nth_error (chans (meta td)) i) as [c|] eqn:Ec.
    + apply (C1 c eq_refl). eapply nth_error_In; exact Ec.
    + apply nth_error_None in Ec. rewrite <- L in Ec. apply nth_error_None in Ec. congruence.
Qed.

(** failure: exactly when some channel has samples but no number *)
Lemma interp_rows_fail all cs d : NoDup all -> (forall c, In c cs -> In c all) -> NoDup cs ->
  length d = length all ->
  (forall i r c, nth_error all i = Some c -> In c cs -> nth_error d i = Some r -> is_ok (interpolate_nans_chan r) = true) ->
  is_ok (interp_rows all cs d) = true.
Proof.
  intros NA. revert d. induction cs as [|c t IH]; intros d Hin Nd L H; cbn; [reflexivity|].
  destruct (chan_index_in all c (Hin c (or_introl eq_refl))) as (j & Ej & Nj). rewrite Ej.
  destruct (nth_error d j) as [r|] eqn:Er.
  2:{ apply nth_error_None in Er. rewrite L in Er. apply nth_error_None in Er. congruence. }
  pose proof (H j r c Nj (or_introl eq_refl) Er) as Ok1. destruct (interpolate_nans_chan r) as [r'|] eqn:E; [|discriminate].
  cbn. inversion Nd; subst. apply IH; auto.
  - intros; apply Hin; right; assumption.
  - rewrite upd_nth_length. exact L.
  - intros i r0 c0 A B C. assert (j <> i). { intros ->. assert (c0 = c) by congruence. subst. contradiction. }
    rewrite nth_error_upd_neq in C by assumption. eapply H; [exact A|right; exact B|exact C].
Qed.

Lemma interpolate_nans_total td : NoDup (chans (meta td)) -> length (rows td) = length (chans (meta td)) ->
  (is_ok (interpolate_nans td) = false <->
   exists r, In r (rows td) /\ r <> [] /\ forall i v, nth_error r i <> Some (Some v)).
Proof.
  intros N L. split.
  - intros H.
    destruct (existsb (fun r => negb (is_ok (interpolate_nans_chan r))) (rows td)) eqn:E.
    + apply existsb_exists in E. destruct E as (r & Hr & E). apply negb_true_iff in E.
      apply interp_chan_err in E. exists r. split; [exact Hr|]. exact E.
    + exfalso. assert (is_ok (interp_rows (chans (meta td)) (chans (meta td)) (rows td)) = true).
      { apply interp_rows_fail; auto. intros i r c _ _ Hr. apply nth_error_In in Hr.
        destruct (is_ok (interpolate_nans_chan r)) eqn:E2; [reflexivity|].
        assert (existsb (fun r => negb (is_ok (interpolate_nans_chan r))) (rows td) = true); [|congruence].
        apply existsb_exists. exists r. rewrite E2. auto. }
      unfold interpolate_nans in H. destruct (interp_rows _ _ _); discriminate.
  - intros (r & Hr & A). apply interp_chan_err in A. destruct (interpolate_nans td) as [td'|] eqn:E; [|reflexivity].
    apply In_nth_error in Hr. destruct Hr as [i Hi].
    destruct (interpolate_nans_spec td td' N L E) as [_ S]. destruct (S i r Hi) as (r' & _ & B & _).
    rewrite B in A. discriminate.
Qed.

(** between the two neighbours *)
Lemma gap_value_between l i v : gap_value l i v ->
  exists a b, (exists j, nth_error l j = Some (Some a)) /\ (exists k, nth_error l k = Some (Some b)) /\ a <= v /\ v <= b.
Proof.
  intros [j k a b H Hj Hk Hq E|k b H Hk Hq E|j a H Hj Hq E].
  - assert (P : 0 < inject_Z (Z.of_nat (k - j))) by (change 0 with (inject_Z 0); rewrite <- inject_Z_lt; lia).
    assert (P1 : 0 <= inject_Z (Z.of_nat (i - j))) by (change 0 with (inject_Z 0); rewrite <- inject_Z_le; lia).
    assert (P2 : inject_Z (Z.of_nat (i - j)) <= inject_Z (Z.of_nat (k - j))) by (rewrite <- inject_Z_le; lia).
    set (th := inject_Z (Z.of_nat (i - j)) / inject_Z (Z.of_nat (k - j))) in *.
    assert (T1 : 0 <= th) by (apply Qle_shift_div_l; lra).
    assert (T2 : th <= 1) by (apply Qle_shift_div_r; lra).
    destruct (Qlt_le_dec a b).
    + exists a, b. split; [eauto|]. split; [eauto|]. nra.
    + exists b, a. split; [eauto|]. split; [eauto|]. nra.
  - exists b, b. split; [eauto|]. split; [eauto|]. lra.
  - exists a, a. split; [eauto|]. split; [eauto|]. lra.
Qed.

Lemma filled_no_nan r r' : filled r r' -> forall i, nth_error r' i <> Some None.
Proof.
  intros (L & A & B) i E. destruct (nth_error r i) as [[v|]|] eqn:Er.
  - rewrite (A i v Er) in E. discriminate.
  - destruct (B i Er) as (v & C & _). congruence.
  - apply nth_error_None in Er. rewrite <- L in Er. apply nth_error_None in Er. congruence.
Qed.
Lemma filled_idem r r' : interpolate_nans_chan r = Ok r' -> interpolate_nans_chan r' = Ok r'.
Proof.
  intros H. apply interp_chan_filled in H. pose proof (filled_no_nan _ _ H) as N.
  unfold interpolate_nans_chan. destruct (existsb is_nan r') eqn:E; [|reflexivity].
  exfalso. apply existsb_exists in E. destruct E as ([v|] & Hx & E); [discriminate|].
  apply In_nth_error in Hx. destruct Hx as [i Hi]. exact (N i Hi).
Qed.
Lemma interp_rows_idem all cs d : (forall c, In c cs -> In c all) -> length d = length all ->
  (forall r, In r d -> interpolate_nans_chan r = Ok r) -> interp_rows all cs d = Ok d.
Proof.
  intros Hin L H. revert Hin. induction cs as [|c t IH]; intros Hin; cbn; [reflexivity|].
  destruct (chan_index_in all c (Hin c (or_introl eq_refl))) as (j & Ej & Nj). rewrite Ej.
  destruct (nth_error d j) as [r|] eqn:Er.
  2:{ apply nth_error_None in Er. rewrite L in Er. apply nth_error_None in Er. congruence. }
  rewrite (H r (nth_error_In _ _ Er)). cbn.
  replace (upd_nth j r d) with d; [apply IH; intros; apply Hin; right; assumption|].
  apply nth_error_ext'. intros i. rewrite nth_error_upd. destruct (Nat.eqb_spec j i) as [<-|]; [|reflexivity].
  rewrite Er. destruct (Nat.ltb_spec j (length d)) as [|G]; [reflexivity|]. apply nth_error_None in G. congruence.
Qed.
Lemma interpolate_nans_idem td td1 : NoDup (chans (meta td)) -> length (rows td) = length (chans (meta td)) ->
  interpolate_nans td = Ok td1 -> exists td2, interpolate_nans td1 = Ok td2 /\ rows td2 = rows td1.
Proof.
  intros N L H. destruct (interpolate_nans_spec td td1 N L H) as [L1 S].
  assert (M : chans (meta td1) = chans (meta td)) by (unfold interpolate_nans in H; inv_bind H; injection H as <-; reflexivity).
  assert (E : interp_rows (chans (meta td1)) (chans (meta td1)) (rows td1) = Ok (rows td1)).
  { apply interp_rows_idem; auto; [rewrite M, L1, L; reflexivity|].
    intros r Hr. apply In_nth_error in Hr. destruct Hr as [i Hi].
    destruct (nth_error (rows td) i) as [r0|] eqn:E0.
    - destruct (S i r0 E0) as (r' & A & B & _). assert (r' = r) by congruence. subst. eapply filled_idem; exact B.
    - apply nth_error_None in E0. rewrite <- L1 in E0. apply nth_error_None in E0. congruence. }
  unfold interpolate_nans. rewrite E. cbn. eexists. split; reflexivity.
Qed.
