(** Proofs for C48 *)
From Coq Require Import String Ascii Sorted Permutation.
From Verif Require Import Base.Prelude Base.ListUtil Base.NdArray
  Model.Sampling Model.Time Model.Decimate Model.Window Model.Spectra Model.Calibrate Model.Gather Spec.Calibrate Spec.Gather
  Proofs.Sampling Proofs.TimeMeta Proofs.Spectra Proofs.Calibrate Proofs.CalibrateFinal Base.SortNames Proofs.Gather.
Open Scope list_scope. Open Scope Z_scope.

Lemma first_index_spec c cs i : first_index c cs = Some i -> nth_error cs i = Some c /\ forall j, (j < i)%nat -> nth_error cs j <> Some c.
Proof.
  revert i. induction cs as [|x t IH]; intros i H; cbn [first_index] in H; [discriminate|].
  destruct (String.eqb_spec x c) as [->|Hn].
  - injection H as <-. split; [reflexivity|]. intros j Hj. lia.
  - destruct (first_index c t) as [k|]; [|discriminate]. injection H as <-. destruct (IH k eq_refl) as [A B].
    split; [exact A|]. intros [|j] Hj; cbn; [congruence|]. apply B. lia.
Qed.

Lemma nd_picks_ax {A} is (a : nd A) l : nd_picks is (Ax (a :: l)) =
  if Nat.leb 3 (nd_rank (Ax (a :: l))) then r <- mapM (nd_picks is) (a :: l) ;; Ok (Ax r)
  else if Nat.eqb 2 (nd_rank (Ax (a :: l)))
       then r <- mapM (fun i => match nth_error (a :: l) i with Some x => Ok x | None => Err IndexError end) is ;; Ok (Ax r)
       else Err IndexError.
Proof.
  cbn [nd_picks]. destruct (Nat.leb 3 (nd_rank (Ax (a :: l)))); [|reflexivity].
  match goal with |- bind (bind _ (fun y => bind (?g l) _)) _ = _ => assert (Hg : forall l', g l' = mapM (nd_picks is) l') end.
  { induction l' as [|x t IH]; [reflexivity|]. cbn [mapM]. rewrite <- IH. reflexivity. }
  rewrite Hg. reflexivity.
Qed.
Lemma nd_last_at_ax {A} i (l : list (nd A)) : scalars l = None -> nd_last_at i (Ax l) = (r <- mapM (nd_last_at i) l ;; Ok (Ax r)).
Proof.
  intros H. cbn [nd_last_at]. rewrite H.
  match goal with |- bind (?g l) _ = _ => assert (Hg : forall l', g l' = mapM (nd_last_at i) l') end.
  { induction l' as [|x t IH]; [reflexivity|]. cbn [mapM]. rewrite <- IH. reflexivity. }
  rewrite Hg. reflexivity.
Qed.

(** the rows of a window for the picked channels *)
Definition picks {A} (is : list nat) (win : list (list A)) : list (list A) :=
  flat_map (fun i => match nth_error win i with Some r => [r] | None => [] end) is.
Lemma picks_nth {A} is (win : list (list A)) : (forall i, In i is -> (i < length win)%nat) ->
  Forall2 (fun i r => nth_error win i = Some r) is (picks is win).
Proof.
  intros H. induction is as [|i t IH]; cbn; [constructor|]. destruct (nth_error win i) as [r|] eqn:E.
  - constructor; [exact E|]. apply IH. intros; apply H; right; assumption.
  - apply nth_error_None in E. specialize (H i (or_introl eq_refl)). lia.
Qed.
Lemma mapM_map {A B C} (f : B -> res C) (g : A -> B) l : mapM f (map g l) = mapM (fun x => f (g x)) l.
Proof. induction l as [|x t IH]; [reflexivity|]. cbn [map mapM]. rewrite IH. reflexivity. Qed.

Lemma nd_picks_nd2 {A} is (win : list (list A)) : win <> [] -> (forall i, In i is -> (i < length win)%nat) ->
  nd_picks is (nd2 win) = Ok (nd2 (picks is win)).
Proof.
  intros Hw H. unfold nd2. destruct win as [|r win']; [congruence|]. set (win := r :: win') in *.
  assert (R : nd_rank (Ax (map nd1 win)) = 2%nat) by (unfold win, nd1; cbn; destruct r; reflexivity).
  unfold win at 1. cbn [map]. rewrite nd_picks_ax. change (nd1 r :: map nd1 win') with (map nd1 win). rewrite R. cbn [Nat.leb Nat.eqb].
  assert (M : mapM (fun i => match nth_error (map nd1 win) i with Some x => Ok x | None => Err IndexError end) is = Ok (map nd1 (picks is win))).
  { clear R. clearbody win. induction is as [|i t IH]; [reflexivity|]. cbn [mapM picks flat_map]. rewrite nth_error_map.
    destruct (nth_error win i) as [x|] eqn:E; cbn [option_map].
    - cbn [bind]. rewrite IH by (intros; apply H; right; assumption). reflexivity.
    - apply nth_error_None in E. specialize (H i (or_introl eq_refl)). lia. }
  rewrite M. reflexivity.
Qed.
Lemma nd_picks_nd3 {A} is (x : list (list (list A))) C : (0 < C)%nat -> (forall w, In w x -> length w = C) ->
  (forall i, In i is -> (i < C)%nat) -> nd_picks is (nd3 x) = Ok (nd3 (map (picks is) x)).
Proof.
  intros HC Hx Hi. unfold nd3. destruct x as [|w x']; [reflexivity|]. set (x := w :: x') in *.
  assert (R : (3 <= nd_rank (Ax (map nd2 x)))%nat).
  { unfold x. destruct w as [|r w']; [specialize (Hx [] (or_introl eq_refl)); cbn in Hx; lia|]. cbn. destruct r; cbn; lia. }
  unfold x at 1. cbn [map]. rewrite nd_picks_ax. change (nd2 w :: map nd2 x') with (map nd2 x).
  rewrite (proj2 (Nat.leb_le _ _) R).
  assert (M : mapM (nd_picks is) (map nd2 x) = Ok (map nd2 (map (picks is) x))).
  { rewrite mapM_map, map_map. apply mapM_eq. intros v Hv. specialize (Hx v Hv). apply nd_picks_nd2.
    - intros ->. cbn in Hx. lia.
    - intros i Hin. rewrite Hx. apply Hi. exact Hin. }
  rewrite M. reflexivity.
Qed.

Lemma nd_last_at_nd1 {A} f (r : list A) z : 0 <= f -> nth_error r (Z.to_nat f) = Some z -> nd_last_at f (nd1 r) = Ok (Sc z).
Proof. intros Hf H. unfold nd1. cbn [nd_last_at]. rewrite scalars_map, py_nth_nat by exact Hf. rewrite H. reflexivity. Qed.
Lemma nd_last_at_nd2 {A} f (win : list (list A)) zs : 0 <= f -> win <> [] -> Forall2 (fun r z => nth_error r (Z.to_nat f) = Some z) win zs ->
  nd_last_at f (nd2 win) = Ok (Ax (map Sc zs)).
Proof.
  intros Hf Hw F. unfold nd2. rewrite nd_last_at_ax by (destruct win; [congruence|reflexivity]).
  assert (M : mapM (nd_last_at f) (map nd1 win) = Ok (map Sc zs)).
  { clear Hw. induction F as [|r z win zs E F IH]; [reflexivity|]. cbn [map mapM]. rewrite (nd_last_at_nd1 f r z Hf E), IH. reflexivity. }
  rewrite M. reflexivity.
Qed.
Lemma row_at_nd3 {A} (y : list (list (list A))) w f win zs : 0 <= w -> 0 <= f -> nth_error y (Z.to_nat w) = Some win -> win <> [] ->
  Forall2 (fun r z => nth_error r (Z.to_nat f) = Some z) win zs -> row_at (nd3 y) w f = Ok zs.
Proof.
  intros Hw Hf N Hne F. unfold row_at, nd3. rewrite py_nth_nat by exact Hw. rewrite nth_error_map, N. cbn [option_map].
  rewrite (nd_last_at_nd2 f win zs Hf Hne F). cbn [bind]. rewrite scalars_map. reflexivity.
Qed.

Lemma upd_key_length {B} k (v : B) l : length (upd_key k v l) = length l.
Proof. induction l as [|[j x] t IH]; [reflexivity|]. cbn [upd_key]. destruct (j =? k); [reflexivity|]. cbn. f_equal. exact IH. Qed.

Section Data.
  Context {A : Type}.

  (** reading the channels of a level and taking one row *)
  Lemma level_rows n (d : spec_data A) chans level : good_evals n d -> chans <> [] -> incl chans (sm_chans (sd_md d)) ->
    0 <= level < sm_n_levels (sd_md d) ->
    exists m y, nth_error (sm_levels (sd_md d)) (Z.to_nat level) = Some m /\ sd_level_md d level = Ok m /\
      sd_get_chans d level chans = Ok (nd3 y) /\ Z.of_nat (length y) = sl_n_wins m /\
      (forall win, In win y -> length win = length chans) /\
      forall w f, 0 <= w < sl_n_wins m -> 0 <= f < n -> exists row, row_at (nd3 y) w f = Ok row /\ window_row d chans level w f row.
  Proof.
    intros (Hc & Hlv & Hd) Hne Hinc Hl. destruct (Hd level Hl) as (m & x & Hm & Hx & Lx & Sx & Hn).
    assert (IS : exists is, mapM (fun c => match first_index c (sm_chans (sd_md d)) with None => Err ChannelNotFoundError | Some i => Ok i end) chans = Ok is /\
       Forall2 (fun c i => first_index c (sm_chans (sd_md d)) = Some i) chans is).
    { clear Hne. induction chans as [|c t IH]; [exists []; split; [reflexivity|constructor]|].
      destruct (first_index_in c (sm_chans (sd_md d)) (Hinc c (or_introl eq_refl))) as (i & E & _).
      destruct IH as (is & E' & F); [intros z Hz; apply Hinc; right; exact Hz|]. exists (i :: is). cbn [mapM]. rewrite E, E'. split; [reflexivity|]. constructor; assumption. }
    destruct IS as (is & Eis & Fis).
    assert (Ilt : forall i, In i is -> (i < length (sm_chans (sd_md d)))%nat).
    { intros i Hi. apply In_nth_error in Hi. destruct Hi as [k Hk]. destruct (Forall2_nth_error_r _ _ _ _ _ Fis Hk) as (c & _ & E).
      apply first_index_spec in E. apply nth_error_Some. destruct E as [E _]. congruence. }
    exists m, (map (picks is) x). split; [exact Hm|]. split.
    { unfold sd_level_md. rewrite py_nth_nat by lia. rewrite Hm. reflexivity. }
    split.
    { unfold sd_get_chans. rewrite Eis. cbn [bind]. rewrite Hx. cbn [bind].
      apply nd_picks_nd3 with (C := length (sm_chans (sd_md d))); [destruct (sm_chans (sd_md d)); [congruence|cbn; lia]|intros w Hw; apply Sx; exact Hw|exact Ilt]. }
    split; [rewrite map_length; exact Lx|]. split.
    { intros win Hwin. apply in_map_iff in Hwin. destruct Hwin as (w & <- & Hw). destruct (Sx w Hw) as [LC _].
      rewrite <- (Forall2_length' _ _ _ (picks_nth is w (fun i Hi => eq_ind_r (fun k => (i < k)%nat) (Ilt i Hi) LC))).
      symmetry. eapply Forall2_length'. exact Fis. }
    intros w f Hw Hf. destruct (nth_error x (Z.to_nat w)) as [win|] eqn:Nw.
    2:{ apply nth_error_None in Nw. lia. }
    destruct (Sx win (nth_error_In _ _ Nw)) as [LC LF].
    assert (P : Forall2 (fun i r => nth_error win i = Some r) is (picks is win)) by (apply picks_nth; intros i Hi; rewrite LC; auto).
    assert (ZS : exists zs, Forall2 (fun r z => nth_error r (Z.to_nat f) = Some z) (picks is win) zs).
    { assert (PL : forall r, In r (picks is win) -> (Z.to_nat f < length r)%nat).
      { intros r Hr. apply In_nth_error in Hr. destruct Hr as [k Hk]. destruct (Forall2_nth_error_r _ _ _ _ _ P Hk) as (i & _ & E).
        rewrite (LF r (nth_error_In _ _ E)). lia. }
      clear P. induction (picks is win) as [|r t IH]; [exists []; constructor|].
      destruct IH as [zs F]; [intros; apply PL; right; assumption|].
      destruct (nth_error r (Z.to_nat f)) as [z|] eqn:E.
      - exists (z :: zs). constructor; assumption.
      - apply nth_error_None in E. specialize (PL r (or_introl eq_refl)). lia. }
    destruct ZS as (zs & FZ). exists zs. split.
    - apply row_at_nd3 with (win := picks is win); [lia|lia| | |exact FZ].
      + rewrite nth_error_map, Nw. reflexivity.
      + intros K. rewrite K in P. inversion P as [Q|]. subst is. inversion Fis. subst chans. congruence.
    - exists x. split; [exact Hx|]. clear - Fis P FZ Nw. revert zs FZ. revert P. generalize (picks is win) as pk.
      induction Fis as [|c i chans is E F IH]; intros pk P zs FZ.
      + inversion P; subst. inversion FZ. constructor.
      + inversion P as [|? r ? pk' Er P']; subst. inversion FZ as [|? z ? zs' Ez FZ']; subst. constructor.
        * destruct (first_index_spec _ _ _ E) as [E1 E2]. exists i. split; [exact E1|]. split; [exact E2|]. unfold coef. rewrite Nw, Er. exact Ez.
        * apply (IH pk' P' zs' FZ').
  Qed.

  (** assignment of rows *)
  Lemma assign_rows_ok (x : nd A) off f rows : NoDup (map fst rows) ->
    (forall r g, In (r, g) rows -> exists v, row_at x (g - off) f = Ok v) ->
    forall d, exists d', assign_rows x off f rows d = Ok d' /\ length d' = length d /\
      (forall r g, In (r, g) rows -> (r < length d)%nat -> exists v, row_at x (g - off) f = Ok v /\ nth_error d' r = Some v) /\
      (forall r, ~ In r (map fst rows) -> nth_error d' r = nth_error d r).
  Proof.
    induction rows as [|[r g] rows IH]; intros N H d.
    - exists d. split; [reflexivity|]. split; [reflexivity|]. split; [intros ? ? []|reflexivity].
    - cbn [map fst] in N. apply NoDup_cons_iff in N. destruct N as [N1 N2]. destruct (H r g (or_introl eq_refl)) as [v Hv].
      destruct (IH N2 (fun r' g' K => H r' g' (or_intror K)) (upd_nth r v d)) as (d' & E & L & S1 & S2). rewrite upd_nth_length in L.
      exists d'. split; [cbn [assign_rows]; rewrite Hv; exact E|]. split; [exact L|]. split.
      + intros r' g' [K|K] Hlt.
        * injection K as <- <-. exists v. split; [exact Hv|]. rewrite S2 by exact N1. apply nth_error_upd_eq. exact Hlt.
        * apply S1; [exact K|]. rewrite upd_nth_length. exact Hlt.
      + intros r' K. rewrite S2 by (intros C; apply K; right; exact C). apply nth_error_upd_neq. intros ->. apply K. left. reflexivity.
  Qed.

  Lemma positions_in {B} (l : list B) i x : In (i, x) (positions l) <-> nth_error l i = Some x.
  Proof.
    unfold positions. split.
    - intros H. apply In_nth_error in H. destruct H as [k Hk]. apply nth_combine in Hk. destruct Hk as [H1 H2].
      assert (Hk : (k < length l)%nat) by (apply nth_error_Some; congruence).
      assert (nth_error (seq 0 (length l)) k = Some k). { rewrite (nth_error_nth' _ 0%nat) by (rewrite seq_length; lia). rewrite seq_nth by lia. reflexivity. }
      congruence.
    - intros H. assert (Hk : (i < length l)%nat) by (apply nth_error_Some; congruence).
      eapply nth_error_In. apply nth_combine. split; [|exact H]. rewrite (nth_error_nth' _ 0%nat) by (rewrite seq_length; lia). rewrite seq_nth by lia. reflexivity.
  Qed.
  Lemma map_fst_combine {B C} (a : list B) (b : list C) : length a = length b -> map fst (combine a b) = a.
  Proof. revert b. induction a as [|x a IH]; intros [|y b] H; cbn in *; try discriminate; [reflexivity|]. f_equal. apply IH. congruence. Qed.
  Lemma meas_rows_in col meas t r g : In (r, g) (meas_rows col meas t) <-> exists names, nth_error t r = Some (g, names) /\ nth col names EmptyString = meas.
  Proof.
    unfold meas_rows. rewrite in_map_iff. split.
    - intros ([r' [g' names]] & E & H). cbn in E. injection E as -> ->. apply filter_In in H. destruct H as [H1 H2].
      apply positions_in in H1. apply String.eqb_eq in H2. exists names. split; [exact H1|exact H2].
    - intros (names & H1 & H2). exists (r, (g, names)). split; [reflexivity|]. apply filter_In. split; [apply positions_in; exact H1|].
      apply String.eqb_eq. exact H2.
  Qed.
  Lemma meas_rows_nodup col meas t : NoDup (map fst (meas_rows col meas t)).
  Proof.
    unfold meas_rows. rewrite map_map. cbn [fst].
    assert (G : forall (l : list (nat * (Z * list string))) P, NoDup (map fst l) -> NoDup (map fst (filter P l))).
    { clear. intros l P. induction l as [|x l IH]; intros H; [exact H|]. cbn [map filter] in *. apply NoDup_cons_iff in H. destruct H as [H1 H2].
      destruct (P x); [|apply IH; exact H2]. cbn [map]. constructor; [|apply IH; exact H2]. intros C. apply H1.
      apply in_map_iff in C. destruct C as (y & E & Hy). apply filter_In in Hy. apply in_map_iff. exists y. tauto. }
    apply G. unfold positions. rewrite map_fst_combine by (rewrite seq_length; reflexivity). apply seq_NoDup.
  Qed.

  (** the state of the dictionary: entry (level, frequency) holds [F level frequency] *)
  Definition key_of (s : selection) (l f : Z) : Z := dp_per_level (sel_params s) * l + f.
  Lemma key_inj s l f l' f' : 0 <= f < dp_per_level (sel_params s) -> 0 <= f' < dp_per_level (sel_params s) ->
    key_of s l f = key_of s l' f' -> l = l' /\ f = f'.
  Proof.
    unfold key_of. intros H1 H2 E. assert (l = l'); [|subst; lia].
    destruct (Z.lt_trichotomy l l') as [L|[L|L]]; [nia|exact L|nia].
  Qed.
  Definition state (s : selection) (F : Z -> Z -> list (list A)) (data : list (Z * list (list A))) : Prop :=
    forall l f t, 0 <= l < sel_n_levels s -> 0 <= f < dp_per_level (sel_params s) -> sel_table s l = Ok t ->
      dict_get (key_of s l f) data = Ok (F l f) /\ length (F l f) = length t.

  (** [F'] is [F] with the rows of measurement [meas] at (level, f) replaced by good ones *)
  Definition filled (s : selection) (col : nat) (meas : string) (R : Z -> Z -> Z -> list A -> Prop) (here : Z -> Z -> Prop)
    (F F' : Z -> Z -> list (list A)) : Prop :=
    forall l f t, 0 <= l < sel_n_levels s -> 0 <= f < dp_per_level (sel_params s) -> sel_table s l = Ok t ->
    forall r g names, nth_error t r = Some (g, names) ->
      (here l f /\ nth col names EmptyString = meas -> exists row, nth_error (F' l f) r = Some row /\ R l f g row) /\
      (~ (here l f /\ nth col names EmptyString = meas) -> nth_error (F' l f) r = nth_error (F l f) r).

  Lemma sel_tables_ok s l : 0 <= l < sel_n_levels s -> exists t, sel_table s l = Ok t.
  Proof.
    unfold sel_n_levels, sel_table. intros H. destruct (nth_error (sel_tables s) (Z.to_nat l)) as [t|] eqn:E.
    - destruct (Z.ltb_spec l 0); [lia|]. eauto.
    - apply nth_error_None in E. lia.
  Qed.

  Lemma populate_freqs_ok s col meas ilevel (x : nd A) m t (R : Z -> Z -> Z -> list A -> Prop) :
    0 <= ilevel < sel_n_levels s -> sel_table s ilevel = Ok t ->
    (forall g names f, In (g, names) t -> nth col names EmptyString = meas -> 0 <= f < dp_per_level (sel_params s) ->
       exists row, row_at x (g - sl_offset m) f = Ok row /\ R ilevel f g row) ->
    forall ifreqs F data, NoDup ifreqs -> (forall f, In f ifreqs -> 0 <= f < dp_per_level (sel_params s)) -> state s F data ->
    exists data' F', populate_freqs s col meas ilevel x m ifreqs data = Ok data' /\ state s F' data' /\
      filled s col meas R (fun l f => l = ilevel /\ In f ifreqs) F F' /\ length data' = length data.
  Proof.
    intros Hl Ht HR. induction ifreqs as [|f0 rest IH]; intros F data ND Hin St.
    - exists data, F. split; [reflexivity|]. split; [exact St|]. split; [|reflexivity]. intros l f t' _ _ _ r g names _. split; [intros [[_ []] _]|reflexivity].
    - apply NoDup_cons_iff in ND. destruct ND as [Nn ND]. pose proof (Hin f0 (or_introl eq_refl)) as Hf0.
      destruct (St ilevel f0 t Hl Hf0 Ht) as [G0 L0].
      destruct (assign_rows_ok x (sl_offset m) f0 (meas_rows col meas t) (meas_rows_nodup _ _ _)) with (d := F ilevel f0) as (d' & Ed & Ld & S1 & S2).
      { intros r g K. apply meas_rows_in in K. destruct K as (names & K1 & K2). destruct (HR g names f0 (nth_error_In _ _ K1) K2 Hf0) as (row & Hrow & _). eauto. }
      set (F1 := fun l f => if (l =? ilevel) && (f =? f0) then d' else F l f).
      assert (F1eq : F1 ilevel f0 = d') by (unfold F1; rewrite !Z.eqb_refl; reflexivity).
      assert (F1neq : forall l f, ~ (l = ilevel /\ f = f0) -> F1 l f = F l f).
      { intros l f K. unfold F1. destruct (Z.eqb_spec l ilevel); [|reflexivity]. destruct (Z.eqb_spec f f0); [tauto|reflexivity]. }
      assert (St1 : state s F1 (upd_key (key_of s ilevel f0) d' data)).
      { intros l f t' H1 H2 H3. rewrite dict_get_upd by eauto. destruct (Z.eqb_spec (key_of s l f) (key_of s ilevel f0)) as [E|E].
        - destruct (key_inj _ _ _ _ _ H2 Hf0 E) as [-> ->]. rewrite F1eq. split; [reflexivity|]. rewrite Ht in H3. injection H3 as <-. congruence.
        - rewrite F1neq; [apply St; assumption|]. intros [-> ->]. apply E. reflexivity. }
      destruct (IH F1 _ ND (fun f K => Hin f (or_intror K)) St1) as (data' & F' & E & St' & Fi & Ln).
      exists data', F'. split; [|split; [exact St'|split]].
      { cbn [populate_freqs]. destruct (c47_evals s ilevel f0 t Hl Hf0 Ht) as [-> _]. cbn [bind]. fold (key_of s ilevel f0). rewrite G0. cbn [bind].
        rewrite Ed. cbn [bind]. exact E. }
      + intros l f t' H1 H2 H3 r g names Hr. destruct (Fi l f t' H1 H2 H3 r g names Hr) as [A1 A2]. split.
        * intros [[-> [<-|K]] Hm]; [|apply A1; auto].
          rewrite Ht in H3. injection H3 as <-.
          rewrite A2 by (intros [[_ K] _]; contradiction). rewrite F1eq.
          destruct (S1 r g) as (v & Hv & Nv).
          { apply meas_rows_in. exists names. auto. }
          { rewrite L0. apply nth_error_Some. congruence. }
          destruct (HR g names f0 (nth_error_In _ _ Hr) Hm Hf0) as (row & Hrow & HRr). exists row. split; [congruence|exact HRr].
        * intros K. rewrite A2 by (intros [[-> K1] K2]; apply K; split; [split; [reflexivity|right; exact K1]|exact K2]).
          destruct (Z.eq_dec l ilevel) as [->|Hne]; [|rewrite F1neq by tauto; reflexivity].
          destruct (Z.eq_dec f f0) as [->|Hne]; [|rewrite F1neq by tauto; reflexivity].
          rewrite F1eq. apply S2. intros C. apply in_map_iff in C. destruct C as ([r' g'] & E1 & C). cbn in E1. subst r'.
          apply meas_rows_in in C. destruct C as (names' & C1 & C2). rewrite Ht in H3. injection H3 as <-.
          assert (names' = names) by congruence. subst names'. apply K. split; [split; [reflexivity|left; reflexivity]|exact C2].
      + rewrite Ln. apply upd_key_length.
  Qed.

  Lemma arange_sorted n : StronglySorted Z.lt (arange n).
  Proof.
    unfold arange. generalize 0%nat as a. induction (Z.to_nat n) as [|k IH]; intros a; cbn [seq map]; [constructor|].
    constructor; [apply IH|]. apply Forall_forall. intros z Hz. apply in_map_iff in Hz. destruct Hz as (j & <- & Hj). apply in_seq in Hj. lia.
  Qed.

  (** all levels of one measurement *)
  Lemma populate_ok s col meas (d : spec_data A) chans (R : Z -> Z -> Z -> list A -> Prop) :
    good_evals (dp_per_level (sel_params s)) d -> chans <> [] -> incl chans (sm_chans (sd_md d)) ->
    (forall l t g names, 0 <= l < sel_n_levels s -> l < sm_n_levels (sd_md d) -> sel_table s l = Ok t -> In (g, names) t -> nth col names EmptyString = meas ->
       exists m, nth_error (sm_levels (sd_md d)) (Z.to_nat l) = Some m /\ 0 <= g - sl_offset m < sl_n_wins m) ->
    (forall l f g m row, nth_error (sm_levels (sd_md d)) (Z.to_nat l) = Some m -> 0 <= g - sl_offset m < sl_n_wins m ->
       window_row d chans l (g - sl_offset m) f row -> R l f g row) ->
    forall levels F data, StronglySorted Z.lt levels -> (forall l, In l levels -> 0 <= l < sel_n_levels s) -> state s F data ->
    exists data' F', populate s col meas d chans levels data = Ok data' /\ state s F' data' /\
      filled s col meas R (fun l f => In l levels /\ l < sm_n_levels (sd_md d)) F F' /\ length data' = length data.
  Proof.
    intros GE Hne Hinc HW HR. induction levels as [|l0 rest IH]; intros F data SS Hin St.
    - exists data, F. split; [reflexivity|]. split; [exact St|]. split; [|reflexivity]. intros l f t' _ _ _ r g names _. split; [intros [[[] _] _]|reflexivity].
    - inversion SS as [|? ? SS' FA]; subst. rewrite Forall_forall in FA. pose proof (Hin l0 (or_introl eq_refl)) as Hl0.
      cbn [populate]. rewrite Z.geb_leb. destruct (Z.leb_spec (sm_n_levels (sd_md d)) l0) as [Hge|Hlt].
      + exists data, F. split; [reflexivity|]. split; [exact St|]. split; [|reflexivity]. intros l f t' _ _ _ r g names _. split; [|reflexivity].
        intros [[[<-|K] K2] _]; [lia|]. specialize (FA l K). lia.
      + destruct (level_rows _ d chans l0 GE Hne Hinc (conj (proj1 Hl0) Hlt)) as (m & y & Hm & Hmd & Hy & Ly & _ & Hrow).
        destruct (sel_tables_ok s l0 Hl0) as [t Ht].
        destruct (populate_freqs_ok s col meas l0 (nd3 y) m t R Hl0 Ht) with (ifreqs := arange (dp_per_level (sel_params s))) (F := F) (data := data) as (data1 & F1 & E1 & St1 & Fi1 & Ln1).
        { intros g names f Hg Hn Hf. destruct (HW l0 t g names Hl0 Hlt Ht Hg Hn) as (m' & Hm' & Hg'). rewrite Hm in Hm'. injection Hm' as <-.
          destruct (Hrow (g - sl_offset m) f Hg' Hf) as (row & Er & Wr). exists row. split; [exact Er|]. apply (HR l0 f g m row Hm Hg' Wr). }
        { apply arange_NoDup. } { intros f Hf. apply arange_in in Hf. exact Hf. } { exact St. }
        destruct (IH F1 data1 SS' (fun l K => Hin l (or_intror K)) St1) as (data' & F' & E' & St' & Fi' & Ln').
        exists data', F'. split; [rewrite Hy; cbn [bind]; rewrite Hmd; cbn [bind]; rewrite E1; cbn [bind]; exact E'|]. split; [exact St'|]. split; [|congruence].
        intros l f t' H1 H2 H3 r g names Hr. destruct (Fi1 l f t' H1 H2 H3 r g names Hr) as [A1 A2]. destruct (Fi' l f t' H1 H2 H3 r g names Hr) as [B1 B2]. split.
        * intros [[[<-|K] K2] Hn].
          { rewrite B2 by (intros [[C _] _]; specialize (FA l0 C); lia). apply A1. split; [split; [reflexivity|apply arange_in; exact H2]|exact Hn]. }
          apply B1. auto.
        * intros K. rewrite B2 by (intros [[C1 C2] C3]; apply K; split; [split; [right; exact C1|exact C2]|exact C3]).
          apply A2. intros [[-> C2] C3]. apply K. split; [split; [left; reflexivity|exact Hlt]|exact C3].
  Qed.
End Data.
