(** C98: a transfer function depends on its own channels only. *)
From Coq Require Import String.
From Verif Require Import Base.Prelude Base.Rounding Base.ListUtil Base.NdArray Base.Cplx Model.Sampling Model.Time Model.Decimate Model.Window Model.Spectra
  Model.Calibrate Model.Gather Model.Regression Model.Pipeline Spec.Time Spec.Pipeline Spec.Gather Spec.OwnChans
  Proofs.TimeMeta Proofs.TimeData Proofs.TimeData2 Proofs.TimeProc Proofs.WindowRun Proofs.Spectra Proofs.GatherData Proofs.PipelineShape Proofs.PipelineFinal Proofs.Linear.
From Verif Require Proofs.CalibrateFinal Proofs.Calibrate Proofs.Later.
Open Scope list_scope. Open Scope Q_scope.

(** rows of two recordings *)
Definition core (cs ca cb : list chan) (ra rb : list (list cell)) (N : nat) : Prop :=
  NoDup ca /\ NoDup cb /\ length ra = length ca /\ length rb = length cb /\ ra <> [] /\ rb <> [] /\
  (forall r, In r ra -> length r = N) /\ (forall r, In r rb -> length r = N) /\
  forall c, In c cs -> exists i j r, nth_error ca i = Some c /\ nth_error ra i = Some r /\ nth_error cb j = Some c /\ nth_error rb j = Some r.
Lemma nonempty_len {A} (l l' : list A) : length l' = length l -> l <> [] -> l' <> [].
Proof. intros E N ->. destruct l; [congruence|discriminate]. Qed.
Lemma core_step cs ca cb ra rb N ra' rb' N' : core cs ca cb ra rb N -> length ra' = length ra -> length rb' = length rb ->
  (forall r, In r ra' -> length r = N') -> (forall r, In r rb' -> length r = N') ->
  (forall c i j r, In c cs -> nth_error ca i = Some c -> nth_error ra i = Some r -> nth_error cb j = Some c -> nth_error rb j = Some r ->
     exists r', nth_error ra' i = Some r' /\ nth_error rb' j = Some r') -> core cs ca cb ra' rb' N'.
Proof.
  intros (C1 & C2 & C3 & C4 & C5 & C6 & C7 & C8 & C9) L1 L2 A B H. unfold core. repeat (split; [try assumption; try congruence; try (eapply nonempty_len; eassumption)|]).
  intros c Hc. destruct (C9 c Hc) as (i & j & r & E1 & E2 & E3 & E4). destruct (H c i j r Hc E1 E2 E3 E4) as (r' & F1 & F2). exists i, j, r'. auto.
Qed.
Lemma core_width cs ca cb ra rb N : core cs ca cb ra rb N -> width ra = Z.of_nat N /\ width rb = Z.of_nat N.
Proof.
  intros (_ & _ & _ & _ & C5 & C6 & C7 & C8 & _). destruct ra as [|x ra], rb as [|y rb]; try congruence. cbn [width]. rewrite (C7 x (or_introl eq_refl)), (C8 y (or_introl eq_refl)). auto.
Qed.
Lemma mapM_row {A B} (T : A -> res B) l l' i r : mapM T l = Ok l' -> nth_error l i = Some r -> exists r', T r = Ok r' /\ nth_error l' i = Some r'.
Proof. intros H E. apply mapM_ok in H. destruct (Forall2_nth_error _ _ _ _ _ H E) as (y & F & G). exists y. auto. Qed.
Lemma mapM_len {A B} (T : A -> res B) l l' : mapM T l = Ok l' -> length l' = length l.
Proof. intros H. apply mapM_ok in H. symmetry. exact (Forall2_length' _ _ _ H). Qed.
(** a routine on each row, whose length is a function of the length *)
Lemma core_mapM cs ca cb ra rb N ra' rb' N' (T : list cell -> res (list cell)) : core cs ca cb ra rb N ->
  (forall x y, T x = Ok y -> length x = N -> length y = N') -> mapM T ra = Ok ra' -> mapM T rb = Ok rb' -> core cs ca cb ra' rb' N'.
Proof.
  intros C LT A B. pose proof C as (_ & _ & _ & _ & _ & _ & C7 & C8 & _).
  assert (X : forall l l', mapM T l = Ok l' -> (forall r, In r l -> length r = N) -> forall r, In r l' -> length r = N').
  { intros l l' H K r Hr. apply In_nth_error in Hr. destruct Hr as [i Hi]. apply mapM_ok in H. destruct (Forall2_nth_error_r _ _ _ _ _ H Hi) as (x & Ex & Tx). apply (LT x r Tx), K. eapply nth_error_In, Ex. }
  apply (core_step _ _ _ _ _ _ _ _ N' C (mapM_len _ _ _ A) (mapM_len _ _ _ B)); [exact (X _ _ A C7)|exact (X _ _ B C8)|].
  intros c i j r _ _ E2 _ E4. destruct (mapM_row _ _ _ _ _ A E2) as (r' & T1 & F1). destruct (mapM_row _ _ _ _ _ B E4) as (r2 & T2 & F2). exists r'. split; [exact F1|]. congruence.
Qed.
Lemma core_map cs ca cb ra rb N N' (g : list cell -> list cell) : core cs ca cb ra rb N -> (forall x, length x = N -> length (g x) = N') -> core cs ca cb (map g ra) (map g rb) N'.
Proof.
  intros C LT. apply (core_mapM cs ca cb ra rb N _ _ N' (fun x => Ok (g x)) C).
  - intros x y [= <-]. apply LT.
  - clear. induction ra as [|x l IH]; cbn; [reflexivity|]. rewrite IH. reflexivity.
  - clear. induction rb as [|x l IH]; cbn; [reflexivity|]. rewrite IH. reflexivity.
Qed.

Definition twin cs (a b : tdata) N : Prop :=
  fs (meta b) = fs (meta a) /\ n_samples (meta b) = n_samples (meta a) /\ first_time (meta b) = first_time (meta a) /\ last_time (meta b) = last_time (meta a) /\
  core cs (chans (meta a)) (chans (meta b)) (rows a) (rows b) N.
Lemma twin_agree cs a b : agree_on cs a b <-> exists N, twin cs a b N.
Proof.
  split.
  - intros (E1 & E2 & E3 & E4 & (n & (A1 & A2 & A3 & A4) & (B1 & B2 & B3 & B4)) & S). exists n. unfold twin, core. repeat (split; [assumption|]). exact S.
  - intros (n & E1 & E2 & E3 & E4 & C1 & C2 & C3 & C4 & C5 & C6 & C7 & C8 & C9). unfold agree_on, tidy. repeat (split; [assumption|]). split; [|exact C9]. exists n. split; repeat (split; [assumption|]); assumption.
Qed.

Section Time.
  Variables (rnd drnd : Q -> Q) (orc : oracles).
  Hypothesis GO : good_oracles orc.
  Variable cs : list chan.

  Lemma twin_keep a b N da db N' ra rb : twin cs a b N -> core cs (chans (meta a)) (chans (meta b)) da db N' ->
    twin cs (new_time_data a None (Some da) (Some ra)) (new_time_data b None (Some db) (Some rb)) N'.
  Proof. intros (E1 & E2 & E3 & E4 & _) C. unfold twin, new_time_data, with_history. cbn. auto. Qed.
  Lemma twin_adjust a b N da db N' ra rb f n t : twin cs a b N -> core cs (chans (meta a)) (chans (meta b)) da db N' ->
    twin cs (new_time_data a (Some (adjust_time_metadata rnd (meta a) f t n)) (Some da) (Some ra)) (new_time_data b (Some (adjust_time_metadata rnd (meta b) f t n)) (Some db) (Some rb)) N'.
  Proof. intros (E1 & E2 & E3 & E4 & _) C. unfold twin, new_time_data, adjust_time_metadata, with_history. cbn. auto. Qed.

  Lemma slice_len {A} x y (l l' : list A) : length l' = length l -> length (slice x y l') = length (slice x y l).
  Proof. intros E. unfold slice. rewrite !firstn_length, !skipn_length, E. reflexivity. Qed.
  Lemma steps_core ca cb fs : forall ra rb N ra' rb', core cs ca cb ra rb N -> decimate_steps orc fs ra = Ok ra' -> decimate_steps orc fs rb = Ok rb' -> exists N', core cs ca cb ra' rb' N'.
  Proof.
    induction fs as [|f fs IH]; intros ra rb N ra' rb' C A B; cbn [decimate_steps] in A, B; [injection A as <-; injection B as <-; eauto|].
    destruct (f =? 1)%Z; [eauto|]. apply bind_ok in A. destruct A as (d & A1 & A2). apply bind_ok in B. destruct B as (e & B1 & B2).
    eapply (IH d e); [|exact A2|exact B2]. eapply (core_mapM _ _ _ _ _ _ _ _ (Z.to_nat ((Z.of_nat N + f - 1) / f))); [exact C| |exact A1|exact B1].
    intros x y T L. destruct (go_decimate _ GO _ _ _ T) as [_ E]. rewrite L in E. lia.
  Qed.
  Lemma fill_from_len pts l : forall z l', fill_from pts z l = Ok l' -> length l' = length l.
  Proof.
    induction l as [|[v|] l IH]; intros z l' H; cbn [fill_from] in H.
    - injection H as <-. reflexivity.
    - apply bind_ok in H. destruct H as (r & H1 & H). injection H as <-. cbn. rewrite (IH _ _ H1). reflexivity.
    - apply bind_ok in H. destruct H as (v & _ & H). apply bind_ok in H. destruct H as (r & H1 & H). injection H as <-. cbn. rewrite (IH _ _ H1). reflexivity.
  Qed.
  Lemma interp_len l l' : interpolate_nans_chan l = Ok l' -> length l' = length l.
  Proof. unfold interpolate_nans_chan. destruct (existsb is_nan l); [|congruence]. apply fill_from_len. Qed.
  Lemma rowwise_row op d vs d' i r : Time.rowwise op d vs = Ok d' -> nth_error d i = Some r -> exists v, nth_error vs i = Some v /\ nth_error d' i = Some (map (fun x => op x (Some v)) r).
  Proof.
    unfold Time.rowwise. destruct (Nat.eqb _ _) eqn:E; [|discriminate]. apply Nat.eqb_eq in E. intros [= <-] H.
    destruct (nth_error vs i) as [v|] eqn:V. 2:{ apply nth_error_None in V. assert (i < length d)%nat by (apply nth_error_Some; congruence). lia. }
    exists v. split; [reflexivity|]. rewrite nth_error_map. assert (X : nth_error (combine d vs) i = Some (r, v)).
    { clear E. revert i vs H V. induction d as [|x d IH]; intros [|i] [|y vs] H V; cbn in *; try discriminate; [congruence|]. apply IH; assumption. }
    rewrite X. reflexivity.
  Qed.
  Lemma rowwise_lens op d vs d' N : Time.rowwise op d vs = Ok d' -> (forall r, In r d -> length r = N) -> length d' = length d /\ forall r, In r d' -> length r = N.
  Proof.
    unfold Time.rowwise. destruct (Nat.eqb _ _) eqn:E; [|discriminate]. apply Nat.eqb_eq in E. intros [= <-] H. rewrite map_length, combine_length, E, Nat.min_id. split; [reflexivity|].
    intros r Hr. apply in_map_iff in Hr. destruct Hr as ([x v] & <- & Hx). cbn [fst snd]. rewrite map_length. apply H. apply in_combine_l in Hx. exact Hx.
  Qed.
  (** one value per row, the same for a channel in both *)
  Lemma core_rowwise ca cb ra rb N op va vb ra' rb' : core cs ca cb ra rb N -> Time.rowwise op ra va = Ok ra' -> Time.rowwise op rb vb = Ok rb' ->
    (forall c i j, In c cs -> nth_error ca i = Some c -> nth_error cb j = Some c -> nth_error va i = nth_error vb j) -> core cs ca cb ra' rb' N.
  Proof.
    intros C A B V. pose proof C as (_ & _ & _ & _ & _ & _ & C7 & C8 & _). destruct (rowwise_lens _ _ _ _ N A C7) as [L1 L2]. destruct (rowwise_lens _ _ _ _ N B C8) as [L3 L4].
    apply (core_step _ _ _ _ _ _ _ _ N C L1 L3 L2 L4). intros c i j r Hc E1 E2 E3 E4. destruct (rowwise_row _ _ _ _ _ _ A E2) as (v & V1 & V2). destruct (rowwise_row _ _ _ _ _ _ B E4) as (v' & V1' & V2').
    pose proof (V c i j Hc E1 E3) as E. rewrite V1, V1' in E. injection E as <-. eexists. split; [exact V2|exact V2'].
  Qed.
  Lemma fill_twin ca cb d x na nb va vb c i j : NoDup ca -> NoDup cb -> fill_arg ca ca d (repeat x na) = Ok va -> fill_arg cb cb d (repeat x nb) = Ok vb ->
    (length ca <= na)%nat -> (length cb <= nb)%nat -> nth_error ca i = Some c -> nth_error cb j = Some c -> nth_error va i = nth_error vb j.
  Proof.
    intros NA NB A B La Lb E F. destruct (fill_arg_spec _ _ _ _ _ NA NA (fun _ H => H) A) as [_ SA]. destruct (fill_arg_spec _ _ _ _ _ NB NB (fun _ H => H) B) as [_ SB].
    rewrite (SA _ _ E), (SB _ _ F). assert (X : forall (l : list chan) n k, nth_error l k = Some c -> (length l <= n)%nat -> nth_error (repeat x n) k = Some x).
    { intros l n k H L. assert (k < length l)%nat by (apply nth_error_Some; congruence). rewrite nth_error_repeat by lia. reflexivity. }
    rewrite (X _ _ _ E La), (X _ _ _ F Lb). rewrite (proj2 (chan_in_iff _ _) (nth_error_In _ _ E)), (proj2 (chan_in_iff _ _) (nth_error_In _ _ F)). reflexivity.
  Qed.

  Lemma rows_len {N} (d : list (list cell)) : (forall r, In r d -> length r = N) -> rows_ok (Z.of_nat N) (length d) d.
  Proof. intros H. split; [reflexivity|]. intros r Hr. rewrite (H r Hr). reflexivity. Qed.
  Lemma interp_core ca cb ra rb N ra' rb' : core cs ca cb ra rb N -> interp_rows ca ca ra = Ok ra' -> interp_rows cb cb rb = Ok rb' -> core cs ca cb ra' rb' N.
  Proof.
    intros C A B. pose proof C as (C1 & C2 & C3 & C4 & C5 & C6 & C7 & C8 & _).
    destruct (interp_rows_spec _ _ _ _ C1 (fun _ H => H) C1 A) as [L1 S1]. destruct (interp_rows_spec _ _ _ _ C2 (fun _ H => H) C2 B) as [L2 S2].
    destruct (interp_rows_ok _ _ _ _ _ _ (rows_len _ C7) A) as [_ R1]. destruct (interp_rows_ok _ _ _ _ _ _ (rows_len _ C8) B) as [_ R2].
    apply (core_step _ _ _ _ _ _ _ _ N C L1 L2); [intros r Hr; specialize (R1 r Hr); lia|intros r Hr; specialize (R2 r Hr); lia|].
    intros c i j r Hc E1 E2 E3 E4. destruct (S1 _ _ E2) as (r1 & F1 & [(x & _ & _ & G1)|[G1 _]]). 2:{ exfalso. exact (G1 c E1 (nth_error_In _ _ E1)). }
    destruct (S2 _ _ E4) as (r2 & F2 & [(y & _ & _ & G2)|[G2 _]]). 2:{ exfalso. exact (G2 c E3 (nth_error_In _ _ E3)). }
    exists r1. split; [exact F1|congruence].
  Qed.
  Lemma empty_lens d N : (forall r, In r d -> length r = N) -> length (np_empty orc d) = length d /\ forall r, In r (np_empty orc d) -> length r = N.
  Proof.
    intros H. unfold np_empty. rewrite map_length, seq_length. split; [reflexivity|]. intros r Hr. apply in_map_iff in Hr. destruct Hr as (i & <- & Hi). apply in_seq in Hi.
    rewrite map_length, seq_length. apply H, nth_In. lia.
  Qed.
  Lemma lookup_named {A} c (d : list (chan * A)) : In c (map fst d) -> lookup c d <> None.
  Proof.
    induction d as [|[k v] d IH]; cbn [map fst In lookup]; [easy|]. destruct (String.eqb_spec k c) as [E|E]; cbn; intros H F; try discriminate. destruct H as [H|H]; [congruence|]. exact (IH H F).
  Qed.
  Lemma apply_core a b N fncs ra rb : twin cs a b N -> NoDup (map fst fncs) -> (forall c, In c cs -> In c (map fst fncs)) ->
    apply_rows a fncs (np_empty orc (rows a)) = Ok ra -> apply_rows b fncs (np_empty orc (rows b)) = Ok rb -> core cs (chans (meta a)) (chans (meta b)) ra rb N.
  Proof.
    intros (_ & _ & _ & _ & C) ND NM A B. pose proof C as (C1 & C2 & C3 & C4 & C5 & C6 & C7 & C8 & _). destruct (empty_lens _ _ C7) as [L1 M1]. destruct (empty_lens _ _ C8) as [L2 M2].
    destruct (apply_rows_spec _ _ _ _ C1 ND C3 L1 A) as [LA SA]. destruct (apply_rows_spec _ _ _ _ C2 ND C4 L2 B) as [LB SB].
    assert (R1 : rows_ok (Z.of_nat N) (length (rows a)) ra). { eapply apply_rows_ok; [intros r Hr; rewrite (C7 r Hr); reflexivity| |reflexivity|exact A]. rewrite <- L1. apply rows_len, M1. }
    assert (R2 : rows_ok (Z.of_nat N) (length (rows b)) rb). { eapply apply_rows_ok; [intros r Hr; rewrite (C8 r Hr); reflexivity| |reflexivity|exact B]. rewrite <- L2. apply rows_len, M2. }
    destruct R1 as [_ R1], R2 as [_ R2].
    apply (core_step _ _ _ _ _ _ _ _ N C); [congruence|congruence|intros r Hr; specialize (R1 r Hr); lia|intros r Hr; specialize (R2 r Hr); lia|].
    intros c i j r Hc E1 E2 E3 E4. rewrite (SA _ _ _ E1 E2), (SB _ _ _ E3 E4). destruct (lookup c fncs) as [f|] eqn:F; [eauto|]. exfalso. exact (lookup_named _ _ (NM c Hc) F).
  Qed.
  Lemma dict_core a b N op (x : Q) d va vb ra rb : twin cs a b N ->
    fill_arg (chans (meta a)) (chans (meta a)) d (repeat x (Z.to_nat (n_chans (meta a)))) = Ok va -> fill_arg (chans (meta b)) (chans (meta b)) d (repeat x (Z.to_nat (n_chans (meta b)))) = Ok vb ->
    Time.rowwise op (rows a) va = Ok ra -> Time.rowwise op (rows b) vb = Ok rb -> core cs (chans (meta a)) (chans (meta b)) ra rb N.
  Proof.
    intros (_ & _ & _ & _ & C) A B RA RB. pose proof C as (C1 & C2 & C3 & C4 & _). apply (core_rowwise _ _ _ _ _ _ _ _ _ _ C RA RB). intros c i j _ E F.
    assert (LA : (length (chans (meta a)) <= Z.to_nat (n_chans (meta a)))%nat).
    { destruct (fill_arg_spec _ _ _ _ _ C1 C1 (fun _ H => H) A) as [L _]. rewrite repeat_length in L. unfold Time.rowwise in RA. destruct (Nat.eqb_spec (length (rows a)) (length va)); [lia|discriminate]. }
    assert (LB : (length (chans (meta b)) <= Z.to_nat (n_chans (meta b)))%nat).
    { destruct (fill_arg_spec _ _ _ _ _ C2 C2 (fun _ H => H) B) as [L _]. rewrite repeat_length in L. unfold Time.rowwise in RB. destruct (Nat.eqb_spec (length (rows b)) (length vb)); [lia|discriminate]. }
    exact (fill_twin _ _ _ _ _ _ _ _ _ _ _ C1 C2 A B LA LB E F).
  Qed.
  Lemma scalar_core a b N op (x : Q) ra rb : twin cs a b N ->
    Time.rowwise op (rows a) (repeat x (Z.to_nat (n_chans (meta a)))) = Ok ra -> Time.rowwise op (rows b) (repeat x (Z.to_nat (n_chans (meta b)))) = Ok rb -> core cs (chans (meta a)) (chans (meta b)) ra rb N.
  Proof.
    intros (_ & _ & _ & _ & C) RA RB. pose proof C as (C1 & C2 & C3 & C4 & _). apply (core_rowwise _ _ _ _ _ _ _ _ _ _ C RA RB). intros c i j _ E F.
    unfold Time.rowwise in RA, RB. rewrite repeat_length in RA, RB. destruct (Nat.eqb_spec (length (rows a)) (Z.to_nat (n_chans (meta a)))); [|discriminate]. destruct (Nat.eqb_spec (length (rows b)) (Z.to_nat (n_chans (meta b)))); [|discriminate].
    assert (i < length (chans (meta a)))%nat by (apply nth_error_Some; congruence). assert (j < length (chans (meta b)))%nat by (apply nth_error_Some; congruence).
    unfold chan in *. rewrite !nth_error_repeat by lia. reflexivity.
  Qed.
  Lemma map_rep {A B} (f : A -> B) x n : map f (repeat x n) = repeat (f x) n.
  Proof. induction n; cbn; congruence. Qed.
  Lemma filter_twin t o cut p a b N a' b' ca : twin cs a b N -> cut = ca -> filter_run orc t o cut p a = Ok a' -> filter_run orc t o ca p b = Ok b' -> exists N', twin cs a' b' N'.
  Proof.
    intros T -> A B. unfold filter_run in A, B. destruct ca as [c|e]; [|discriminate]. cbn [bind] in A, B. apply bind_ok in A. destruct A as (da & A1 & A). apply bind_ok in B. destruct B as (db & B1 & B).
    injection A as <-. injection B as <-. exists N. eapply twin_keep; [exact T|]. destruct T as (_ & _ & _ & _ & C). eapply core_mapM; [exact C| |exact A1|exact B1].
    intros x y F L. rewrite (go_filter _ GO _ _ _ _ _ F). exact L.
  Qed.

  Theorem run_twin p a b N a' b' : defines cs p -> twin cs a b N -> run rnd drnd orc p a = Ok a' -> run rnd drnd orc p b = Ok b' -> exists N', twin cs a' b' N'.
  Proof.
    intros D T A B. pose proof T as (E1 & E2 & E3 & E4 & C). destruct p; cbn [run] in A, B.
    - unfold subsection in A, B. rewrite E1, E3, E4 in B. destruct (datetimes_to_samples rnd (fs (meta a)) (first_time (meta a)) (last_time (meta a)) from_time to_time) as [[x y]|]; [|discriminate]. cbn [bind] in A, B.
      destruct (samples_to_datetimes rnd (fs (meta a)) (first_time (meta a)) x y) as [[f g]|]; [|discriminate]. cbn [bind] in A, B. injection A as <-. injection B as <-. exists (length (slice x (y + 1) (repeat (None : cell) N))). eapply twin_adjust; [exact T|].
      apply (core_map _ _ _ _ _ N); [exact C|]. intros z L. apply slice_len. rewrite repeat_length. exact L.
    - unfold interpolate_nans in A, B. apply bind_ok in A. destruct A as (da & A1 & A). apply bind_ok in B. destruct B as (db & B1 & B). injection A as <-. injection B as <-. exists N. eapply twin_keep; [exact T|]. exact (interp_core _ _ _ _ _ _ _ C A1 B1).
    - unfold remove_mean in A, B. injection A as <-. injection B as <-. exists N. eapply twin_keep; [exact T|]. apply (core_map _ _ _ _ _ N _ _ C). intros x L. rewrite map_length. exact L.
    - unfold add in A, B. apply bind_ok in A. destruct A as (va & A1 & A). apply bind_ok in A. destruct A as (da & A2 & A). apply bind_ok in B. destruct B as (vb & B1 & B). apply bind_ok in B. destruct B as (db & B2 & B).
      injection A as <-. injection B as <-. exists N. eapply twin_keep; [exact T|]. destruct a0 as [v|d]; cbn [get_add] in A1, B1.
      + injection A1 as <-. injection B1 as <-. rewrite map_rep in A2, B2. exact (scalar_core _ _ _ _ _ _ _ T A2 B2).
      + exact (dict_core _ _ _ _ _ _ _ _ _ _ T A1 B1 A2 B2).
    - unfold multiply in A, B. apply bind_ok in A. destruct A as (va & A1 & A). apply bind_ok in A. destruct A as (da & A2 & A). apply bind_ok in B. destruct B as (vb & B1 & B). apply bind_ok in B. destruct B as (db & B2 & B).
      injection A as <-. injection B as <-. exists N. eapply twin_keep; [exact T|]. destruct a0 as [v|d]; cbn [get_mult] in A1, B1.
      + injection A1 as <-. injection B1 as <-. rewrite map_rep in A2, B2. exact (scalar_core _ _ _ _ _ _ _ T A2 B2).
      + exact (dict_core _ _ _ _ _ _ _ _ _ _ T A1 B1 A2 B2).
    - eapply filter_twin; [exact T| |exact A|exact B]. unfold lowpass_cutoffs, nyquist. rewrite E1. reflexivity.
    - eapply filter_twin; [exact T| |exact A|exact B]. unfold highpass_cutoffs, nyquist. rewrite E1. reflexivity.
    - eapply filter_twin; [exact T| |exact A|exact B]. unfold bandpass_cutoffs, nyquist. rewrite E1. reflexivity.
    - eapply filter_twin; [exact T| |exact A|exact B]. unfold notch_cutoffs, nyquist. rewrite E1. reflexivity.
    - unfold resample in A, B. rewrite E1, E3 in B. apply bind_ok in A. destruct A as (da & A1 & A). apply bind_ok in B. destruct B as (db & B1 & B).
      set (fr := Qred (o_limit_denominator orc (rnd (new_fs / fs (meta a))))) in *.
      assert (C' : core cs (chans (meta a)) (chans (meta b)) da db (Z.to_nat ((Z.of_nat N * Qnum fr + Z.pos (Qden fr) - 1) / Z.pos (Qden fr)))).
      { eapply core_mapM; [exact C| |exact A1|exact B1]. intros x y F L. destruct (go_resample _ GO _ _ _ _ F) as (_ & _ & G). rewrite L in G. rewrite <- G. lia. }
      injection A as <-. injection B as <-. destruct (core_width _ _ _ _ _ _ C') as [W1 W2]. rewrite W1, W2. eexists. eapply twin_adjust; [exact T|exact C'].
    - unfold decimate in A, B. rewrite E1, E3 in B. apply bind_ok in A. destruct A as (da & A1 & A). apply bind_ok in B. destruct B as (db & B1 & B).
      destruct (steps_core _ _ _ _ _ _ _ _ C A1 B1) as (N' & C'). injection A as <-. injection B as <-. destruct (core_width _ _ _ _ _ _ C') as [W1 W2]. rewrite W1, W2. eexists. eapply twin_adjust; [exact T|exact C'].
    - unfold shift_timestamps, dt in A, B. rewrite E1, E2, E3 in B. destruct (Qle_bool (rnd (1 / fs (meta a))) shift); [discriminate|]. destruct (n_samples (meta a) <? 2)%Z; [discriminate|]. injection A as <-. injection B as <-.
      eexists. eapply twin_adjust; [exact T|]. apply (core_map _ _ _ _ _ N _ _ C). intros x _. rewrite map_length. reflexivity.
    - unfold apply_function in A, B. cbn [defines] in D. destruct D as [D1 D2]. apply bind_ok in A. destruct A as (da & A1 & A). apply bind_ok in B. destruct B as (db & B1 & B). injection A as <-. injection B as <-. exists N. eapply twin_keep; [exact T|]. exact (apply_core _ _ _ _ _ _ T D1 D2 A1 B1).
  Qed.
  Theorem run_all_twin ps : forall a b N a' b', Forall (defines cs) ps -> twin cs a b N -> run_all rnd drnd orc ps a = Ok a' -> run_all rnd drnd orc ps b = Ok b' -> exists N', twin cs a' b' N'.
  Proof.
    induction ps as [|p ps IH]; intros a b N a' b' D T A B; cbn [run_all] in A, B; [injection A as <-; injection B as <-; eauto|].
    apply bind_ok in A. destruct A as (a1 & A1 & A). apply bind_ok in B. destruct B as (b1 & B1 & B). inversion D; subst. destruct (run_twin _ _ _ _ _ _ H1 T A1 B1) as (N' & T'). eapply IH; eassumption.
  Qed.
End Time.


Section Levels.
  Variables (rnd : Q -> Q) (orc : oracles).
  Hypothesis GO : good_oracles orc.
  Variable cs : list chan.
  Lemma step_twin ur maxf f a b N a' b' : twin cs a b N -> dec_step rnd orc ur maxf a f = Ok a' -> dec_step rnd orc ur maxf b f = Ok b' -> exists N', twin cs a' b' N'.
  Proof.
    intros T A B. pose proof T as (E1 & _). unfold dec_step in A, B. rewrite E1 in B. destruct (f =? 1)%Z; [injection A as <-; injection B as <-; eauto|]. destruct ur.
    - destruct (f =? 0)%Z; [discriminate|]. exact (run_twin rnd (fun x => x) orc GO cs (PResample _) a b N a' b' I T A B).
    - destruct (f <? 1)%Z; [discriminate|]. exact (run_twin rnd (fun x => x) orc GO cs (PDecimate _ _) a b N a' b' I T A B).
  Qed.
  Lemma step_chans ur maxf f td td' : dec_step rnd orc ur maxf td f = Ok td' -> chans (meta td') = chans (meta td).
  Proof.
    intros H. unfold dec_step in H. destruct (f =? 1)%Z; [congruence|]. destruct ur.
    - destruct (f =? 0)%Z; [discriminate|]. unfold resample in H. apply bind_ok in H. destruct H as (d & _ & H). injection H as <-. reflexivity.
    - destruct (f <? 1)%Z; [discriminate|]. unfold decimate in H. apply bind_ok in H. destruct H as (d & _ & H). injection H as <-. reflexivity.
  Qed.
  Lemma loop_twin ur maxf ms incs : forall k a b N da la db lb, twin cs a b N -> dec_loop rnd orc ur maxf ms incs k a = Ok (da, la) -> dec_loop rnd orc ur maxf ms incs k b = Ok (db, lb) ->
    la = lb /\ Forall2 (fun p q => fst p = fst q /\ exists N, core cs (chans (meta a)) (chans (meta b)) (snd p) (snd q) N) da db.
  Proof.
    induction incs as [|f incs IH]; intros k a b N da la db lb T A B; cbn [dec_loop] in A, B; [injection A as <- <-; injection B as <- <-; split; [reflexivity|constructor]|].
    apply bind_ok in A. destruct A as (a1 & A1 & A). apply bind_ok in B. destruct B as (b1 & B1 & B). destruct (step_twin _ _ _ _ _ _ _ _ T A1 B1) as (N' & T').
    pose proof T' as (E1 & E2 & E3 & E4 & C). rewrite E2 in B. destruct (n_samples (meta a1) <? ms)%Z; [injection A as <- <-; injection B as <- <-; split; [reflexivity|constructor]|].
    apply bind_ok in A. destruct A as ([d l] & A2 & A). apply bind_ok in B. destruct B as ([d' l'] & B2 & B). injection A as <- <-. injection B as <- <-.
    destruct (IH _ _ _ _ _ _ _ _ T' A2 B2) as [-> F]. rewrite (step_chans _ _ _ _ _ A1), (step_chans _ _ _ _ _ B1) in F, C. split; [unfold level_of; congruence|].
    constructor; [split; [reflexivity|]; cbn [snd]; eauto|exact F].
  Qed.
  Lemma find_both {X Y} (P : X -> Y -> Prop) l : forall da db, Forall2 (fun p q => fst p = fst q /\ P (snd p) (snd q)) da db -> forall x y kx ky,
    find (fun kv : Z * X => Z.eqb (fst kv) l) da = Some (kx, x) -> find (fun kv : Z * Y => Z.eqb (fst kv) l) db = Some (ky, y) -> P x y.
  Proof.
    induction 1 as [|[u v] [u' v'] da db [E K] F IH]; intros x y kx ky A B; cbn [find fst snd] in *; [discriminate|]. subst u'. destruct (Z.eqb u l); [|eauto]. injection A as _ <-. injection B as _ <-. exact K.
  Qed.
  Definition dtwin (a b : dec_data) : Prop := dd_fs b = dd_fs a /\ dd_n_levels b = dd_n_levels a /\ dd_levels_md b = dd_levels_md a /\
    forall l x y, get_level a l = Ok x -> get_level b l = Ok y -> exists N, core cs (dd_chans a) (dd_chans b) x y N.
  Lemma decimator_twin ur maxf p a b N da db : twin cs a b N -> decimator_run rnd orc ur maxf p a = Ok da -> decimator_run rnd orc ur maxf p b = Ok db -> dtwin da db.
  Proof.
    intros T A B. unfold decimator_run in A, B. apply bind_ok in A. destruct A as ([xa la] & A1 & A). apply bind_ok in B. destruct B as ([xb lb] & B1 & B).
    destruct (loop_twin _ _ _ _ _ _ _ _ _ _ _ _ T A1 B1) as [<- F]. destruct xa as [|ha ta]; [discriminate|]. destruct xb as [|hb tb]; [discriminate|]. injection A as <-. injection B as <-.
    unfold dtwin. cbn [dd_fs dd_n_levels dd_levels_md dd_chans]. do 3 (split; [reflexivity|]). intros l x y HA HB. unfold get_level in HA, HB. cbn [dd_n_levels dd_data] in HA, HB. destruct (_ >=? _)%Z; [discriminate|].
    destruct (find _ (ha :: ta)) as [[ka xa]|] eqn:FA; [|discriminate]. destruct (find _ (hb :: tb)) as [[kb xb]|] eqn:FB; [|discriminate]. injection HA as <-. injection HB as <-.
    exact (find_both (fun x y => exists N, core cs (chans (meta a)) (chans (meta b)) x y N) l _ _ F _ _ _ _ FA FB).
  Qed.

  (** where a channel is in the one and in the other *)
  Definition places (ca cb : list chan) (i j : nat) : Prop := exists c, In c cs /\ nth_error ca i = Some c /\ nth_error cb j = Some c.
  Definition vsame {X} (R : nat -> nat -> Prop) (x y : nd X) : Prop := forall k i j, R i j -> nd_vec x [k; i] = nd_vec y [k; j].
  Lemma slice_map' {X Y} (f : X -> Y) u v w l : py_slice u v w (map f l) = bind (py_slice u v w l) (fun r => Ok (map f r)).
  Proof.
    unfold py_slice. rewrite map_length. destruct (w =? 0)%Z; [reflexivity|]. cbn [bind]. f_equal. induction (seq 0 _) as [|k ks IH]; [reflexivity|]. cbn [flat_map]. rewrite map_app, <- IH. f_equal.
    rewrite nth_error_map. destruct (nth_error l _); reflexivity.
  Qed.
  Lemma level_same ca cb la lb N m table w o x y : core cs ca cb la lb N -> rect la (lm_n_samples m) -> rect lb (lm_n_samples m) -> length la = length ca -> length lb = length cb -> (2 <= length ca)%nat -> (2 <= length cb)%nat ->
    (2 <= w /\ w <> lm_n_samples m)%Z -> get_level_data la table (Z.of_nat (length ca)) w o = Ok x -> get_level_data lb table (Z.of_nat (length cb)) w o = Ok y -> vsame (places ca cb) x y.
  Proof.
    intros C Ra Rb La Lb Ca Cb [W1 W2] A B. unfold get_level_data in A, B. destruct table as [|r0 tb] eqn:ET; [discriminate|]. rewrite <- ET in *.
    apply bind_ok in A. destruct A as (va & A1 & A). apply bind_ok in B. destruct B as (vb & B1 & B).
    assert (W4 : forall ld c v, rect ld (lm_n_samples m) -> c = Z.of_nat (length ld) -> (2 <= c)%Z -> sliding_window_view ld c w = Ok v -> (2 <= w < lm_n_samples m)%Z).
    { intros ld c v R Hc C2 H7. unfold sliding_window_view in H7. destruct (_ || _) eqn:E in H7; [discriminate|]. apply orb_false_elim in E. destruct E as [_ E].
      destruct ld as [|row ld]; [cbn in Hc; lia|]. cbn [width] in E. pose proof (R row (or_introl eq_refl)). lia. }
    unfold chan in *. assert (Wa : (2 <= w < lm_n_samples m)%Z) by (apply (W4 la (Z.of_nat (length ca)) va Ra); [lia|lia|exact A1]).
    rewrite (view_full la (Z.of_nat (length ca)) w _ va Ra ltac:(lia) ltac:(lia) Wa A1) in A. rewrite (view_full lb (Z.of_nat (length cb)) w _ vb Rb ltac:(lia) ltac:(lia) Wa B1) in B.
    rewrite slice_map' in A, B. destruct (py_slice _ _ _ (arange _)) as [ss|]; [|discriminate]. cbn [bind] in A, B. injection A as <-. injection B as <-.
    intros k i j (c & Hc & Pi & Pj). destruct C as (N1 & N2 & _ & _ & _ & _ & _ & _ & C9). destruct (C9 c Hc) as (i' & j' & r & E1 & E2 & E3 & E4).
    assert (i' = i) as -> by exact (nodup_index _ _ _ _ N1 E1 Pi). assert (j' = j) as -> by exact (nodup_index _ _ _ _ N2 E3 Pj).
    unfold nd_vec. cbn [nd_at nd_nth]. rewrite !nth_error_map. destruct (nth_error ss k) as [s|]; [|reflexivity]. cbn [option_map nd_at nd_nth]. rewrite !nth_error_map, E2, E4. reflexivity.
  Qed.
  Lemma windows_same nt ndl sizes check mn ref a b : dtwin a b -> levels_sized a -> levels_sized b -> (2 <= length (dd_chans a))%nat -> (2 <= length (dd_chans b))%nat ->
    (forall l m w o, (0 <= l)%Z -> nth_error (dd_levels_md a) (Z.to_nat l) = Some m -> sizes l m = Ok (w, o) -> (2 <= w /\ w <> lm_n_samples m)%Z) ->
    forall ls xa la xb lb, (forall l, In l ls -> (0 <= l)%Z) -> window_loop rnd nt ndl sizes check mn ref a ls = Ok (xa, la) -> window_loop rnd nt ndl sizes check mn ref b ls = Ok (xb, lb) ->
    la = lb /\ Forall2 (fun p q => fst p = fst q /\ vsame (places (dd_chans a) (dd_chans b)) (snd p) (snd q)) xa xb.
  Proof.
    intros (D1 & D2 & D3 & D4) SA SB Ca Cb HW. induction ls as [|l ls IH]; intros xa la xb lb HL A B; cbn [window_loop] in A, B; [injection A as <- <-; injection B as <- <-; split; [reflexivity|constructor]|].
    pose proof (HL l (or_introl eq_refl)) as L0. rewrite D3 in B. destruct (nth_error (dd_levels_md a) (Z.to_nat l)) as [m|] eqn:EM; [|discriminate]. cbn [bind] in A, B. destruct (sizes l m) as [[w o]|] eqn:ES; [|discriminate]. cbn [bind] in A, B.
    destruct (get_win_table rnd nt ndl ref m w o) as [table|]; [|discriminate]. cbn [bind] in A, B. cbv zeta in A, B. destruct (_ <? mn)%Z; [injection A as <- <-; injection B as <- <-; split; [reflexivity|constructor]|].
    apply bind_ok in A. destruct A as (da & A1 & A). apply bind_ok in A. destruct A as (x & A2 & A). apply bind_ok in A. destruct A as (ka & _ & A).
    apply bind_ok in B. destruct B as (db & B1 & B). apply bind_ok in B. destruct B as (y & B2 & B). apply bind_ok in B. destruct B as (kb & _ & B).
    destruct (check && _); [discriminate|]. destruct (check && _) in B; [discriminate|]. destruct (get_level_metadata m table w o) as [wl|]; [|discriminate]. cbn [bind] in A, B.
    apply bind_ok in A. destruct A as ([xs wls] & A3 & A). apply bind_ok in B. destruct B as ([ys wls'] & B3 & B). injection A as <- <-. injection B as <- <-.
    destruct (IH _ _ _ _ (fun l H => HL l (or_intror H)) A3 B3) as [-> F]. split; [reflexivity|]. constructor; [|exact F]. split; [reflexivity|]. cbn [snd].
    destruct (D4 _ _ _ A1 B1) as (N & C). pose proof EM as EMb. rewrite <- D3 in EMb. destruct (SA _ _ EM) as (da' & Ea & La & Ra). destruct (SB _ _ EMb) as (db' & Eb & Lb & Rb). rewrite Z2Nat.id in Ea, Eb by exact L0.
    assert (da' = da) as -> by congruence. assert (db' = db) as -> by congruence. exact (level_same _ _ _ _ _ _ _ _ _ _ _ C Ra Rb La Lb Ca Cb (HW _ _ _ _ L0 EM ES) A2 B2).
  Qed.
  Definition wtwin R (a b : win_data) : Prop := wd_n_levels b = wd_n_levels a /\ wd_levels b = wd_levels a /\ Forall2 (fun p q => fst p = fst q /\ vsame R (snd p) (snd q)) (wd_data a) (wd_data b).
  Lemma windower_twin nt ndl ref p a b wa wb : dtwin a b -> levels_sized a -> levels_sized b -> (2 <= length (dd_chans a))%nat -> (2 <= length (dd_chans b))%nat -> window_sizes_ok p a ->
    windower_run rnd nt ndl ref p a = Ok wa -> windower_run rnd nt ndl ref p b = Ok wb -> wtwin (places (dd_chans a) (dd_chans b)) wa wb /\ wd_chans wa = dd_chans a /\ wd_chans wb = dd_chans b.
  Proof.
    intros D SA SB Ca Cb WS A B. unfold windower_run in A, B. pose proof D as (_ & D2 & _). rewrite D2 in B. apply bind_ok in A. destruct A as ([xa la] & A1 & A). apply bind_ok in B. destruct B as ([xb lb] & B1 & B).
    assert (HW : forall l m w o, (0 <= l)%Z -> nth_error (dd_levels_md a) (Z.to_nat l) = Some m -> (w' <- wp_level p (wp_win_sizes p) l ;; o' <- wp_level p (wp_olap_sizes p) l ;; Ok (w', o')) = Ok (w, o) -> (2 <= w /\ w <> lm_n_samples m)%Z).
    { intros l m w o L0 E H. apply bind_ok in H. destruct H as (w' & H1 & H). apply bind_ok in H. destruct H as (o' & H2 & H). injection H as -> ->. apply wp_level_nth in H1. exact (WS _ _ _ E (proj1 H1)). }
    assert (HL : forall l, In l (arange (dd_n_levels a)) -> (0 <= l)%Z) by (intros l Hl; apply CalibrateFinal.arange_in in Hl; lia).
    destruct (windows_same nt ndl _ _ _ ref a b D SA SB Ca Cb HW _ _ _ _ _ HL A1 B1) as [<- F].
    unfold make_windowed in A, B. destruct xa; [discriminate|]. destruct xb; [discriminate|]. injection A as <-. injection B as <-. split; [|split; reflexivity]. split; [reflexivity|]. split; [reflexivity|exact F].
  Qed.
End Levels.


Section Spectra.
  Variable R : nat -> nat -> Prop.
  Lemma last_same {X Y} (f : list X -> res (list Y)) x y x' y' : vsame R x y -> nd_last f x = Ok x' -> nd_last f y = Ok y' -> vsame R x' y'.
  Proof.
    intros V A B k i j HR. specialize (V k i j HR). destruct (nd_vec x [k; i]) as [v|] eqn:E.
    - destruct (nd_last_vec f _ _ _ _ A E) as (w & F1 & ->). symmetry in V. destruct (nd_last_vec f _ _ _ _ B V) as (w' & F2 & ->). congruence.
    - destruct (nd_vec x' [k; i]) as [w|] eqn:F; [destruct (nd_last_vec_r f _ _ _ _ A F) as (v & _ & K); congruence|].
      destruct (nd_vec y' [k; j]) as [w|] eqn:G; [destruct (nd_last_vec_r f _ _ _ _ B G) as (v & _ & K); congruence|reflexivity].
  Qed.
  Definition psame {X} (p q : Z * nd X) : Prop := fst p = fst q /\ vsame R (snd p) (snd q).
  Lemma mapM_both {X Y Z} (f : X -> res Y) (g : X -> res Z) (P : Y -> Z -> Prop) l : (forall x u v, In x l -> f x = Ok u -> g x = Ok v -> P u v) ->
    forall r s, mapM f l = Ok r -> mapM g l = Ok s -> Forall2 P r s.
  Proof.
    induction l as [|x l IH]; intros H r s A B; cbn [mapM] in A, B; [injection A as <-; injection B as <-; constructor|].
    apply bind_ok in A. destruct A as (u & A1 & A). apply bind_ok in A. destruct A as (us & A2 & A). apply bind_ok in B. destruct B as (v & B1 & B). apply bind_ok in B. destruct B as (vs & B2 & B). injection A as <-. injection B as <-.
    constructor; [exact (H x u v (or_introl eq_refl) A1 B1)|]. apply IH; [intros; eapply H; [right; eassumption|eassumption|eassumption]|exact A2|exact B2].
  Qed.
  Definition stwin (a b : spec_data cq) : Prop := sm_n_levels (sd_md b) = sm_n_levels (sd_md a) /\ sm_levels (sd_md b) = sm_levels (sd_md a) /\ Forall2 psame (sd_data a) (sd_data b).
  Lemma at_same a b l x y : stwin a b -> sd_at a l = Ok x -> sd_at b l = Ok y -> vsame R x y.
  Proof.
    intros (_ & _ & F) A B. unfold sd_at in A, B. destruct (find _ (sd_data a)) as [[ka xa]|] eqn:FA; [|discriminate]. destruct (find _ (sd_data b)) as [[kb xb]|] eqn:FB; [|discriminate]. injection A as <-. injection B as <-.
    exact (find_both (vsame R) l _ _ F _ _ _ _ FA FB).
  Qed.
  Lemma split_pairs {X} (r s : list ((Z * nd X) * spec_level)) : Forall2 (fun u v => psame (fst u) (fst v) /\ snd u = snd v) r s -> Forall2 psame (map fst r) (map fst s) /\ map snd r = map snd s.
  Proof. induction 1 as [|u v r s [H1 H2] F [I1 I2]]; [split; [constructor|reflexivity]|]. cbn [map]. split; [constructor; assumption|congruence]. Qed.
  Lemma fourier_twin rnd nf T a b da db : wtwin R a b -> fourier_run rnd nf T a = Ok da -> fourier_run rnd nf T b = Ok db -> stwin da db /\ sm_chans (sd_md da) = wd_chans a /\ sm_chans (sd_md db) = wd_chans b.
  Proof.
    intros (W1 & W2 & W3) A B. unfold fourier_run in A, B. apply bind_ok in A. destruct A as (r & Ar & A). apply bind_ok in B. destruct B as (s & Bs & B). rewrite W1 in Bs. apply make_spec_ok in A. apply make_spec_ok in B. subst da db.
    assert (F : Forall2 (fun u v => psame (fst u) (fst v) /\ snd u = snd v) r s).
    { refine (mapM_both _ _ _ _ _ r s Ar Bs). intros l u v _ A B. unfold fourier_level in A, B. unfold wd_level_md in A, B. rewrite W2 in B. destruct (py_nth (wd_levels a) l) as [m|]; [|discriminate]. cbn [bind] in A, B. cbv zeta in A, B.
      destruct (rfft_freqs _ _ _) as [fr|]; [|discriminate]. cbn [bind] in A, B. apply bind_ok in A. destruct A as (x & A1 & A). apply bind_ok in A. destruct A as (x' & A2 & A). apply bind_ok in B. destruct B as (y & B1 & B). apply bind_ok in B. destruct B as (y' & B2 & B).
      injection A as <-. injection B as <-. split; [|reflexivity]. split; [reflexivity|]. cbn [snd fst]. refine (last_same _ _ _ _ _ _ A2 B2). unfold wd_get_level in A1, B1. rewrite W1 in B1. destruct (_ >=? _)%Z; [discriminate|].
      destruct (find _ (wd_data a)) as [[ka xa]|] eqn:FA; [|discriminate]. destruct (find _ (wd_data b)) as [[kb xb]|] eqn:FB; [|discriminate]. injection A1 as <-. injection B1 as <-. exact (find_both (vsame R) l _ _ W3 _ _ _ _ FA FB). }
    apply split_pairs in F. destruct F as [F1 F2]. split; [|split; reflexivity]. split; [exact W1|]. cbn [sd_md sm_levels sd_data]. split; [symmetry; exact F2|exact F1].
  Qed.
  Lemma smooth_twin name f a b a' b' g : (forall l, f l = g l) -> stwin a b -> smooth_run name f a = Ok a' -> smooth_run name g b = Ok b' -> stwin a' b' /\ sm_chans (sd_md a') = sm_chans (sd_md a) /\ sm_chans (sd_md b') = sm_chans (sd_md b).
  Proof.
    intros E S A B. pose proof S as (S1 & S2 & S3). unfold smooth_run in A, B. apply bind_ok in A. destruct A as (r & Ar & A). apply bind_ok in B. destruct B as (s & Bs & B). rewrite S1 in Bs. apply make_spec_ok in A. apply make_spec_ok in B. subst a' b'.
    split; [|split; reflexivity]. split; [exact S1|]. split; [exact S2|]. cbn [sd_data]. refine (mapM_both _ _ _ _ _ r s Ar Bs). intros l u v _ A B. rewrite <- E in B. destruct (f l) as [h|]; [|discriminate]. cbn [bind] in A, B.
    apply bind_ok in A. destruct A as (x & A1 & A). apply bind_ok in A. destruct A as (x' & A2 & A). apply bind_ok in B. destruct B as (y & B1 & B). apply bind_ok in B. destruct B as (y' & B2 & B). injection A as <-. injection B as <-.
    split; [reflexivity|]. cbn [snd]. refine (last_same _ _ _ _ _ _ A2 B2). exact (at_same _ _ _ _ _ S (get_level_at _ _ _ A1) (get_level_at _ _ _ B1)).
  Qed.
  Lemma sprocs_twin L ps : forall a b a' b', stwin a b -> run_sprocs L ps a = Ok a' -> run_sprocs L ps b = Ok b' -> stwin a' b' /\ sm_chans (sd_md a') = sm_chans (sd_md a) /\ sm_chans (sd_md b') = sm_chans (sd_md b).
  Proof.
    induction ps as [|p ps IH]; intros a b a' b' S A B; cbn [run_sprocs] in A, B; [injection A as <-; injection B as <-; auto|].
    apply bind_ok in A. destruct A as (a1 & A1 & A). apply bind_ok in B. destruct B as (b1 & B1 & B).
    assert (X : stwin a1 b1 /\ sm_chans (sd_md a1) = sm_chans (sd_md a) /\ sm_chans (sd_md b1) = sm_chans (sd_md b)).
    { destruct p; cbn [run_sproc] in A1, B1; (eapply smooth_twin; [|exact S|exact A1|exact B1]); cbv beta; intros l; [|reflexivity]. unfold sd_level_md. rewrite (proj1 (proj2 S)). reflexivity. }
    destruct X as (S' & C1 & C2). destruct (IH _ _ _ _ S' A B) as (K1 & K2 & K3). split; [exact K1|]. split; congruence.
  Qed.
  Lemma evals_twin p a b a' b' : stwin a b -> evals_run p a = Ok a' -> evals_run p b = Ok b' -> stwin a' b' /\ sm_chans (sd_md a') = sm_chans (sd_md a) /\ sm_chans (sd_md b') = sm_chans (sd_md b).
  Proof.
    intros S A B. pose proof S as (S1 & S2 & S3). unfold evals_run in A, B. apply bind_ok in A. destruct A as (r & Ar & A). apply bind_ok in B. destruct B as (s & Bs & B). rewrite S1 in Bs. cbv zeta in A, B. apply make_spec_ok in A. apply make_spec_ok in B. subst a' b'.
    assert (F : Forall2 (fun u v => psame (fst u) (fst v) /\ snd u = snd v) r s).
    { refine (mapM_both _ _ _ _ _ r s Ar Bs). intros l u v _ A B. unfold eval_level, sd_level_md in A, B. rewrite S2 in B. destruct (py_nth _ l) as [m|]; [|discriminate]. cbn [bind] in A, B. destruct (level_eval_freqs p l) as [ev|]; [|discriminate]. cbn [bind] in A, B.
      apply bind_ok in A. destruct A as (x & A1 & A). apply bind_ok in A. destruct A as (x' & A2 & A). apply bind_ok in B. destruct B as (y & B1 & B). apply bind_ok in B. destruct B as (y' & B2 & B). injection A as <-. injection B as <-.
      split; [|reflexivity]. split; [reflexivity|]. cbn [snd fst]. refine (last_same _ _ _ _ _ _ A2 B2). exact (at_same _ _ _ _ _ S (get_level_at _ _ _ A1) (get_level_at _ _ _ B1)). }
    apply split_pairs in F. destruct F as [F1 F2]. split; [|split; reflexivity]. split; [exact S1|]. cbn [sd_md sm_levels sd_data]. split; [symmetry; exact F2|exact F1].
  Qed.
End Spectra.

Lemma first_places cs ca cb ds is js : incl ds cs -> NoDup ca -> NoDup cb -> mapM (fun c => match first_index c ca with None => Err ChannelNotFoundError | Some i => Ok i end) ds = Ok is ->
  mapM (fun c => match first_index c cb with None => Err ChannelNotFoundError | Some i => Ok i end) ds = Ok js -> Forall2 (places cs ca cb) is js.
Proof.
  intros I _ _ A B. refine (mapM_both _ _ _ _ _ is js A B). intros c i j Hc E F. destruct (first_index c ca) as [i'|] eqn:Ei; [|discriminate]. destruct (first_index c cb) as [j'|] eqn:Ej; [|discriminate]. injection E as <-. injection F as <-.
  exists c. split; [exact (I c Hc)|]. split; [apply first_index_spec in Ei; apply Ei|apply first_index_spec in Ej; apply Ej].
Qed.

Section Whole.
  Variables (L : library) (c : config) (cs : list chan).
  Hypothesis GO : good_oracles (l_orc L).
  Lemma evals_agree ref a b pa pb ea eb : Forall (defines cs) (cf_time c) -> agree_on cs a b -> processable L c a -> processable L c b ->
    to_evals L c ref a = Ok (pa, ea) -> to_evals L c ref b = Ok (pb, eb) ->
    pa = pb /\ NoDup (sm_chans (sd_md ea)) /\ NoDup (sm_chans (sd_md eb)) /\ (forall x, In x cs -> In x (sm_chans (sd_md ea)) /\ In x (sm_chans (sd_md eb))) /\ stwin (places cs (sm_chans (sd_md ea)) (sm_chans (sd_md eb))) ea eb.
  Proof.
    intros HD HA (PT & _ & _ & KA) (_ & _ & _ & KB) A B. apply (proj1 (twin_agree _ _ _)) in HA. destruct HA as (N & T). unfold to_evals in A, B.
    apply bind_ok in A. destruct A as (a' & A1 & A). apply bind_ok in B. destruct B as (b' & B1 & B). destruct (run_all_twin _ _ _ GO cs _ _ _ _ _ _ HD T A1 B1) as (N' & T').
    pose proof T' as (E1 & _). rewrite E1 in B. apply bind_ok in A. destruct A as (p & A2 & A). rewrite A2 in B. cbn [bind] in B.
    apply bind_ok in A. destruct A as (da & A3 & A). apply bind_ok in B. destruct B as (db & B3 & B). pose proof (decimator_twin _ _ GO cs _ _ _ _ _ _ _ _ T' A3 B3) as DT. pose proof DT as (F1 & F2 & _).
    apply bind_ok in A. destruct A as (wa & A4 & A). apply bind_ok in B. destruct B as (wb & B4 & B). unfold run_windowing in A4, B4. rewrite PT in A4, B4. rewrite F1, F2 in B4. apply bind_ok in A4. destruct A4 as (wp & W1 & A4). rewrite W1 in B4. cbn [bind] in B4.
    destruct (KA a' p da wp A1 A2 A3 W1) as (C1 & _ & S1 & WS). rewrite <- E1 in A2. rewrite <- F1, <- F2 in W1. destruct (KB b' p db wp B1 A2 B3 W1) as (C2 & _ & S2 & _).
    assert (EA : dd_chans da = chans (meta a')). { unfold run_decimation, decimator_run in A3. apply bind_ok in A3. destruct A3 as ([dd ll] & _ & A3). destruct dd; [discriminate|]. injection A3 as <-. reflexivity. }
    assert (EB : dd_chans db = chans (meta b')). { unfold run_decimation, decimator_run in B3. apply bind_ok in B3. destruct B3 as ([dd ll] & _ & B3). destruct dd; [discriminate|]. injection B3 as <-. reflexivity. }
    rewrite <- EA in C1. rewrite <- EB in C2. destruct (windower_twin _ cs _ _ _ _ _ _ _ _ DT S1 S2 C1 C2 WS A4 B4) as (WT & CA & CB).
    apply bind_ok in A. destruct A as (fa & A5 & A). apply bind_ok in B. destruct B as (fb & B5 & B). destruct (fourier_twin _ _ _ _ _ _ _ _ WT A5 B5) as (ST & CA2 & CB2).
    apply bind_ok in A. destruct A as (ga & A6 & A). apply bind_ok in B. destruct B as (gb & B6 & B). destruct (sprocs_twin _ _ _ _ _ _ _ ST A6 B6) as (ST2 & CA3 & CB3).
    apply bind_ok in A. destruct A as (ha & A7 & A). apply bind_ok in B. destruct B as (hb & B7 & B). destruct (evals_twin _ _ _ _ _ _ ST2 A7 B7) as (ST3 & CA4 & CB4).
    injection A as <- <-. injection B as <- <-. assert (XA : sm_chans (sd_md ha) = dd_chans da) by congruence. assert (XB : sm_chans (sd_md hb) = dd_chans db) by congruence. rewrite XA, XB.
    destruct T' as (_ & _ & _ & _ & N1 & N2 & _ & _ & _ & _ & _ & _ & C9). rewrite EA, EB in *. split; [reflexivity|]. split; [exact N1|]. split; [exact N2|]. split; [|exact ST3].
    intros x Hx. destruct (C9 x Hx) as (i & j & r & P1 & _ & P2 & _). split; eapply nth_error_In; eassumption.
  Qed.
  Lemma chans_agree ref a b p ea eb l ds : Forall (defines cs) (cf_time c) -> agree_on cs a b -> processable L c a -> processable L c b ->
    to_evals L c ref a = Ok (p, ea) -> to_evals L c ref b = Ok (p, eb) -> incl ds cs -> (0 <= l < sm_n_levels (sd_md ea))%Z -> sd_get_chans eb l ds = sd_get_chans ea l ds.
  Proof.
    intros HD HA PA PB A B I Hl. destruct (evals_agree _ _ _ _ _ _ _ HD HA PA PB A B) as (_ & NA & NB & IN & ST). pose proof ST as (S1 & S2 & _).
    destruct (to_evals_evaluated _ _ _ _ _ _ PA A) as (ta & _ & _ & CA & LA & _ & (_ & _ & VA)). destruct (to_evals_evaluated _ _ _ _ _ _ PB B) as (tb & _ & _ & CB & LB & _ & (_ & _ & VB)).
    destruct (VA l Hl) as (ma & x & M1 & X1 & X2 & _ & X3 & _). rewrite <- S1 in Hl. destruct (VB l Hl) as (mb & y & M2 & Y1 & Y2 & _ & Y3 & _). assert (mb = ma) as -> by congruence.
    pose proof (at_same _ _ _ _ _ _ ST X1 Y1) as V. unfold sd_get_chans.
    assert (G : forall cx, (forall x, In x cs -> In x cx) -> exists is, mapM (fun c => match first_index c cx with None => Err ChannelNotFoundError | Some i => Ok i end) ds = Ok is).
    { intros cx Hcx. clear -I Hcx. induction ds as [|d ds IH]; [eexists; reflexivity|]. destruct (Calibrate.first_index_in d cx (Hcx _ (I _ (or_introl eq_refl)))) as (i & Ei & _). destruct (IH (fun z H => I z (or_intror H))) as (is & E).
      exists (i :: is). cbn [mapM]. rewrite Ei, E. reflexivity. }
    destruct (G (sm_chans (sd_md ea)) (fun z H => proj1 (IN z H))) as (is & Ei). destruct (G (sm_chans (sd_md eb)) (fun z H => proj2 (IN z H))) as (js & Ej). rewrite Ei, Ej. cbn [bind]. rewrite X1, Y1. cbn [bind].
    pose proof (first_places cs _ _ _ _ _ I NA NB Ei Ej) as PL. set (ca := sm_chans (sd_md ea)) in *. set (cb := sm_chans (sd_md eb)) in *.
    assert (KA : forall i, In i is -> (i < length ca)%nat). { intros i Hi. apply In_nth_error in Hi. destruct Hi as [k Hk]. destruct (Forall2_nth_error _ _ _ _ _ PL Hk) as (j & _ & (z & _ & P1 & _)). apply nth_error_Some. unfold chan in *. congruence. }
    assert (KB : forall j, In j js -> (j < length cb)%nat). { intros i Hi. apply In_nth_error in Hi. destruct Hi as [k Hk]. destruct (Forall2_nth_error_r _ _ _ _ _ PL Hk) as (j & _ & (z & _ & _ & P1)). apply nth_error_Some. unfold chan in *. congruence. }
    rewrite (nd_picks_nd3 is x (length ca)), (nd_picks_nd3 js y (length cb)); try assumption.
    - f_equal. f_equal. apply nth_error_ext'. intros k. rewrite !nth_error_map.
      assert (LL : length x = length y) by lia. destruct (nth_error x k) as [u|] eqn:Ux.
      2:{ apply nth_error_None in Ux. assert (Uy : nth_error y k = None) by (apply nth_error_None; lia). rewrite Uy. reflexivity. }
      destruct (nth_error y k) as [v|] eqn:Uy. 2:{ apply nth_error_None in Uy. assert (k < length x)%nat by (apply nth_error_Some; congruence). lia. }
      cbn [option_map]. f_equal. clear Ei Ej KA KB. induction PL as [|i j is js P PL IH]; [reflexivity|]. unfold picks. cbn [flat_map]. fold (picks is u). fold (picks js v). rewrite IH. f_equal.
      specialize (V k i j P). rewrite !nd_vec_nd3, Ux, Uy in V. rewrite V. reflexivity.
    - rewrite CB. lia.
    - intros w Hw. exact (proj1 (Y3 w Hw)).
    - rewrite CA. lia.
    - intros w Hw. exact (proj1 (X3 w Hw)).
  Qed.
  Lemma quick_agree name a b p ea eb : Forall (defines cs) (cf_time c) -> agree_on cs a b -> processable L c a -> processable L c b -> incl (tf_names (cf_tf c)) cs ->
    to_evals L c (first_time (meta a)) a = Ok (p, ea) -> to_evals L c (first_time (meta a)) b = Ok (p, eb) -> quick_gather name p (cf_tf c) eb = quick_gather name p (cf_tf c) ea.
  Proof.
    intros HD HA PA PB I A B. destruct (evals_agree _ _ _ _ _ _ _ HD HA PA PB A B) as (_ & _ & _ & _ & (S1 & S2 & _)).
    assert (E : forall ds, incl ds cs -> quick_combined name p eb ds = quick_combined name p ea ds).
    { intros ds Hd. unfold quick_combined. rewrite S1. assert (M : forall l, sd_level_md eb l = sd_level_md ea l) by (intros l; unfold sd_level_md; rewrite S2; reflexivity).
      assert (Q : forall ls data, (forall l, In l ls -> (0 <= l < sm_n_levels (sd_md ea))%Z) -> quick_levels (dp_per_level p) eb ds ls data = quick_levels (dp_per_level p) ea ds ls data).
      { induction ls as [|l ls IH]; intros data Hls; cbn [quick_levels]; [reflexivity|]. rewrite M, (chans_agree _ _ _ _ _ _ l ds HD HA PA PB A B Hd (Hls l (or_introl eq_refl))).
        destruct (sd_level_md ea l); cbn [bind]; [|reflexivity]. destruct (sd_get_chans ea l ds); cbn [bind]; [|reflexivity]. destruct (quick_freqs _ _ _ _ _); cbn [bind]; [apply IH; intros; apply Hls; right; assumption|reflexivity]. }
      rewrite Q by (intros l Hl; apply CalibrateFinal.arange_in in Hl; exact Hl). rewrite (Later.mapM_same (sd_level_md eb) (sd_level_md ea)) by exact M. reflexivity. }
    assert (I1 : incl (tf_out (cf_tf c)) cs) by (intros x Hx; apply I; unfold tf_names; rewrite !in_app_iff; auto). assert (I2 : incl (tf_in (cf_tf c)) cs) by (intros x Hx; apply I; unfold tf_names; rewrite !in_app_iff; auto).
    assert (I3 : incl (tf_cross (cf_tf c)) cs) by (intros x Hx; apply I; unfold tf_names; rewrite !in_app_iff; auto). unfold quick_gather. rewrite !E by assumption. reflexivity.
  Qed.
  Theorem c98 name a b : Forall (defines cs) (cf_time c) -> agree_on cs a b -> processable L c a -> processable L c b -> incl (tf_names (cf_tf c)) cs ->
    (exists r, to_evals L c (first_time (meta a)) a = Ok r) -> (exists r, to_evals L c (first_time (meta b)) b = Ok r) -> quick_tf L c None name b = quick_tf L c None name a.
  Proof.
    intros HD HA PA PB I [[pa ea] A] [[pb eb] B]. unfold quick_tf. rewrite A, B. cbn [bind]. assert (FT : first_time (meta b) = first_time (meta a)) by apply HA. rewrite FT in B.
    destruct (evals_agree _ _ _ _ _ _ _ HD HA PA PB A B) as (<- & _). rewrite (quick_agree name a b pa ea eb HD HA PA PB I A B). reflexivity.
  Qed.
End Whole.
