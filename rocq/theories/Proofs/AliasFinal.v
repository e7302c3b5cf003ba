(** C12, statements about reachable states *)
From Coq Require Import String.
From Verif Require Import Base.Prelude Base.ListUtil Model.Sampling Model.Time Model.Decimate Model.Persist Model.Alias Spec.Alias Proofs.Alias.
Open Scope list_scope.
Open Scope nat_scope.

Lemma adjusts_shallow p : adjusts_time p <-> shallow p = true.
Proof. destruct p; cbn; split; intros; try reflexivity; try exact I; try discriminate; contradiction. Qed.
Lemma not_adjusts p : ~ adjusts_time p -> shallow p = false.
Proof. intros H. destruct (shallow p) eqn:E; [|reflexivity]. exfalso. apply H. apply adjusts_shallow. exact E. Qed.
Lemma wf_lt h t : wf h -> live h t -> hist_of h t < length (h_hists h) /\ cmd_of h t < length (h_cmds h).
Proof. intros W [L _]. destruct (W _ (meta_at_in h _ L)). split; assumption. Qed.
Lemma ext_hist_of h h' l rs t : ext h h' l rs -> live h t -> hist_of h' t = hist_of h t /\ cmd_of h' t = cmd_of h t.
Proof. intros E [L _]. unfold hist_of, cmd_of. rewrite (ext_meta _ _ _ _ _ E L). split; reflexivity. Qed.
Lemma fresh_independent h h' l rs t1 t : wf h -> ext h h' l rs -> live h t -> fresh h h' t1 -> independent h' t1 t.
Proof.
  intros W E L (F1 & F2 & F3 & F4). destruct (ext_hist_of _ _ _ _ _ E L) as [E1 E2]. destruct (wf_lt _ _ W L). destruct L. unfold independent. rewrite E1, E2. repeat split; lia.
Qed.
Lemma more_history_neq td c : more_history td [c] <> td.
Proof.
  intros H. assert (K : length (history (meta (more_history td [c]))) = length (history (meta td))) by (rewrite H; reflexivity).
  unfold more_history in K. cbn in K. rewrite app_length in K. cbn in K. lia.
Qed.

Section Final.
  Variable rnd drnd : Q -> Q.
  Variable orc : oracles.
  Notation world := (world rnd drnd orc).
  Notation run_h := (run_h rnd drnd orc).
  Notation run := (run rnd drnd orc).

  Lemma c12_run h ts ds p t h' r : world h ts ds -> In t ts -> ~ adjusts_time p -> run_h p t h = (h', r) ->
    (forall t', In t' ts -> look h' t' = look h t') /\ (forall d, In d ds -> look_dec h' d = look_dec h d) /\
    match r with
    | Ok t1 => run p (look h t) = Ok (look h' t1) /\ (forall t', In t' ts -> independent h' t1 t')
    | Err e => run p (look h t) = Err e
    end.
  Proof.
    intros Hw Ht N H. destruct (world_ok _ _ _ _ _ _ Hw) as (W & T & D). apply not_adjusts in N. destruct (run_h_spec _ _ _ _ _ _ _ _ W (T t Ht) H) as (W' & E & R). rewrite N in *.
    split; [intros t' Ht'; exact (ext_look_same _ _ _ _ W E (T t' Ht'))|]. split; [intros d Hd; exact (ext_look_dec_same _ _ _ _ E (D d Hd))|].
    destruct r as [t1|e]; [|exact (proj1 R)]. destruct R as (R1 & R2 & R3 & _). split; [exact R2|]. intros t' Ht'. exact (fresh_independent _ _ _ _ _ _ W E (T t' Ht') R3).
  Qed.
  Lemma c12_copy h ts ds t h' t1 : world h ts ds -> In t ts -> copy_h t h = (h', t1) ->
    (forall t', In t' ts -> look h' t' = look h t') /\ (forall d, In d ds -> look_dec h' d = look_dec h d) /\ look h' t1 = look h t /\ (forall t', In t' ts -> independent h' t1 t').
  Proof.
    intros Hw Ht H. destruct (world_ok _ _ _ _ _ _ Hw) as (W & T & D). destruct (copy_h_spec _ _ _ _ W (T t Ht) H) as (W' & E & L & K & F).
    split; [intros t' Ht'; exact (ext_look_same _ _ _ _ W (E 0) (T t' Ht'))|]. split; [intros d Hd; exact (ext_look_dec_same _ _ _ _ (E 0) (D d Hd))|]. split; [exact K|].
    intros t' Ht'. exact (fresh_independent _ _ _ _ _ _ W (E 0) (T t' Ht') F).
  Qed.
  Lemma c12_adjusting h ts ds p t h' t1 : world h ts ds -> In t ts -> adjusts_time p -> run_h p t h = (h', Ok t1) ->
    run p (look h t) = Ok (look h' t1) /\
    (forall t', In t' ts -> look h' t' = if Nat.eqb (hist_of h t') (hist_of h t) then more_history (look h t') [CProc p] else look h t') /\
    (forall t', In t' ts -> rows (look h' t') = rows (look h t')) /\
    hist_of h' t1 = hist_of h' t.
  Proof.
    intros Hw Ht N H. destruct (world_ok _ _ _ _ _ _ Hw) as (W & T & D). apply adjusts_shallow in N. destruct (run_h_spec _ _ _ _ _ _ _ _ W (T t Ht) H) as (W' & E & R). rewrite N in *.
    destruct R as (R1 & R2 & (R3 & _) & _). split; [exact R2|]. split; [intros t' Ht'; exact (ext_look _ _ _ _ _ W E (T t' Ht'))|].
    split; [intros t' Ht'; rewrite (ext_look _ _ _ _ _ W E (T t' Ht')); destruct (Nat.eqb _ _); reflexivity|]. rewrite R3. symmetry. exact (proj1 (ext_hist_of _ _ _ _ _ E (T t Ht))).
  Qed.
  Lemma c12_refuted h ts ds p t h' t1 : world h ts ds -> In t ts -> adjusts_time p -> run_h p t h = (h', Ok t1) ->
    look h' t = more_history (look h t) [CProc p] /\ look h' t <> look h t.
  Proof.
    intros Hw Ht N H. destruct (c12_adjusting _ _ _ _ _ _ _ Hw Ht N H) as (_ & K & _). specialize (K t Ht). rewrite Nat.eqb_refl in K. split; [exact K|]. rewrite K. apply more_history_neq.
  Qed.
  Lemma c12_error h ts ds p t h' e : world h ts ds -> In t ts -> run_h p t h = (h', Err e) -> h' = h.
  Proof. intros Hw Ht H. destruct (world_ok _ _ _ _ _ _ Hw) as (W & T & D). destruct (run_h_spec _ _ _ _ _ _ _ _ W (T t Ht) H) as (_ & _ & R). exact (proj2 R). Qed.
  Lemma c12_branches h ts ds p1 p2 t h1 t1 h2 t2 : world h ts ds -> In t ts -> adjusts_time p1 -> adjusts_time p2 ->
    run_h p1 t h = (h1, Ok t1) -> run_h p2 t h1 = (h2, Ok t2) ->
    history (meta (look h2 t1)) = history (meta (look h t)) ++ [CProc p1; CProc p2] /\
    history (meta (look h2 t2)) = history (meta (look h t)) ++ [CProc p1; CProc p2].
  Proof.
    intros Hw Ht N1 N2 H1 H2. assert (Hw1 := w_run _ _ _ _ _ _ _ _ _ _ Hw Ht H1). cbn in Hw1.
    destruct (c12_refuted _ _ _ _ _ _ _ Hw Ht N1 H1) as [K1 _]. destruct (c12_adjusting _ _ _ _ _ _ _ Hw Ht N1 H1) as (R1 & _ & _ & S1).
    destruct (c12_adjusting _ _ _ _ _ _ _ Hw1 (or_intror Ht) N2 H2) as (R2 & V2 & _ & S2). split.
    - rewrite (V2 t1 (or_introl eq_refl)), S1, Nat.eqb_refl. unfold more_history. cbn [meta with_history history].
      rewrite (Proofs.TimeProc.run_hist _ _ _ _ _ _ R1). rewrite <- app_assoc. reflexivity.
    - rewrite (Proofs.TimeProc.run_hist _ _ _ _ _ _ R2), K1. unfold more_history. cbn [meta with_history history]. rewrite <- app_assoc. reflexivity.
  Qed.
  Lemma c12_chain ps : forall h ts ds t h' r, world h ts ds -> In t ts -> run_chain rnd drnd orc ps t h = (h', r) ->
    (match r with Ok t1 => run_all rnd drnd orc ps (look h t) = Ok (look h' t1) | Err e => run_all rnd drnd orc ps (look h t) = Err e end).
  Proof.
    induction ps as [|p ps IH]; intros h ts ds t h' r Hw Ht H; cbn [run_chain run_all] in *; [injection H as <- <-; reflexivity|].
    destruct (world_ok _ _ _ _ _ _ Hw) as (W & T & D). destruct (run_h p t h) as [h1 r1] eqn:R. assert (Hw1 := w_run _ _ _ _ _ _ _ _ _ _ Hw Ht R).
    destruct (run_h_spec _ _ _ _ _ _ _ _ W (T t Ht) R) as (_ & _ & K). destruct r1 as [t1|e].
    - destruct K as (_ & K & _). rewrite K. cbn [bind]. exact (IH _ _ _ _ _ _ Hw1 (or_introl eq_refl) H).
    - injection H as <- <-. rewrite (proj1 K). reflexivity.
  Qed.

  (** writers *)
  Lemma c12_write h ts ds name t h' m : world h ts ds -> In t ts -> write_h name t h = (h', Ok m) ->
    exists m0, set_named (chans (meta (look h t))) name (meta (look h t)) = Ok m0 /\ m = with_history m0 (history m0 ++ [CWriter]) /\
      meta (look h' t) = m /\ rows (look h' t) = rows (look h t).
  Proof.
    intros Hw Ht H. destruct (world_ok _ _ _ _ _ _ Hw) as (W & T & D). destruct (write_h_spec _ _ _ _ _ W (T t Ht) H) as (_ & _ & _ & _ & c & V & _ & m0 & R1 & R2 & R3).
    exists m0. split; [exact R1|]. split; [exact R3|]. rewrite (V t (T t Ht)). unfold written_view. rewrite !Nat.eqb_refl. split; [|reflexivity].
    unfold more_history, with_cmd. cbn [meta]. rewrite R3. assert (Q : forall cs m a, set_named cs name m = Ok a -> a = with_chans_md m (chans_md a)).
    { clear. induction cs as [|x cs IH]; intros m a E; cbn [set_named] in E; [injection E as <-; destruct m; reflexivity|]. destruct (chan_meta m x); [|discriminate]. cbn [bind] in E. apply IH in E. rewrite E at 1. destruct m; reflexivity. }
    pose proof (Q _ _ _ R1) as E. rewrite R2 in E. rewrite E. reflexivity.
  Qed.
  Lemma c12_write_refuted h ts ds name t h' m : world h ts ds -> In t ts -> write_h name t h = (h', Ok m) -> look h' t <> look h t.
  Proof.
    intros Hw Ht H. destruct (c12_write _ _ _ _ _ _ _ Hw Ht H) as (m0 & R1 & R2 & R3 & _). intros E. assert (K : history (meta (look h' t)) = history (meta (look h t))) by (rewrite E; reflexivity).
    rewrite R3, R2 in K. cbn [with_history history] in K. assert (Q : forall cs m a, set_named cs name m = Ok a -> history a = history m).
    { clear. induction cs as [|x cs IH]; intros m a E; cbn [set_named] in E; [injection E as <-; reflexivity|]. destruct (chan_meta m x); [|discriminate]. cbn [bind] in E. rewrite (IH _ _ E). reflexivity. }
    rewrite (Q _ _ _ R1) in K. assert (L := f_equal (@length _) K). rewrite app_length in L. cbn in L. lia.
  Qed.
  Lemma c12_write_others h ts ds name t h' r t' : world h ts ds -> In t ts -> write_h name t h = (h', r) -> In t' ts -> hist_of h t' <> hist_of h t -> cmd_of h t' <> cmd_of h t ->
    look h' t' = look h t'.
  Proof.
    intros Hw Ht H Ht' N1 N2. destruct (world_ok _ _ _ _ _ _ Hw) as (W & T & D). destruct (write_h_spec _ _ _ _ _ W (T t Ht) H) as (_ & _ & _ & _ & c & V & _).
    rewrite (V t' (T t' Ht')). unfold written_view. destruct (Nat.eqb_spec (cmd_of h t') (cmd_of h t)); [contradiction|]. destruct (Nat.eqb_spec (hist_of h t') (hist_of h t)); [contradiction|reflexivity].
  Qed.
  Lemma c12_write_dec h ts ds d h' x : world h ts ds -> In d ds -> write_dec_h d h = (h', x) ->
    x = more_history_dec (look_dec h d) [CWriter] /\ look_dec h' d = x.
  Proof.
    intros Hw Hd H. destruct (world_ok _ _ _ _ _ _ Hw) as (W & T & D). unfold write_dec_h in H. injection H as <- <-. split; [|reflexivity].
    rewrite (ext_look_dec _ _ _ _ _ (add_record_ext (d_hist d) CWriter h) (D d Hd)), Nat.eqb_refl. reflexivity.
  Qed.

  (** the decimator *)
  Lemma c12_decimator h ts ds ur maxf p t h' r : world h ts ds -> In t ts -> decimator_h rnd drnd orc ur maxf p t h = (h', r) ->
    look h' t = more_history (look h t) (decimator_records rnd orc ur maxf p (look h t)) /\
    (forall t', In t' ts -> hist_of h t' <> hist_of h t -> look h' t' = look h t') /\
    match r with Ok d => decimator_run rnd orc ur maxf p (look h t) = Ok (look_dec h' d) | Err e => decimator_run rnd orc ur maxf p (look h t) = Err e end.
  Proof.
    intros Hw Ht H. destruct (world_ok _ _ _ _ _ _ Hw) as (W & T & D). destruct (decimator_h_spec _ _ _ _ _ _ _ _ _ _ W (T t Ht) H) as (W' & E & R).
    split; [rewrite (ext_look _ _ _ _ _ W E (T t Ht)), Nat.eqb_refl; reflexivity|]. split.
    - intros t' Ht' N. rewrite (ext_look _ _ _ _ _ W E (T t' Ht')). destruct (Nat.eqb_spec (hist_of h t') (hist_of h t)); [contradiction|reflexivity].
    - destruct r as [d|e]; [exact (proj1 (proj2 R))|exact R].
  Qed.
  (** with a first factor of one, level 0 is the array of the time data *)
  Lemma c12_level0 h ts ds ur maxf p t h' d rest : world h ts ds -> In t ts -> (0 < dp_n_levels p)%Z -> dp_increments p = 1%Z :: rest ->
    decimator_h rnd drnd orc ur maxf p t h = (h', Ok d) ->
    forall c dt x h2, set_chan_h t c dt x h' = (h2, Ok tt) -> get_level (look_dec h2 d) 0 = Ok (rows (look h2 t)) .
  Proof.
    intros Hw Ht Hn Hi H c dt x h2 Hs. unfold decimator_h in H. destruct (Z.to_nat (dp_n_levels p)) as [|n] eqn:En; [lia|]. rewrite Hi in H. cbn [firstn dec_loop_h] in H.
    unfold dec_step_h in H. cbn [Z.eqb Pos.eqb] in H. destruct (_ <? _)%Z; [discriminate|]. match type of H with (match match ?X with _ => _ end with _ => _ end) = _ => destruct X as [h1 [[dd l]|e]] end; [|discriminate].
    cbn [new_hist] in H. injection H as <- <-. unfold get_level, look_dec. cbn [dd_n_levels d_n_levels dd_data d_data map fst snd length]. destruct (Z.geb_spec 0 (Z.of_nat (S (length l)))); [lia|].
    cbn [find fst]. rewrite Z.eqb_refl. reflexivity.
  Qed.
End Final.
