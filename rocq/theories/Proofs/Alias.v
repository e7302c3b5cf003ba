(** C12 *)
From Coq Require Import String.
From Verif Require Import Base.Prelude Base.ListUtil Model.Sampling Model.Time Model.Decimate Model.Persist Model.Alias Spec.Alias.
From Verif Require Import Proofs.TimeMeta Proofs.TimeProc.
Open Scope list_scope.
Open Scope nat_scope.

Definition wf (h : heap) : Prop := forall m, In m (h_metas h) -> r_cmd m < length (h_cmds h) /\ r_hist m < length (h_hists h).
Definition live (h : heap) (t : tref) : Prop := t_meta t < length (h_metas h) /\ t_arr t < length (h_arrs h).
Definition live_d (h : heap) (d : dref) : Prop := d_hist d < length (h_hists h) /\ Forall (fun kv => snd kv < length (h_arrs h)) (d_data d).

(** [h'] extends [h]; the history at [l] has grown by [rs] *)
Record ext (h h' : heap) (l : loc) (rs : list creator) : Prop := mkExt {
  e_metas : exists x, h_metas h' = h_metas h ++ x;
  e_cmds : exists x, h_cmds h' = h_cmds h ++ x;
  e_arrs : exists x, h_arrs h' = h_arrs h ++ x;
  e_hlen : length (h_hists h) <= length (h_hists h');
  e_hists : forall i, i < length (h_hists h) -> hist_at h' i = if Nat.eqb i l then hist_at h i ++ rs else hist_at h i }.

Lemma app_ext_trans {A} (a b c : list A) : (exists x, b = a ++ x) -> (exists x, c = b ++ x) -> exists x, c = a ++ x.
Proof. intros [x ->] [y ->]. exists (x ++ y). rewrite app_assoc. reflexivity. Qed.
Lemma app_ext_len {A} (a b : list A) : (exists x, b = a ++ x) -> length a <= length b.
Proof. intros [x ->]. rewrite app_length. lia. Qed.
Lemma app_ext_nth {A} (a b : list A) d i : (exists x, b = a ++ x) -> i < length a -> nth i b d = nth i a d.
Proof. intros [x ->] H. apply app_nth1. exact H. Qed.
Lemma app_ext_refl {A} (a : list A) : exists x, a = a ++ x.
Proof. exists []. rewrite app_nil_r. reflexivity. Qed.

Lemma ext_refl h l : ext h h l [].
Proof. constructor; try apply app_ext_refl; [lia|]. intros i _. rewrite app_nil_r. destruct (Nat.eqb i l); reflexivity. Qed.
(** growing the same history twice, or a new one *)
Lemma ext_trans h h1 h2 l r1 r2 : ext h h1 l r1 -> ext h1 h2 l r2 -> ext h h2 l (r1 ++ r2).
Proof.
  intros [A1 A2 A3 A4 A5] [B1 B2 B3 B4 B5]. constructor; try (eapply app_ext_trans; eassumption); [lia|].
  intros i Hi. rewrite B5 by lia. rewrite A5 by exact Hi. destruct (Nat.eqb i l); [rewrite app_assoc|]; reflexivity.
Qed.
Lemma ext_new h h1 h2 l r1 l2 r2 : ext h h1 l r1 -> ext h1 h2 l2 r2 -> length (h_hists h) <= l2 -> ext h h2 l r1.
Proof.
  intros [A1 A2 A3 A4 A5] [B1 B2 B3 B4 B5] H. constructor; try (eapply app_ext_trans; eassumption); [lia|].
  intros i Hi. rewrite B5 by lia. destruct (Nat.eqb_spec i l2); [lia|]. apply A5. exact Hi.
Qed.
Lemma ext_nil h h1 l : ext h h1 l [] -> forall l', ext h h1 l' [].
Proof. intros [A1 A2 A3 A4 A5] l'. constructor; try assumption. intros i Hi. rewrite (A5 i Hi), app_nil_r. destruct (Nat.eqb i l), (Nat.eqb i l'); reflexivity. Qed.

Lemma nth_upd {A} i j (x d : A) l : nth j (upd_nth i x l) d = if (Nat.eqb j i && Nat.ltb i (length l))%bool then x else nth j l d.
Proof.
  revert i j. induction l as [|a l IH]; intros [|i] [|j]; cbn; try reflexivity; try (rewrite andb_false_r; reflexivity).
  rewrite IH. reflexivity.
Qed.
Lemma upd_last {A} (l : list A) x y : upd_nth (length l) y (l ++ [x]) = l ++ [y].
Proof. induction l as [|a l IH]; cbn; [reflexivity|]. rewrite IH. reflexivity. Qed.

Lemma ext_live h h' l rs t : ext h h' l rs -> live h t -> live h' t.
Proof. intros [A1 A2 A3 A4 A5] [H1 H2]. apply app_ext_len in A1, A3. split; lia. Qed.
Lemma ext_live_d h h' l rs d : ext h h' l rs -> live_d h d -> live_d h' d.
Proof. intros [A1 A2 A3 A4 A5] [H1 H2]. apply app_ext_len in A3. split; [lia|]. eapply Forall_impl; [|exact H2]. intros kv H. cbn beta in H. lia. Qed.
Lemma ext_meta h h' l rs i : ext h h' l rs -> i < length (h_metas h) -> meta_at h' i = meta_at h i.
Proof. intros E H. exact (app_ext_nth _ _ _ _ (e_metas _ _ _ _ E) H). Qed.
Lemma meta_at_in h i : i < length (h_metas h) -> In (meta_at h i) (h_metas h).
Proof. intros H. apply nth_In. exact H. Qed.

(** observations after an extension *)
Lemma ext_look h h' l rs t : wf h -> ext h h' l rs -> live h t ->
  look h' t = if Nat.eqb (hist_of h t) l then more_history (look h t) rs else look h t.
Proof.
  intros W E [H1 H2]. destruct (W _ (meta_at_in h _ H1)) as [Wc Wh]. unfold look, look_meta, hist_of. rewrite (ext_meta _ _ _ _ _ E H1).
  assert (Ea : arr_at h' (t_arr t) = arr_at h (t_arr t)) by (apply app_ext_nth; [exact (e_arrs _ _ _ _ E)|exact H2]).
  assert (Ec : cmd_at h' (r_cmd (meta_at h (t_meta t))) = cmd_at h (r_cmd (meta_at h (t_meta t)))) by (apply app_ext_nth; [exact (e_cmds _ _ _ _ E)|exact Wc]).
  rewrite Ea, Ec, (e_hists _ _ _ _ E _ Wh). destruct (Nat.eqb _ l); reflexivity.
Qed.
Lemma ext_look_same h h' l t : wf h -> ext h h' l [] -> live h t -> look h' t = look h t.
Proof.
  intros W E L. rewrite (ext_look h h' (S (hist_of h t)) [] t W (ext_nil _ _ _ E _) L). destruct (Nat.eqb_spec (hist_of h t) (S (hist_of h t))); [lia|reflexivity].
Qed.
Lemma ext_look_dec h h' l rs d : ext h h' l rs -> live_d h d -> look_dec h' d = if Nat.eqb (d_hist d) l then more_history_dec (look_dec h d) rs else look_dec h d.
Proof.
  intros E [H1 H2]. unfold look_dec. rewrite (e_hists _ _ _ _ E _ H1).
  assert (Em : map (fun kv : Z * loc => (fst kv, arr_at h' (snd kv))) (d_data d) = map (fun kv : Z * loc => (fst kv, arr_at h (snd kv))) (d_data d)).
  { apply map_ext_in. intros kv Hk. f_equal. apply app_ext_nth; [exact (e_arrs _ _ _ _ E)|]. exact (proj1 (Forall_forall _ _) H2 kv Hk). }
  rewrite Em. destruct (Nat.eqb (d_hist d) l); reflexivity.
Qed.
Lemma ext_look_dec_same h h' l d : ext h h' l [] -> live_d h d -> look_dec h' d = look_dec h d.
Proof.
  intros E L. rewrite (ext_look_dec h h' (S (d_hist d)) [] d (ext_nil _ _ _ E _) L). destruct (Nat.eqb_spec (d_hist d) (S (d_hist d))); [lia|reflexivity].
Qed.

(** ** building blocks *)
Lemma new_arr_ext a h l : ext h (fst (new_arr a h)) l [].
Proof. constructor; cbn; try apply app_ext_refl; [eexists; reflexivity|lia|]. intros i _. unfold hist_at. cbn. rewrite app_nil_r. destruct (Nat.eqb i l); reflexivity. Qed.
Lemma new_meta_ext a h l : ext h (fst (new_meta a h)) l [].
Proof. constructor; cbn; try apply app_ext_refl; [eexists; reflexivity|lia|]. intros i _. unfold hist_at. cbn. rewrite app_nil_r. destruct (Nat.eqb i l); reflexivity. Qed.
Lemma new_cmd_ext a h l : ext h (fst (new_cmd a h)) l [].
Proof. constructor; cbn; try apply app_ext_refl; [eexists; reflexivity|lia|]. intros i _. unfold hist_at. cbn. rewrite app_nil_r. destruct (Nat.eqb i l); reflexivity. Qed.
Lemma new_hist_ext a h l : ext h (fst (new_hist a h)) l [].
Proof.
  constructor; cbn; try apply app_ext_refl; [rewrite app_length; cbn; lia|]. intros i Hi. unfold hist_at. cbn. rewrite app_nil_r, app_nth1 by exact Hi. destruct (Nat.eqb i l); reflexivity.
Qed.
Lemma add_record_ext l c h : ext h (add_record_at l c h) l [c].
Proof.
  constructor; cbn; try apply app_ext_refl; [rewrite upd_nth_length; lia|]. intros i Hi. unfold hist_at. cbn [h_hists add_record_at]. rewrite nth_upd.
  destruct (Nat.eqb_spec i l) as [->|N]; cbn [andb]; [|reflexivity]. destruct (Nat.ltb_spec l (length (h_hists h))); [reflexivity|lia].
Qed.
Lemma wf_add_record l c h : wf h -> wf (add_record_at l c h).
Proof. intros W m H. cbn in *. rewrite upd_nth_length. exact (W m H). Qed.
Lemma wf_new_arr a h : wf h -> wf (fst (new_arr a h)).
Proof. intros W m H. cbn in *. exact (W m H). Qed.
Lemma wf_new_meta m h : wf h -> r_cmd m < length (h_cmds h) -> r_hist m < length (h_hists h) -> wf (fst (new_meta m h)).
Proof. intros W Hc Hh x H. cbn in *. apply in_app_or in H. destruct H as [H|[<-|[]]]; [exact (W x H)|split; assumption]. Qed.

Lemma make_meta_spec m h : wf h -> let '(h', l) := make_meta m h in
  (forall i, ext h h' i []) /\ wf h' /\ l = length (h_metas h) /\ l < length (h_metas h') /\ look_meta h' l = m /\
  r_hist (meta_at h' l) = length (h_hists h) /\ r_cmd (meta_at h' l) = length (h_cmds h) /\ h_arrs h' = h_arrs h.
Proof.
  intros W. unfold make_meta. cbn [new_cmd new_hist new_meta].
  split.
  { intros i. constructor; cbn; try apply app_ext_refl; try (eexists; reflexivity); [rewrite app_length; lia|].
    intros j Hj. unfold hist_at. cbn. rewrite app_nil_r, app_nth1 by exact Hj. destruct (Nat.eqb j i); reflexivity. }
  split.
  { intros x H. cbn in *. rewrite !app_length. cbn. apply in_app_or in H. destruct H as [H|[<-|[]]]; [destruct (W x H); lia|cbn; lia]. }
  split; [reflexivity|]. split; [cbn; rewrite app_length; cbn; lia|]. split.
  { unfold look_meta, meta_at, cmd_at, hist_at. cbn. rewrite app_nth2, Nat.sub_diag by lia. cbn. rewrite !app_nth2, !Nat.sub_diag by lia. destruct m; reflexivity. }
  unfold meta_at. cbn. rewrite app_nth2, Nat.sub_diag by lia. repeat split; reflexivity.
Qed.

(** ** time processors *)
Lemma run_shape rnd drnd orc p td r : run rnd drnd orc p td = Ok r ->
  dtype r = dtype td /\ chans (meta r) = chans (meta td) /\ n_chans (meta r) = n_chans (meta td) /\ info (meta r) = info (meta td) /\ chans_md (meta r) = chans_md (meta td) /\
  history (meta r) = history (meta td) ++ [CProc p] /\
  (shallow p = false -> fs (meta r) = fs (meta td) /\ n_samples (meta r) = n_samples (meta td) /\ first_time (meta r) = first_time (meta td) /\ last_time (meta r) = last_time (meta td)).
Proof.
  assert (F : forall bt o cut q, filter_run orc bt o cut q td = Ok r -> exists d, r = new_time_data td None (Some d) (Some (CProc q))).
  { intros bt o cut q H. unfold filter_run in H. inv_bind H. inv_bind H. injection H as <-. eexists. reflexivity. }
  destruct p; cbn [run shallow]; intros H;
    try (destruct (F _ _ _ _ H) as [d ->]; cbn; repeat split; reflexivity).
  - destruct (subsection_inv _ _ _ _ _ H) as (a & b & _ & _ & _ & ->). cbn. repeat split; congruence.
  - unfold interpolate_nans in H. inv_bind H. injection H as <-. cbn. repeat split; reflexivity.
  - unfold remove_mean in H. injection H as <-. cbn. repeat split; reflexivity.
  - unfold add in H. inv_bind H. inv_bind H. injection H as <-. cbn. repeat split; reflexivity.
  - unfold multiply in H. inv_bind H. inv_bind H. injection H as <-. cbn. repeat split; reflexivity.
  - unfold resample in H. inv_bind H. injection H as <-. cbn. repeat split; congruence.
  - unfold decimate in H. inv_bind H. injection H as <-. cbn. repeat split; congruence.
  - unfold shift_timestamps in H. destruct (Qle_bool _ _); [discriminate|]. destruct (_ <? _)%Z; [discriminate|]. injection H as <-. cbn. repeat split; congruence.
  - unfold apply_function in H. inv_bind H. injection H as <-. cbn. repeat split; reflexivity.
Qed.

Section Run.
  Variable rnd drnd : Q -> Q.
  Variable orc : oracles.
  Notation run_h := (run_h rnd drnd orc).

  Definition fresh (h h' : heap) (t1 : tref) : Prop :=
    length (h_metas h) <= t_meta t1 /\ length (h_arrs h) <= t_arr t1 /\ length (h_hists h) <= hist_of h' t1 /\ length (h_cmds h) <= cmd_of h' t1.

  Lemma run_h_spec p t h h' r : wf h -> live h t -> run_h p t h = (h', r) ->
    wf h' /\
    ext h h' (hist_of h t) (if shallow p then match r with Ok _ => [CProc p] | Err _ => [] end else []) /\
    match r with
    | Ok t1 => live h' t1 /\ run rnd drnd orc p (look h t) = Ok (look h' t1) /\
               (if shallow p then hist_of h' t1 = hist_of h t /\ cmd_of h' t1 = cmd_of h t else fresh h h' t1) /\ length (h_arrs h) <= t_arr t1
    | Err e => run rnd drnd orc p (look h t) = Err e /\ h' = h
    end.
  Proof.
    intros W L H. unfold Model.Alias.run_h in H. destruct (run rnd drnd orc p (look h t)) as [td|e] eqn:R.
    2:{ injection H as <- <-. split; [exact W|]. split; [|split; reflexivity]. destruct (shallow p); apply ext_refl. }
    destruct (run_shape _ _ _ _ _ _ R) as (S1 & S2 & S3 & S4 & S5 & S6 & S7).
    destruct (W _ (meta_at_in h _ (proj1 L))) as [Wc Wh]. destruct L as [L1 L2].
    destruct (shallow p) eqn:Sh.
    - cbn [new_arr copy_meta new_meta] in H. injection H as <- <-. set (hm := h_metas h) in *.
      unfold adjust_h, add_record_h, meta_at. cbn [h_metas h_cmds h_hists h_arrs new_meta fst snd].
      assert (N1 : nth (length hm) (hm ++ [nth (t_meta t) hm no_meta]) no_meta = nth (t_meta t) hm no_meta).
      { rewrite app_nth2, Nat.sub_diag by lia. reflexivity. }
      fold hm. rewrite N1. rewrite upd_last. cbn [h_metas h_cmds h_hists h_arrs].
      match goal with |- context [nth (length hm) (hm ++ [?m]) no_meta] => set (m' := m); assert (N2 : nth (length hm) (hm ++ [m']) no_meta = m') by (rewrite app_nth2, Nat.sub_diag by lia; reflexivity) end.
      rewrite N2. set (l := r_hist m'). assert (El : l = hist_of h t) by reflexivity.
      match goal with |- wf ?hh /\ _ => set (h' := hh) end.
      assert (E : ext h h' (hist_of h t) [CProc p]).
      { constructor; cbn; [eexists; reflexivity|apply app_ext_refl|eexists; reflexivity|rewrite upd_nth_length; lia|].
        intros i Hi. change (r_hist (nth (t_meta t) hm no_meta)) with (hist_of h t). rewrite nth_upd. destruct (Nat.eqb_spec i (hist_of h t)) as [->|N]; cbn [andb]; [|reflexivity].
        destruct (Nat.ltb_spec (hist_of h t) (length (h_hists h))); [reflexivity|lia]. }
      split; [|split; [exact E|]].
      { intros x Hx. cbn in *. rewrite upd_nth_length. apply in_app_or in Hx. destruct Hx as [Hx|[<-|[]]]; [exact (W x Hx)|cbn; split; assumption]. }
      assert (M : meta_at h' (length hm) = m') by exact N2.
      split; [split; cbn; rewrite app_length; cbn; lia|]. split; [|split; [split; [unfold hist_of|unfold cmd_of]; cbn [t_meta]; rewrite M; reflexivity|cbn; lia]].
      f_equal. unfold look, look_meta. cbn [t_meta t_arr t_dtype]. rewrite M. unfold m'. cbn [r_fs r_chans r_n_chans r_n_samples r_first r_last r_info r_cmd r_hist].
      assert (Ha : arr_at h' (length (h_arrs h)) = rows td) by (unfold arr_at, h', add_record_at; cbn [h_arrs]; rewrite app_nth2, Nat.sub_diag by lia; reflexivity).
      assert (Hh : hist_at h' (hist_of h t) = hist_at h (hist_of h t) ++ [CProc p]) by (rewrite (e_hists _ _ _ _ E (hist_of h t) Wh), Nat.eqb_refl; reflexivity).
      rewrite Ha. change (r_hist (nth (t_meta t) hm no_meta)) with (hist_of h t). rewrite Hh.
      change (cmd_at h' (r_cmd (nth (t_meta t) hm no_meta))) with (cmd_at h (r_cmd (meta_at h (t_meta t)))).
      destruct td as [[] dt rw]. cbn in *. subst. reflexivity.
    - cbn [new_arr] in H. match type of H with (let (_, _) := deep_meta _ ?h0 in _) = _ => set (h1 := h0) in * end.
      assert (E1 : ext h h1 (hist_of h t) []) by (apply (new_arr_ext (rows td))).
      assert (W1 : wf h1) by (apply (wf_new_arr (rows td)); exact W).
      unfold deep_meta in H. pose proof (make_meta_spec (look_meta h1 (t_meta t)) h1 W1) as M. destruct (make_meta _ h1) as [h2 m]. destruct M as (E2 & W2 & M1 & M2 & M3 & M4 & M5 & M6).
      injection H as <- <-. unfold add_record_h. rewrite M4.
      assert (E3 := add_record_ext (length (h_hists h1)) (CProc p) h2).
      split; [apply wf_add_record; exact W2|]. split.
      { eapply ext_new; [eapply (ext_trans _ _ _ _ [] []); [exact E1|apply E2]|exact E3|cbn; lia]. }
      split; [split; cbn; [exact M2|rewrite M6; cbn; rewrite app_length; cbn; lia]|]. split; [|split; [|cbn; lia]].
      + f_equal. unfold look. cbn [t_meta t_arr t_dtype].
        assert (Ea : arr_at (add_record_at (length (h_hists h1)) (CProc p) h2) (length (h_arrs h)) = rows td).
        { unfold arr_at. cbn. rewrite M6. cbn. rewrite app_nth2, Nat.sub_diag by lia. reflexivity. }
        rewrite Ea. assert (Em : look_meta (add_record_at (length (h_hists h1)) (CProc p) h2) m = with_history (look_meta h2 m) (history (look_meta h2 m) ++ [CProc p])).
        { unfold look_meta at 1. change (meta_at (add_record_at (length (h_hists h1)) (CProc p) h2) m) with (meta_at h2 m). unfold with_history, look_meta. cbn [fs chans n_chans n_samples first_time last_time info chans_md history].
          f_equal. rewrite M4. unfold hist_at at 1. cbn [h_hists add_record_at]. rewrite nth_upd, Nat.eqb_refl. cbn [andb]. destruct (Nat.ltb_spec (length (h_hists h1)) (length (h_hists h2))) as [_|K]; [reflexivity|].
          exfalso. destruct (W2 _ (meta_at_in h2 m M2)) as [_ Q]. rewrite M4 in Q. lia. }
        rewrite Em, M3. assert (El : look_meta h1 (t_meta t) = look_meta h (t_meta t)).
        { unfold look_meta. rewrite (ext_meta _ _ _ _ _ E1 L1). reflexivity. }
        rewrite El. destruct (S7 eq_refl) as (S8 & S9 & S10 & S11). destruct td as [[] dt rw]. cbn in *. subst. reflexivity.
      + unfold fresh, hist_of, cmd_of. cbn [t_meta t_arr]. change (meta_at (add_record_at (length (h_hists h1)) (CProc p) h2) m) with (meta_at h2 m). rewrite M4, M5, M1. cbn. lia.
  Qed.

  (** ** Decimator *)
  Notation dec_step_h := (dec_step_h rnd drnd orc).
  Notation dec_loop_h := (dec_loop_h rnd drnd orc).
  Notation decimator_h := (decimator_h rnd drnd orc).
  Lemma dec_step_h_spec ur maxf t f h h' r : wf h -> live h t -> dec_step_h ur maxf t f h = (h', r) ->
    wf h' /\
    ext h h' (hist_of h t) (match r with Ok _ => if (f =? 1)%Z then [] else [step_record rnd ur maxf (look h t) f] | Err _ => [] end) /\
    match r with
    | Ok t1 => live h' t1 /\ dec_step rnd orc ur maxf (look h t) f = Ok (look h' t1) /\ hist_of h' t1 = hist_of h t
    | Err e => dec_step rnd orc ur maxf (look h t) f = Err e
    end.
  Proof.
    intros W L H. unfold Model.Alias.dec_step_h, dec_step in *. destruct (f =? 1)%Z.
    { injection H as <- <-. split; [exact W|]. split; [apply ext_refl|]. split; [exact L|]. split; reflexivity. }
    destruct ur.
    - destruct (f =? 0)%Z. { injection H as <- <-. split; [exact W|]. split; [apply ext_refl|reflexivity]. }
      destruct (run_h_spec _ _ _ _ _ W L H) as (W' & E & R). cbn [shallow] in E, R. split; [exact W'|]. split; [exact E|].
      destruct r as [t1|e]; [destruct R as (R1 & R2 & (R3 & _) & _); split; [exact R1|]; split; [exact R2|exact R3]|exact (proj1 R)].
    - destruct (f <? 1)%Z. { injection H as <- <-. split; [exact W|]. split; [apply ext_refl|reflexivity]. }
      destruct (run_h_spec _ _ _ _ _ W L H) as (W' & E & R). cbn [shallow] in E, R. split; [exact W'|]. split; [exact E|].
      destruct r as [t1|e]; [destruct R as (R1 & R2 & (R3 & _) & _); split; [exact R1|]; split; [exact R2|exact R3]|exact (proj1 R)].
  Qed.
  Definition looked (h : heap) (d : list (Z * loc)) := map (fun kv => (fst kv, arr_at h (snd kv))) d.
  Lemma dec_loop_h_spec ur maxf mn incs : forall il t h h' r, wf h -> live h t -> dec_loop_h ur maxf mn incs il t h = (h', r) ->
    wf h' /\ ext h h' (hist_of h t) (loop_records rnd orc ur maxf mn incs (look h t)) /\
    match r with
    | Ok (d, l) => Forall (fun kv => snd kv < length (h_arrs h')) d /\ dec_loop rnd orc ur maxf mn incs il (look h t) = Ok (looked h' d, l)
    | Err e => dec_loop rnd orc ur maxf mn incs il (look h t) = Err e
    end.
  Proof.
    induction incs as [|f rest IH]; intros il t h h' r W L H; cbn [Model.Alias.dec_loop_h loop_records dec_loop] in *.
    { injection H as <- <-. split; [exact W|]. split; [apply ext_refl|]. split; [constructor|reflexivity]. }
    destruct (dec_step_h ur maxf t f h) as [h1 r1] eqn:D. destruct (dec_step_h_spec _ _ _ _ _ _ _ W L D) as (W1 & E1 & R1). destruct r1 as [t1|e].
    2:{ injection H as <- <-. rewrite R1. split; [exact W1|]. split; [exact E1|reflexivity]. }
    destruct R1 as (L1 & R1 & Hh). rewrite R1. cbn [bind].
    change (n_samples (meta (look h1 t1))) with (r_n_samples (meta_at h1 (t_meta t1))). destruct (_ <? _)%Z.
    { injection H as <- <-. rewrite app_nil_r. split; [exact W1|]. split; [exact E1|]. split; [constructor|reflexivity]. }
    destruct (dec_loop_h ur maxf mn rest (il + 1) t1 h1) as [h2 r2] eqn:D2. destruct (IH _ _ _ _ _ W1 L1 D2) as (W2 & E2 & R2). rewrite Hh in E2.
    assert (E : ext h h2 (hist_of h t) ((if (f =? 1)%Z then [] else [step_record rnd ur maxf (look h t) f]) ++ loop_records rnd orc ur maxf mn rest (look h1 t1))) by (eapply ext_trans; eassumption).
    destruct r2 as [[d l]|e].
    - injection H as <- <-. destruct R2 as [R2 R3]. split; [exact W2|]. split; [exact E|]. split.
      + constructor; [|exact R2]. cbn. pose proof (app_ext_len _ _ (e_arrs _ _ _ _ E2)). destruct L1. lia.
      + rewrite R3. cbn [bind looked map fst snd]. rewrite (app_ext_nth _ _ _ (t_arr t1) (e_arrs _ _ _ _ E2) (proj2 L1)) || idtac. unfold looked. cbn [map fst snd].
        assert (Ea : arr_at h2 (t_arr t1) = rows (look h1 t1)) by (apply app_ext_nth; [exact (e_arrs _ _ _ _ E2)|exact (proj2 L1)]). rewrite Ea. reflexivity.
    - injection H as <- <-. split; [exact W2|]. split; [exact E|]. rewrite R2. reflexivity.
  Qed.
  Lemma decimator_h_spec ur maxf p t h h' r : wf h -> live h t -> decimator_h ur maxf p t h = (h', r) ->
    wf h' /\ ext h h' (hist_of h t) (loop_records rnd orc ur maxf (dp_min_samples p) (firstn (Z.to_nat (dp_n_levels p)) (dp_increments p)) (look h t)) /\
    match r with
    | Ok d => live_d h' d /\ decimator_run rnd orc ur maxf p (look h t) = Ok (look_dec h' d) /\ length (h_hists h) <= d_hist d
    | Err e => decimator_run rnd orc ur maxf p (look h t) = Err e
    end.
  Proof.
    intros W L H. unfold Model.Alias.decimator_h in H. destruct (dec_loop_h ur maxf _ _ 0 t h) as [h1 r1] eqn:D. destruct (dec_loop_h_spec _ _ _ _ _ _ _ _ _ W L D) as (W1 & E1 & R1).
    unfold decimator_run. destruct r1 as [[d l]|e].
    2:{ injection H as <- <-. rewrite R1. split; [exact W1|]. split; [exact E1|reflexivity]. }
    destruct R1 as [R1 R2]. rewrite R2. cbn [bind]. destruct d as [|kv d].
    { injection H as <- <-. split; [exact W1|]. split; [exact E1|reflexivity]. }
    cbn [new_hist] in H. injection H as <- <-. split; [|split].
    - intros m Hm. cbn in *. rewrite app_length. cbn. destruct (W1 m Hm). lia.
    - eapply ext_new; [exact E1|apply (new_hist_ext _ h1 (length (h_hists h)))|lia].
    - split; [split; cbn; [rewrite app_length; cbn; lia|exact R1]|]. split.
      + cbn [looked map]. f_equal. unfold look_dec. cbn [d_fs d_chans d_n_levels d_first d_last d_info d_levels_md d_hist d_data]. f_equal.
        unfold hist_at. cbn. rewrite app_nth2, Nat.sub_diag by lia. reflexivity.
      + cbn. exact (e_hlen _ _ _ _ E1).
  Qed.
End Run.

(** ** copies *)
Lemma copy_h_spec t h h' t1 : wf h -> live h t -> copy_h t h = (h', t1) ->
  wf h' /\ (forall i, ext h h' i []) /\ live h' t1 /\ look h' t1 = look h t /\ fresh h h' t1.
Proof.
  intros W L H. unfold copy_h, deep_meta in H. pose proof (make_meta_spec (look_meta h (t_meta t)) h W) as M. destruct (make_meta _ h) as [h1 m]. destruct M as (E & W1 & M1 & M2 & M3 & M4 & M5 & M6).
  cbn [new_arr] in H. injection H as <- <-. assert (E' := fun i => ext_trans _ _ _ _ [] [] (E i) (new_arr_ext (arr_at h1 (t_arr t)) h1 i)).
  split; [exact (wf_new_arr (arr_at h1 (t_arr t)) h1 W1)|]. split; [exact E'|]. split; [split; cbn; [exact M2|rewrite app_length; cbn; lia]|]. split.
  - set (x := arr_at h1 (t_arr t)). unfold look. cbn [t_meta t_arr t_dtype].
    assert (Ex : arr_at (mkHeap (h_metas h1) (h_cmds h1) (h_hists h1) (h_arrs h1 ++ [x])) (length (h_arrs h1)) = x) by (unfold arr_at; cbn [h_arrs]; rewrite app_nth2, Nat.sub_diag by lia; reflexivity).
    rewrite Ex. unfold x. assert (Ea : arr_at h1 (t_arr t) = arr_at h (t_arr t)) by (unfold arr_at; rewrite M6; reflexivity). rewrite Ea. f_equal. rewrite <- M3. reflexivity.
  - unfold fresh, hist_of, cmd_of. cbn [t_meta t_arr]. change (meta_at (mkHeap (h_metas h1) (h_cmds h1) (h_hists h1) (h_arrs h1 ++ [arr_at h1 (t_arr t)])) m) with (meta_at h1 m). rewrite M4, M5, M1, M6. lia.
Qed.

(** ** writers *)
Definition put_cmd (h : heap) (l : loc) (c : list (chan * chan_md)) : heap := mkHeap (h_metas h) (upd_nth l c (h_cmds h)) (h_hists h) (h_arrs h).
Lemma upd_upd {A} i (x y : A) l : upd_nth i y (upd_nth i x l) = upd_nth i y l.
Proof. revert i. induction l as [|a l IH]; intros [|i]; cbn; try reflexivity. rewrite IH. reflexivity. Qed.
Lemma upd_self {A} i (d : A) l : i < length l -> upd_nth i (nth i l d) l = l.
Proof. revert i. induction l as [|a l IH]; intros [|i] H; cbn in *; try lia; try reflexivity. rewrite IH by lia. reflexivity. Qed.
Lemma cmd_put h l c i : l < length (h_cmds h) -> cmd_at (put_cmd h l c) i = if Nat.eqb i l then c else cmd_at h i.
Proof. intros H. unfold cmd_at, put_cmd. cbn [h_cmds]. rewrite nth_upd. destruct (Nat.eqb i l); cbn [andb]; [|reflexivity]. destruct (Nat.ltb_spec l (length (h_cmds h))); [reflexivity|lia]. Qed.
Lemma look_meta_put h m c : r_cmd (meta_at h m) < length (h_cmds h) -> look_meta (put_cmd h (r_cmd (meta_at h m)) c) m = with_chans_md (look_meta h m) c.
Proof.
  intros H. unfold look_meta, with_chans_md. change (meta_at (put_cmd h (r_cmd (meta_at h m)) c) m) with (meta_at h m). rewrite (cmd_put _ _ _ _ H), Nat.eqb_refl. reflexivity.
Qed.
Lemma set_files_h_spec name cs : forall m h h' r, r_cmd (meta_at h m) < length (h_cmds h) -> set_files_h cs name m h = (h', r) ->
  exists c, h' = put_cmd h (r_cmd (meta_at h m)) c /\
    match r with Ok _ => set_named cs name (look_meta h m) = Ok (with_chans_md (look_meta h m) c) | Err e => set_named cs name (look_meta h m) = Err e end.
Proof.
  induction cs as [|ch cs IH]; intros m h h' r W H; cbn [set_files_h set_named] in *.
  - injection H as <- <-. exists (cmd_at h (r_cmd (meta_at h m))). split; [|reflexivity]. unfold put_cmd, cmd_at. rewrite (upd_self _ _ _ W). destruct h; reflexivity.
  - destruct (chan_meta (look_meta h m) ch) as [x|e]; cbn [bind].
    2:{ injection H as <- <-. exists (cmd_at h (r_cmd (meta_at h m))). split; [|reflexivity]. unfold put_cmd, cmd_at. rewrite (upd_self _ _ _ W). destruct h; reflexivity. }
    set (c1 := set_files ch [name ch] (cmd_at h (r_cmd (meta_at h m)))) in *. change (mkHeap (h_metas h) (upd_nth (r_cmd (meta_at h m)) c1 (h_cmds h)) (h_hists h) (h_arrs h)) with (put_cmd h (r_cmd (meta_at h m)) c1) in H.
    apply IH in H; [|cbn; rewrite upd_nth_length; exact W]. destruct H as (c & -> & R). exists c. change (meta_at (put_cmd h (r_cmd (meta_at h m)) c1) m) with (meta_at h m).
    split; [unfold put_cmd; cbn [h_metas h_cmds h_hists h_arrs]; rewrite upd_upd; reflexivity|]. rewrite (look_meta_put _ _ _ W) in R. exact R.
Qed.
(** the effect of a writer on all objects *)
Definition written_view (h : heap) (lh lc : loc) (c : list (chan * chan_md)) (rs : list creator) (t : tref) : tdata :=
  let td := look h t in
  let td := if Nat.eqb (cmd_of h t) lc then with_cmd td c else td in
  if Nat.eqb (hist_of h t) lh then more_history td rs else td.
Lemma write_h_spec name t h h' r : wf h -> live h t -> write_h name t h = (h', r) ->
  wf h' /\ length (h_metas h) <= length (h_metas h') /\ length (h_arrs h) <= length (h_arrs h') /\ length (h_hists h) <= length (h_hists h') /\
  exists c,
    (forall t', live h t' -> look h' t' = written_view h (hist_of h t) (cmd_of h t) c (match r with Ok _ => [CWriter] | Err _ => [] end) t') /\
    (forall d, live_d h d -> look_dec h' d = if Nat.eqb (d_hist d) (hist_of h t) then more_history_dec (look_dec h d) (match r with Ok _ => [CWriter] | Err _ => [] end) else look_dec h d) /\
    match r with
    | Ok m => exists m0, set_named (chans (meta (look h t))) name (meta (look h t)) = Ok m0 /\ chans_md m0 = c /\ m = with_history m0 (history m0 ++ [CWriter])
    | Err e => set_named (chans (meta (look h t))) name (meta (look h t)) = Err e
    end.
Proof.
  intros W L H. unfold write_h, copy_meta in H. cbn [new_meta] in H. set (h0 := mkHeap (h_metas h ++ [meta_at h (t_meta t)]) (h_cmds h) (h_hists h) (h_arrs h)) in *.
  destruct L as [L1 L2]. destruct (W _ (meta_at_in h _ L1)) as [Wc Wh].
  assert (E0 : meta_at h0 (t_meta t) = meta_at h (t_meta t)) by (unfold meta_at, h0; cbn [h_metas]; apply app_nth1; exact L1).
  assert (E1 : meta_at h0 (length (h_metas h)) = meta_at h (t_meta t)) by (unfold meta_at, h0; cbn [h_metas]; rewrite (app_nth2 (h_metas h)), Nat.sub_diag by lia; reflexivity).
  assert (Lm : look_meta h0 (length (h_metas h)) = meta (look h t)) by (unfold look_meta; rewrite E1; reflexivity).
  assert (W0 : wf h0). { intros x Hx. cbn in *. apply in_app_or in Hx. destruct Hx as [Hx|[<-|[]]]; [exact (W x Hx)|split; assumption]. }
  rewrite E0 in H. destruct (set_files_h (r_chans (meta_at h (t_meta t))) name (length (h_metas h)) h0) as [h1 r1] eqn:S.
  apply set_files_h_spec in S; [|rewrite E1; exact Wc]. destruct S as (c & -> & R). rewrite E1 in *. change (r_cmd (meta_at h (t_meta t))) with (cmd_of h t) in *.
  set (h1 := put_cmd h0 (cmd_of h t) c) in *.
  assert (W1 : wf h1). { intros x Hx. unfold h1, put_cmd in *. cbn [h_metas h_cmds h_hists] in *. rewrite upd_nth_length. exact (W0 x Hx). }
  assert (V1 : forall t', live h t' -> look h1 t' = if Nat.eqb (cmd_of h t') (cmd_of h t) then with_cmd (look h t') c else look h t').
  { intros t' [T1 T2]. unfold look, look_meta. assert (Em : meta_at h1 (t_meta t') = meta_at h (t_meta t')) by (unfold meta_at, h1, put_cmd, h0; cbn [h_metas]; apply app_nth1; exact T1).
    rewrite Em. unfold h1. rewrite cmd_put by exact Wc. change (r_cmd (meta_at h (t_meta t'))) with (cmd_of h t'). destruct (Nat.eqb (cmd_of h t') (cmd_of h t)); reflexivity. }
  assert (P1 : forall t', live h t' -> live h1 t'). { intros t' [T1 T2]. split; unfold h1, put_cmd, h0; cbn [h_metas h_arrs]; [rewrite app_length; cbn; lia|exact T2]. }
  assert (H1 : forall t', live h t' -> hist_of h1 t' = hist_of h t'). { intros t' [T1 T2]. unfold hist_of, meta_at, h1, put_cmd, h0. cbn [h_metas]. rewrite app_nth1 by exact T1. reflexivity. }
  destruct r1 as [u|e].
  - injection H as <- <-. unfold add_record_h. assert (E2 : r_hist (meta_at h1 (length (h_metas h))) = hist_of h t).
    { change (meta_at h1 (length (h_metas h))) with (meta_at h0 (length (h_metas h))). rewrite E1. reflexivity. }
    rewrite E2. assert (E := add_record_ext (hist_of h t) CWriter h1).
    split; [apply wf_add_record; exact W1|]. split; [cbn; rewrite app_length; cbn; lia|]. split; [cbn; lia|]. split; [cbn; rewrite upd_nth_length; lia|].
    exists c. split; [|split].
    + intros t' T. rewrite (ext_look _ _ _ _ _ W1 E (P1 _ T)), (H1 _ T), (V1 _ T). unfold written_view. reflexivity.
    + intros d D. rewrite (ext_look_dec _ _ _ _ _ E); [reflexivity|exact D].
    + change (r_chans (meta_at h (t_meta t))) with (chans (meta (look h t))) in R. rewrite Lm in R. eexists. split; [exact R|]. split; [reflexivity|].
      rewrite <- Lm. assert (E3 : look_meta h1 (length (h_metas h)) = with_chans_md (look_meta h0 (length (h_metas h))) c).
      { unfold h1. replace (cmd_of h t) with (r_cmd (meta_at h0 (length (h_metas h)))) by (rewrite E1; reflexivity). apply look_meta_put. rewrite E1. exact Wc. }
      rewrite <- E3. unfold look_meta. change (meta_at (add_record_at (hist_of h t) CWriter h1) (length (h_metas h))) with (meta_at h1 (length (h_metas h))). unfold with_history. cbn [fs chans n_chans n_samples first_time last_time info chans_md history].
      f_equal. rewrite E2. rewrite (e_hists _ _ _ _ E (hist_of h t)) by exact Wh. rewrite Nat.eqb_refl. reflexivity.
  - injection H as <- <-. split; [exact W1|]. split; [cbn; rewrite app_length; cbn; lia|]. split; [cbn; lia|]. split; [cbn; lia|]. exists c. split; [|split].
    + intros t' T. rewrite (V1 _ T). unfold written_view. destruct (Nat.eqb (cmd_of h t') (cmd_of h t)), (Nat.eqb (hist_of h t') (hist_of h t)); try reflexivity; unfold more_history, with_history; cbn; rewrite app_nil_r; reflexivity.
    + intros d D. change (look_dec h1 d) with (look_dec h d). destruct (Nat.eqb _ _); [|reflexivity]. unfold more_history_dec, look_dec. cbn. rewrite app_nil_r. reflexivity.
    + change (r_chans (meta_at h (t_meta t))) with (chans (meta (look h t))) in R. rewrite Lm in R. exact R.
Qed.

(** ** everything reachable is well formed *)
Lemma len_live h h' t : length (h_metas h) <= length (h_metas h') -> length (h_arrs h) <= length (h_arrs h') -> live h t -> live h' t.
Proof. intros A B [C D]. split; lia. Qed.
Lemma len_live_d h h' d : length (h_hists h) <= length (h_hists h') -> length (h_arrs h) <= length (h_arrs h') -> live_d h d -> live_d h' d.
Proof. intros A B [C D]. split; [lia|]. eapply Forall_impl; [|exact D]. intros kv K. cbn beta in K. lia. Qed.
Lemma world_ok rnd drnd orc h ts ds : world rnd drnd orc h ts ds -> wf h /\ (forall t, In t ts -> live h t) /\ (forall d, In d ds -> live_d h d).
Proof.
  induction 1 as [|h ts ds td h1 m h2 a Hw IH Hm Ha|h ts ds t data dt h1 a Hw IH Ht Ha|h ts ds p t h' r Hw IH Ht Hr|h ts ds t h' t' Hw IH Ht Hr|h ts ds t c dt x h' r Hw IH Ht Hr|h ts ds t name h' r Hw IH Ht Hr|h ts ds ur maxf p t h' r Hw IH Ht Hr|h ts ds d h' x Hw IH Hd Hr].
  - split; [intros m []|]. split; intros ? [].
  - destruct IH as (W & T & D). pose proof (make_meta_spec (meta td) h W) as M. rewrite Hm in M. destruct M as (E & W1 & M1 & M2 & M3 & M4 & M5 & M6).
    assert (A := new_arr_ext (rows td) h1 0). assert (W2 := wf_new_arr (rows td) h1 W1). rewrite Ha in A, W2. cbn [fst] in A, W2. assert (E2 := ext_trans _ _ _ _ [] [] (E 0) A).
    split; [exact W2|]. split; [|intros d Hd; exact (ext_live_d _ _ _ _ _ E2 (D d Hd))]. intros t [<-|Ht]; [|exact (ext_live _ _ _ _ _ E2 (T t Ht))].
    cbn [new_arr] in Ha. injection Ha as <- <-. split; cbn; [exact M2|rewrite app_length; cbn; lia].
  - destruct IH as (W & T & D). assert (A := new_arr_ext data h 0). assert (W2 := wf_new_arr data h W). rewrite Ha in A, W2. cbn [fst] in A, W2.
    split; [exact W2|]. split; [|intros d Hd; exact (ext_live_d _ _ _ _ _ A (D d Hd))]. intros t' [<-|Ht']; [|exact (ext_live _ _ _ _ _ A (T t' Ht'))].
    destruct (T t Ht) as [T1 T2]. cbn [new_arr] in Ha. injection Ha as <- <-. split; cbn; [exact T1|rewrite app_length; cbn; lia].
  - destruct IH as (W & T & D). destruct (run_h_spec _ _ _ _ _ _ _ _ W (T t Ht) Hr) as (W' & E & R). split; [exact W'|]. split; [|intros d Hd; exact (ext_live_d _ _ _ _ _ E (D d Hd))].
    destruct r as [t1|e]; [|intros t' Ht'; exact (ext_live _ _ _ _ _ E (T t' Ht'))]. intros t' [<-|Ht']; [exact (proj1 R)|exact (ext_live _ _ _ _ _ E (T t' Ht'))].
  - destruct IH as (W & T & D). destruct (copy_h_spec _ _ _ _ W (T t Ht) Hr) as (W' & E & L & _). split; [exact W'|]. split; [|intros d Hd; exact (ext_live_d _ _ _ _ _ (E 0) (D d Hd))].
    intros t2 [<-|Ht']; [exact L|exact (ext_live _ _ _ _ _ (E 0) (T t2 Ht'))].
  - destruct IH as (W & T & D). unfold set_chan_h in Hr. destruct (set_chan (look h t) c dt x) as [td|e]; injection Hr as <- <-; [|split; [exact W|]; split; assumption].
    split; [exact W|]. split; [intros t' Ht'; apply (len_live h)|intros d Hd; apply (len_live_d h)]; cbn; rewrite ?upd_nth_length; try lia; [exact (T t' Ht')|exact (D d Hd)].
  - destruct IH as (W & T & D). destruct (write_h_spec _ _ _ _ _ W (T t Ht) Hr) as (W' & A1 & A2 & A3 & _). split; [exact W'|].
    split; [intros t' Ht'; exact (len_live _ _ _ A1 A2 (T t' Ht'))|intros d Hd; exact (len_live_d _ _ _ A3 A2 (D d Hd))].
  - destruct IH as (W & T & D). destruct (decimator_h_spec _ _ _ _ _ _ _ _ _ _ W (T t Ht) Hr) as (W' & E & R). split; [exact W'|].
    split; [intros t' Ht'; exact (ext_live _ _ _ _ _ E (T t' Ht'))|]. destruct r as [d1|e]; [|intros d Hd; exact (ext_live_d _ _ _ _ _ E (D d Hd))].
    intros d [<-|Hd]; [exact (proj1 R)|exact (ext_live_d _ _ _ _ _ E (D d Hd))].
  - destruct IH as (W & T & D). unfold write_dec_h in Hr. injection Hr as <- <-. assert (E := add_record_ext (d_hist d) CWriter h). split; [apply wf_add_record; exact W|].
    split; [intros t' Ht'; exact (ext_live _ _ _ _ _ E (T t' Ht'))|intros d' Hd'; exact (ext_live_d _ _ _ _ _ E (D d' Hd'))].
Qed.
