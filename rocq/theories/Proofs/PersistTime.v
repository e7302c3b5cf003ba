(** C22, C55, C66: time data on disk. *)
From Coq Require Import String Ascii NArith.
From Verif Require Import Spec.Project.
From Verif Require Import Base.Prelude Base.PyString Base.FileSys Base.ListUtil Proofs.FileSys Model.Sampling Model.Time Model.Persist Spec.Sampling Spec.Time Spec.Persist Proofs.TimeMeta Proofs.PersistFs Proofs.ProjectNames.
Open Scope list_scope.
Open Scope Z_scope.

Lemma slice_all {A} n (l : list A) : Z.of_nat (length l) = n -> slice 0 n l = l.
Proof. intros <-. unfold slice. cbn [Z.to_nat skipn]. rewrite Z.sub_0_r, Nat2Z.id. apply firstn_all. Qed.
Lemma map_slice_all {A} n (l : list (list A)) : (forall r, In r l -> Z.of_nat (length r) = n) -> map (slice 0 n) l = l.
Proof. intros H. rewrite <- (map_id l) at 2. apply map_ext_in. intros r Hr. apply slice_all. exact (H r Hr). Qed.

Lemma lookup_set_files c c' fs_ l : lookup c (set_files c' fs_ l) =
  match lookup c l with Some x => Some (if String.eqb c c' then mkChanMd fs_ (cm_info x) else x) | None => None end.
Proof.
  induction l as [|[k v] l IH]; cbn; [reflexivity|]. destruct (String.eqb_spec k c') as [->|E]; cbn.
  - destruct (String.eqb_spec c' c) as [->|E]; [rewrite String.eqb_refl; reflexivity|exact IH].
  - destruct (String.eqb_spec k c) as [->|E2]; [|exact IH]. destruct (String.eqb_spec c c'); [congruence|reflexivity].
Qed.
Lemma set_files_keys c f l : map fst (set_files c f l) = map fst l.
Proof. unfold set_files. rewrite map_map. apply map_ext. intros [k v]. cbn. destruct (String.eqb k c); reflexivity. Qed.
Lemma set_files_info c f l : map (fun kv => (fst kv, cm_info (snd kv))) (set_files c f l) = map (fun kv => (fst kv, cm_info (snd kv))) l.
Proof. unfold set_files. rewrite map_map. apply map_ext. intros [k v]. cbn. destruct (String.eqb k c); reflexivity. Qed.
Lemma lookup_In {A} c (l : list (chan * A)) : In c (map fst l) <-> exists x, lookup c l = Some x.
Proof.
  induction l as [|[k v] l IH]; cbn; [split; [intros []|intros [x H]; discriminate]|].
  destruct (String.eqb_spec k c) as [->|E].
  - split; [intros _; exists v; reflexivity|intros _; left; reflexivity].
  - rewrite <- IH. intuition congruence.
Qed.
Lemma lookup_In_pair {A} c (x : A) (l : list (chan * A)) : lookup c l = Some x -> In (c, x) l.
Proof.
  induction l as [|[k v] l IH]; cbn; [discriminate|]. destruct (String.eqb_spec k c) as [->|E]; intros H; [injection H as ->; left; reflexivity|right; exact (IH H)].
Qed.
Lemma In_lookup {A} c (x : A) (l : list (chan * A)) : NoDup (map fst l) -> In (c, x) l -> lookup c l = Some x.
Proof.
  induction l as [|[k v] l IH]; cbn; [intros _ []|]. intros N H. apply NoDup_cons_iff in N. destruct N as [N1 N2]. destruct H as [H|H].
  - injection H as -> ->. rewrite String.eqb_refl. reflexivity.
  - destruct (String.eqb_spec k c) as [->|E]; [|exact (IH N2 H)]. exfalso. apply N1. apply in_map_iff. exists (c, x). split; [reflexivity|exact H].
Qed.
Lemma chan_in_spec c cs : chan_in c cs = true <-> In c cs.
Proof.
  unfold chan_in. rewrite existsb_exists. split.
  - intros (x & H & E). apply String.eqb_eq in E. subst x. exact H.
  - intros H. exists c. split; [exact H|apply String.eqb_refl].
Qed.

(** the loop over the channels of TimeWriterNumpy *)
Lemma set_all_files_spec f cs : forall m, (forall c, In c cs -> In c (chans m) /\ In c (map fst (chans_md m))) -> NoDup (map fst (chans_md m)) ->
  exists m', set_all_files cs f m = Ok m' /\ m' = with_chans_md m (chans_md m') /\
    map fst (chans_md m') = map fst (chans_md m) /\
    map (fun kv => (fst kv, cm_info (snd kv))) (chans_md m') = map (fun kv => (fst kv, cm_info (snd kv))) (chans_md m) /\
    (forall c x, lookup c (chans_md m') = Some x -> In c cs -> cm_files x = f) /\
    (forall c, ~ In c cs -> lookup c (chans_md m') = lookup c (chans_md m)).
Proof.
  induction cs as [|c cs IH]; intros m H N.
  - exists m. cbn. split; [reflexivity|]. split; [destruct m; reflexivity|]. split; [reflexivity|]. split; [reflexivity|]. split; [intros c x _ []|]. reflexivity.
  - destruct (H c (or_introl eq_refl)) as [H1 H2]. cbn [set_all_files]. unfold chan_meta. rewrite (proj2 (chan_in_spec c _) H1).
    apply lookup_In in H2. destruct H2 as [x Hx]. rewrite Hx. cbn [bind].
    destruct (IH (with_chans_md m (set_files c f (chans_md m)))) as (m' & E1 & E2 & E3 & E4 & E5 & E6).
    { intros c' Hc'. destruct (H c' (or_intror Hc')) as [G1 G2]. cbn [chans chans_md with_chans_md]. rewrite set_files_keys. split; [exact G1|exact G2]. }
    { cbn [chans_md with_chans_md]. rewrite set_files_keys. exact N. }
    exists m'. split; [exact E1|]. split; [rewrite E2 at 1; reflexivity|]. cbn [chans_md with_chans_md] in E3, E4, E6.
    rewrite set_files_keys in E3. rewrite set_files_info in E4. split; [exact E3|]. split; [exact E4|]. split.
    + intros c' x' Hl [<-|Hin]; [|exact (E5 c' x' Hl Hin)]. destruct (in_dec String.string_dec c cs) as [Hi|Hi]; [exact (E5 c x' Hl Hi)|].
      rewrite (E6 c Hi), lookup_set_files, Hx, String.eqb_refl in Hl. injection Hl as <-. reflexivity.
    + intros c' Hn. rewrite (E6 c'); [|intros Hi; apply Hn; right; exact Hi]. rewrite lookup_set_files.
      destruct (lookup c' (chans_md m)) as [y|]; [|reflexivity]. destruct (String.eqb_spec c' c) as [->|_]; [exfalso; apply Hn; left; reflexivity|reflexivity].
Qed.

Section TimeFiles.
  Variable rnd : Q -> Q.
  Variable tser : tmeta -> string.
  Variable tparse : string -> res tmeta.
  Variable nser : string * list (list cell) -> string.
  Variable nparse : string -> res (string * list (list cell)).
  Variable savetxt : list cell -> string.
  Variable inter : string -> list string.
  Notation write := (write_numpy tser nser inter).
  Notation read := (read_numpy rnd tparse nparse).
  Notation NPY := "data.npy"%string.

  Lemma pjoin_npy d : pjoin d NPY = d ++ [NPY].
  Proof. reflexivity. Qed.
  (** the metadata TimeWriterNumpy writes *)
  Definition numpy_meta (m : tmeta) : tmeta :=
    match set_all_files (chans m) [NPY] m with Ok m' => with_history m' (history m' ++ [CWriter]) | Err _ => m end.
  Lemma numpy_meta_spec m : chans_described m ->
    fs (numpy_meta m) = fs m /\ chans (numpy_meta m) = chans m /\ n_chans (numpy_meta m) = n_chans m /\ n_samples (numpy_meta m) = n_samples m /\
    first_time (numpy_meta m) = first_time m /\ last_time (numpy_meta m) = last_time m /\ info (numpy_meta m) = info m /\
    map fst (chans_md (numpy_meta m)) = map fst (chans_md m) /\
    map (fun kv => (fst kv, cm_info (snd kv))) (chans_md (numpy_meta m)) = map (fun kv => (fst kv, cm_info (snd kv))) (chans_md m) /\
    (forall c x, In (c, x) (chans_md (numpy_meta m)) -> cm_files x = [NPY]) /\
    history (numpy_meta m) = history m ++ [CWriter].
  Proof.
    intros [N D]. unfold numpy_meta.
    destruct (set_all_files_spec [NPY] (chans m) m) as (m' & E1 & E2 & E3 & E4 & E5 & E6).
    { intros c Hc. split; [exact Hc|]. apply D. exact Hc. }
    { exact N. }
    rewrite E1. assert (Ef : forall c x, In (c, x) (chans_md m') -> cm_files x = [NPY]).
    { intros c x Hin. assert (L : lookup c (chans_md m') = Some x) by (apply In_lookup; [rewrite E3; exact N|exact Hin]).
      apply (E5 c x L). apply D. rewrite <- E3. apply in_map_iff. exists (c, x). split; [reflexivity|exact Hin]. }
    cbn [fs chans n_chans n_samples first_time last_time info chans_md history with_history].
    split; [rewrite E2; reflexivity|]. split; [rewrite E2; reflexivity|]. split; [rewrite E2; reflexivity|]. split; [rewrite E2; reflexivity|].
    split; [rewrite E2; reflexivity|]. split; [rewrite E2; reflexivity|]. split; [rewrite E2; reflexivity|]. split; [exact E3|]. split; [exact E4|]. split; [exact Ef|]. rewrite E2. reflexivity.
  Qed.
  Lemma write_numpy_two ov d td : chans_described (meta td) ->
    forall s, write ov d td s = two_files ov d NPY (inter (nser (dtype td, rows td))) (nser (dtype td, rows td))
      META_FILE (inter (tser (numpy_meta (meta td)))) (tser (numpy_meta (meta td))) s.
  Proof.
    intros [N D] s. unfold write_numpy, two_files. rewrite 2(pbind_eq (check_dir ov d)).
    destruct (snd (snd (check_dir ov d s))) as [[|]|]; cbn [negb]; [|reflexivity|reflexivity].
    assert (E : forall s1, (_ <~ write_file (d ++ [NPY]) (inter (nser (dtype td, rows td))) (nser (dtype td, rows td));;
      (m <~ pres (fun _ : node => set_all_files (chans (meta td)) [NPY] (meta td));; 
        (let text := tser (with_history m (history m ++ [CWriter])) in write_file (d ++ [META_FILE]) (inter text) text))) s1 =
      (_ <~ write_file (d ++ [NPY]) (inter (nser (dtype td, rows td))) (nser (dtype td, rows td));;
        write_file (d ++ [META_FILE]) (inter (tser (numpy_meta (meta td)))) (tser (numpy_meta (meta td)))) s1).
    { intros s1. rewrite 2(pbind_eq (write_file _ _ _)). destruct (snd (snd (write_file _ _ _ s1))); [|reflexivity].
      rewrite pbind_eq. cbn [pres fst snd]. unfold numpy_meta.
      destruct (set_all_files_spec [NPY] (chans (meta td)) (meta td)) as (m' & E1 & _).
      { intros c Hc. split; [exact Hc|]. apply D. exact Hc. }
      { exact N. }
      rewrite E1. reflexivity. }
    rewrite E. reflexivity.
  Qed.

  (** reading a directory whose metadata names data.npy only *)
  Lemma read_numpy_kinds d s ft tt_ fs_ ts c m z x :
    kind_at s (d ++ [META_FILE]) = Some (KFile c) -> tparse c = Ok m ->
    (forall ch y, In (ch, y) (chans_md m) -> cm_files y = [NPY]) -> (forall ch, In ch (chans m) -> In ch (map fst (chans_md m))) -> chans m <> [] ->
    kind_at s (d ++ [NPY]) = Some (KFile z) -> nparse z = Ok x ->
    read ft tt_ fs_ ts d s = reader_run rnd m (fst x) (snd x) ft tt_ fs_ ts.
  Proof.
    intros Km Pm Hf Hc Hne Kz Pz. unfold read_numpy, read_metadata. rewrite read_file_kind, Km. cbn [bind]. rewrite Pm. cbn [bind].
    assert (C1 : check_data_files s d m = true).
    { unfold check_data_files. apply forallb_forall. intros [ch y] Hy. cbn [snd]. rewrite (Hf ch y Hy). cbn [forallb]. rewrite pjoin_npy, is_file_kind, Kz. reflexivity. }
    assert (C2 : check_extensions ".npy" d m = true).
    { unfold check_extensions. apply forallb_forall. intros [ch y] Hy. cbn [snd]. rewrite (Hf ch y Hy). cbn [forallb]. rewrite pjoin_npy. unfold last_name. rewrite last_last. reflexivity. }
    rewrite C1, C2. cbn [negb bind]. unfold reader_run. destruct (get_read_samples rnd m ft tt_ fs_ ts) as [[a b]|]; cbn [bind]; [|reflexivity].
    unfold first_data_file. destruct (chans m) as [|c0 cs]; [congruence|]. specialize (Hc c0 (or_introl eq_refl)). apply lookup_In in Hc. destruct Hc as [y Hy].
    rewrite Hy, (Hf c0 y (lookup_In_pair _ _ _ Hy)). cbn [bind]. rewrite pjoin_npy, read_file_kind, Kz. cbn [bind]. rewrite Pz. reflexivity.
  Qed.
  Lemma numpy_meta_names m : chans_described m ->
    (forall ch y, In (ch, y) (chans_md (numpy_meta m)) -> cm_files y = [NPY]) /\
    (forall ch, In ch (chans (numpy_meta m)) -> In ch (map fst (chans_md (numpy_meta m)))).
  Proof.
    intros D. destruct (numpy_meta_spec m D) as (_ & E2 & _ & _ & _ & _ & _ & E8 & _ & E10 & _). split; [exact E10|].
    intros ch H. rewrite E8. apply (proj2 D). rewrite <- E2. exact H.
  Qed.

  Lemma npy_meta_neq : NPY <> META_FILE.
  Proof. discriminate. Qed.
  Lemma consistent_chans td : consistent rnd td -> chans (meta td) <> [].
  Proof. intros (H1 & H2 & _) E. rewrite E in H2. destruct (rows td); [apply H1; reflexivity|discriminate]. Qed.

  Lemma c22_numpy ov s d td : consistent rnd td -> chans_described (meta td) -> (2 <= n_samples (meta td)) ->
    writable s d [NPY; META_FILE] -> (ov = true \/ kind_at s d = None) ->
    tparse (tser (numpy_meta (meta td))) = Ok (numpy_meta (meta td)) -> nparse (nser (dtype td, rows td)) = Ok (dtype td, rows td) ->
    result (write ov d td) s = Ok tt /\
    stored s d [(NPY, nser (dtype td, rows td)); (META_FILE, tser (numpy_meta (meta td)))] (final (write ov d td) s) /\
    exists td', read None None None None d (final (write ov d td) s) = Ok td' /\
      rows td' = rows td /\ dtype td' = dtype td /\ same_recording (meta td) (meta td') /\
      history (meta td') = history (meta td) ++ [CWriter; CReader].
  Proof.
    intros Hc D Hn W Hov Pt Pn. unfold result, final. rewrite (write_numpy_two ov d td D s).
    destruct (two_files_spec ov s d NPY (inter (nser (dtype td, rows td))) (nser (dtype td, rows td)) META_FILE (inter (tser (numpy_meta (meta td))))
      (tser (numpy_meta (meta td))) npy_meta_neq W Hov) as (R & St & _ & _).
    unfold result, final in R, St. set (s' := fst (snd _)) in *. split; [exact R|]. split; [exact St|]. destruct St as (S1 & S2 & S3).
    destruct (numpy_meta_names (meta td) D) as [Hf Hi].
    destruct (numpy_meta_spec (meta td) D) as (E1 & E2 & E3 & E4 & E5 & E6 & E7 & E8 & E9 & E10 & E11).
    rewrite (read_numpy_kinds d s' None None None None _ _ _ _ (S1 META_FILE _ (or_intror (or_introl eq_refl))) Pt Hf Hi
       ltac:(rewrite E2; exact (consistent_chans td Hc)) (S1 NPY _ (or_introl eq_refl)) Pn).
    unfold reader_run, get_read_samples. cbn [bind fst snd]. rewrite E4.
    destruct (Z.geb_spec 0 (n_samples (meta td) - 1)); [lia|]. cbn [bind].
    destruct (read_data_spec rnd (numpy_meta (meta td)) (dtype td) (rows td) 0 (n_samples (meta td) - 1)) as (td' & F1 & F2 & F3 & F4 & F5 & (t & F6 & F6') & F7 & F8 & F9 & F10 & F11 & F12).
    exists td'. split; [exact F1|]. destruct Hc as (Hc1 & Hc2 & Hc3 & Hc4 & Hc5).
    replace (n_samples (meta td) - 1 + 1) with (n_samples (meta td)) in F2 by lia. rewrite (map_slice_all _ _ Hc4) in F2.
    split; [exact F2|]. split; [exact F3|]. split.
    - unfold same_recording. rewrite F7, F8, F9, F10, F11, E1, E2, E3, E7, F4, E9.
      split; [reflexivity|]. split; [reflexivity|]. split; [reflexivity|]. split; [lia|]. split; [|split; [|split; reflexivity]].
      + unfold sample_to_datetime in F5. rewrite E5 in F5. injection F5 as <-. unfold inject_Z. ring.
      + rewrite F6'. unfold sample_to_datetime in F6. rewrite E1, E5 in F6. rewrite Hc5. injection F6 as <-. unfold stamp, period. reflexivity.
    - rewrite F12, E11, <- app_assoc. reflexivity.
  Qed.
  Lemma c22_short ov s d td : chans_described (meta td) -> (n_samples (meta td) <= 1) -> rows td <> [] -> length (rows td) = length (chans (meta td)) ->
    writable s d [NPY; META_FILE] -> (ov = true \/ kind_at s d = None) ->
    tparse (tser (numpy_meta (meta td))) = Ok (numpy_meta (meta td)) -> nparse (nser (dtype td, rows td)) = Ok (dtype td, rows td) ->
    result (write ov d td) s = Ok tt /\ read None None None None d (final (write ov d td) s) = Err ValueError.
  Proof.
    intros D Hn Hne Hl W Hov Pt Pn. unfold result, final. rewrite (write_numpy_two ov d td D s).
    destruct (two_files_spec ov s d NPY (inter (nser (dtype td, rows td))) (nser (dtype td, rows td)) META_FILE (inter (tser (numpy_meta (meta td))))
      (tser (numpy_meta (meta td))) npy_meta_neq W Hov) as (R & St & _ & _).
    unfold result, final in R, St. set (s' := fst (snd _)) in *. split; [exact R|]. destruct St as (S1 & S2 & S3).
    destruct (numpy_meta_names (meta td) D) as [Hf Hi].
    destruct (numpy_meta_spec (meta td) D) as (E1 & E2 & E3 & E4 & _).
    rewrite (read_numpy_kinds d s' None None None None _ _ _ _ (S1 META_FILE _ (or_intror (or_introl eq_refl))) Pt Hf Hi
       ltac:(rewrite E2; intros E; rewrite E in Hl; destruct (rows td); [congruence|discriminate]) (S1 NPY _ (or_introl eq_refl)) Pn).
    unfold reader_run, get_read_samples. cbn [bind fst snd]. rewrite E4.
    destruct (Z.geb_spec 0 (n_samples (meta td) - 1)); [reflexivity|lia].
  Qed.
  Lemma c22_refuses s d td k : chans_described (meta td) -> kind_at s d = Some k -> write false d td s = ([], (s, Err WriteError)).
  Proof. intros D H. rewrite (write_numpy_two false d td D s). exact (two_files_refuse s d _ _ _ _ _ _ k H). Qed.

  (** ** C55 for time data *)
  Notation stored_meta := (stored_meta tparse).
  Lemma read_needs_meta ft tt_ fs_ ts d s r : read ft tt_ fs_ ts d s = Ok r ->
    exists c m, kind_at s (d ++ [META_FILE]) = Some (KFile c) /\ tparse c = Ok m /\ chans m <> [] /\
      (forall ch rest, chans m = ch :: rest -> In ch (map fst (chans_md m))).
  Proof.
    unfold read_numpy, read_metadata. rewrite read_file_kind. intros H.
    destruct (kind_at s (d ++ [META_FILE])) as [[c|]|]; cbn [bind] in H; [|discriminate|discriminate].
    destruct (tparse c) as [m|e] eqn:P; [|destruct e; discriminate]. cbn [bind] in H. exists c, m. split; [reflexivity|]. split; [exact P|].
    destruct (check_data_files s d m); cbn [negb bind] in H; [|discriminate]. destruct (check_extensions ".npy" d m); cbn [negb bind] in H; [|discriminate].
    destruct (get_read_samples rnd m ft tt_ fs_ ts) as [[a b]|]; cbn [bind] in H; [|discriminate]. unfold first_data_file in H.
    destruct (chans m) as [|c0 cs]; [discriminate|]. split; [discriminate|]. intros ch rest E. injection E as -> ->. apply lookup_In. destruct (lookup ch (chans_md m)) as [y|]; [exists y; reflexivity|discriminate].
  Qed.
  Lemma c55_time ov s d td s' ft tt_ fs_ ts r : chans_described (meta td) -> chans (meta td) <> [] ->
    writable s d [NPY; META_FILE] -> (ov = true \/ kind_at s d = None) ->
    faithful tser tparse inter (numpy_meta (meta td)) -> faithful nser nparse inter (dtype td, rows td) ->
    (forall old, stored_meta d s = Ok old -> (forall ch y, In (ch, y) (chans_md old) -> cm_files y = [NPY]) /\ forall ch, In ch (chans old) -> In ch (map fst (chans_md old))) ->
    In s' (crash_states (write ov d td) s) -> read ft tt_ fs_ ts d s' = Ok r ->
    read ft tt_ fs_ ts d (final (write ov d td) s) = Ok r \/
    read ft tt_ fs_ ts d s = Ok r \/
    (exists old, stored_meta d s = Ok old /\ reader_run rnd old (dtype td) (rows td) ft tt_ fs_ ts = Ok r).
  Proof.
    intros D Hne W Hov [Pt Pt'] [Pn Pn'] Hold Hs' Hr. unfold crash_states in Hs'. unfold final. rewrite (write_numpy_two ov d td D s) in Hs' |- *.
    destruct (two_files_spec ov s d NPY (inter (nser (dtype td, rows td))) (nser (dtype td, rows td)) META_FILE (inter (tser (numpy_meta (meta td))))
      (tser (numpy_meta (meta td))) npy_meta_neq W Hov) as (_ & St & C & _). specialize (C s' Hs').
    destruct (read_needs_meta ft tt_ fs_ ts d s' r Hr) as (c0 & m0 & Km & Pm & Cm & Lm).
    destruct C as [K1 K2 K3|c Hc K1 K2 K3|K1 K2 K3|c Hc K1 K2 K3|K1 K2 K3].
    - right. left. destruct (kind_at s d) as [k|] eqn:Kd.
      + rewrite (K3 ltac:(discriminate)) in Hr. exact Hr.
      + rewrite K2, (kind_below s d [META_FILE] Kd) in Km. discriminate.
    - exfalso. assert (So : stored_meta d s = Ok m0) by (unfold Spec.Persist.stored_meta; change (d ++ ["metadata.json"%string]) with (d ++ [META_FILE]); rewrite read_file_kind; rewrite K2 in Km; rewrite Km; exact Pm).
      destruct (Hold m0 So) as [Hf Hi]. unfold read_numpy, read_metadata in Hr. rewrite read_file_kind, Km in Hr. cbn [bind] in Hr. rewrite Pm in Hr. cbn [bind] in Hr.
      destruct (check_data_files s' d m0); cbn [negb bind] in Hr; [|discriminate]. destruct (check_extensions ".npy" d m0); cbn [negb bind] in Hr; [|discriminate].
      destruct (get_read_samples rnd m0 ft tt_ fs_ ts) as [[a b]|]; cbn [bind] in Hr; [|discriminate]. unfold first_data_file in Hr.
      destruct (chans m0) as [|ch0 cs0]; [congruence|]. destruct (lookup ch0 (chans_md m0)) as [y|] eqn:Ly; cbn [bind] in Hr; [|discriminate].
      rewrite (Hf ch0 y (lookup_In_pair _ _ _ Ly)) in Hr. cbn [bind] in Hr. rewrite pjoin_npy, read_file_kind, K1 in Hr. cbn [bind] in Hr.
      specialize (Pn' c Hc). destruct (nparse c) as [z|]; [|discriminate]. exact (Pn' z eq_refl).
    - right. right. assert (So : stored_meta d s = Ok m0) by (unfold Spec.Persist.stored_meta; change (d ++ ["metadata.json"%string]) with (d ++ [META_FILE]); rewrite read_file_kind; rewrite K2 in Km; rewrite Km; exact Pm).
      exists m0. split; [exact So|]. destruct (Hold m0 So) as [Hf Hi].
      rewrite (read_numpy_kinds d s' ft tt_ fs_ ts _ _ _ _ Km Pm Hf Hi Cm K1 Pn) in Hr. exact Hr.
    - exfalso. rewrite Km in K2. injection K2 as ->. exact (Pt' c Hc m0 Pm).
    - left. rewrite Km in K2. injection K2 as ->. rewrite Pt in Pm. injection Pm as <-. destruct (numpy_meta_names (meta td) D) as [Hf Hi].
      rewrite (read_numpy_kinds d s' ft tt_ fs_ ts _ _ _ _ Km Pt Hf Hi Cm K1 Pn) in Hr. destruct St as (S1 & _ & _). unfold final in S1.
      rewrite (read_numpy_kinds d _ ft tt_ fs_ ts _ _ _ _ (S1 META_FILE _ (or_intror (or_introl eq_refl))) Pt Hf Hi Cm (S1 NPY _ (or_introl eq_refl)) Pn). exact Hr.
  Qed.

  (** ** ASCII *)
  Lemma rfind_app p : rfind_dot (p ++ ".ascii")%string = Some (String.length p).
  Proof. induction p as [|c p IH]; [reflexivity|]. cbn [String.append rfind_dot String.length]. rewrite IH. reflexivity. Qed.
  Lemma substring_app p q : substring (String.length p) (String.length q) (p ++ q)%string = q.
  Proof.
    induction p as [|c p IH]; cbn [String.length String.append].
    - induction q as [|c q IHq]; [reflexivity|]. cbn [String.length substring]. rewrite IHq. reflexivity.
    - cbn [substring]. exact IH.
  Qed.
  Lemma str_app_length p q : String.length (p ++ q)%string = (String.length p + String.length q)%nat.
  Proof. induction p as [|c p IH]; cbn; [reflexivity|]. rewrite IH. reflexivity. Qed.
  Lemma suffix_ascii p : suffix (p ++ ".ascii")%string <> ".txt"%string.
  Proof.
    unfold suffix. rewrite rfind_app. destruct (_ && _)%bool; [|discriminate]. rewrite str_app_length.
    replace (String.length p + String.length ".ascii" - String.length p)%nat with (String.length ".ascii") by lia. rewrite substring_app. discriminate.
  Qed.
  Lemma split_slash_ne t : split_slash t <> [].
  Proof. destruct t as [|c t]; cbn; [discriminate|]. destruct (Ascii.eqb c "/"%char); [discriminate|]. destruct (split_slash t); discriminate. Qed.
  Lemma split_slash_app a b : no_char "/"%char b -> exists pre x, split_slash (a ++ b)%string = pre ++ [(x ++ b)%string] /\ no_char "/"%char x.
  Proof.
    intros Hb. induction a as [|c a IH].
    - exists [], ""%string. split; [cbn; apply split_slash_no; exact Hb|]. exact I.
    - destruct IH as (pre & x & E & Hx). cbn [String.append split_slash]. destruct (Ascii.eqb c "/"%char) eqn:Ec.
      + exists (""%string :: pre), x. rewrite E. split; [reflexivity|exact Hx].
      + rewrite E. destruct pre as [|y pre]; cbn [app].
        * exists [], (String c x). split; [reflexivity|]. cbn. split; [|exact Hx]. intros ->. discriminate Ec.
        * exists (String c y :: pre), x. split; [reflexivity|exact Hx].
  Qed.
  Lemma last_filter {A} (f : A -> bool) l x d : f x = true -> last (filter f (l ++ [x])) d = x.
  Proof. intros H. rewrite filter_app. cbn [filter]. rewrite H. apply last_last. Qed.
  Lemma ascii_no_slash : no_char "/"%char ".ascii".
  Proof. cbn. repeat split; discriminate. Qed.
  Lemma no_char_app x y : no_char "/"%char x -> no_char "/"%char y -> no_char "/"%char (x ++ y)%string.
  Proof. induction x as [|c x IH]; cbn; [tauto|]. intros [H1 H2] H3. split; [exact H1|exact (IH H2 H3)]. Qed.
  (** the name of the channel file *)
  Lemma ascii_name d t : exists x, last_name (pjoin d (t ++ ".ascii")%string) = (x ++ ".ascii")%string /\ no_char "/"%char x.
  Proof.
    destruct (split_slash_app t ".ascii" ascii_no_slash) as (pre & x & E & Hx). exists x. split; [|exact Hx].
    assert (P : exists l, parts (t ++ ".ascii") = l ++ [(x ++ ".ascii")%string]).
    { unfold parts. rewrite E, filter_app. cbn [filter]. exists (filter (fun y => negb (String.eqb y "" || String.eqb y ".")) pre).
      assert (G : negb (String.eqb (x ++ ".ascii") "" || String.eqb (x ++ ".ascii") ".") = true) by (destruct x as [|c [|c2 x]]; cbn; [reflexivity| |]; destruct (Ascii.eqb c "."); reflexivity).
      rewrite G. reflexivity. }
    destruct P as [l P]. unfold last_name, pjoin. 
    destruct (t ++ ".ascii")%string as [|c u] eqn:Et; [destruct t; discriminate|].
    assert (G : forall p', last (p' ++ parts (String c u)) ""%string = (x ++ ".ascii")%string) by (intros p'; rewrite P, app_assoc; apply last_last).
    destruct c as [b0 b1 b2 b3 b4 b5 b6 b7]. destruct b0, b1, b2, b3, b4, b5, b6, b7; first [apply G|exact (G [])].
  Qed.
  Lemma ascii_component x : no_char "/"%char x -> component (x ++ ".ascii")%string.
  Proof.
    intros H. split; [destruct x; discriminate|]. split; [destruct x as [|c [|c2 x]]; discriminate|]. apply no_char_app; [exact H|apply ascii_no_slash].
  Qed.

  (** every channel written so far has a file name ending in .ascii *)
  Definition ascii_files (l : list (chan * chan_md)) (c : chan) : Prop :=
    exists x p, lookup c l = Some x /\ cm_files x = [(p ++ ".ascii")%string] /\ no_char "/"%char p.
  Lemma write_ascii_chans_spec d td cs : forall m s m', result (write_ascii_chans savetxt inter d td cs m) s = Ok m' ->
    chans m' = chans m /\ (forall c, ascii_files (chans_md m) c -> ascii_files (chans_md m') c) /\ forall c, In c cs -> ascii_files (chans_md m') c.
  Proof.
    induction cs as [|c cs IH]; intros m s m' H; cbn [write_ascii_chans] in H; unfold result in H.
    - cbn in H. injection H as <-. split; [reflexivity|]. split; [tauto|intros c []].
    - rewrite pbind_eq in H. cbn [pres fst snd] in H. destruct (get_chan td c) as [x|]; [|discriminate]. rewrite pbind_eq in H. cbn [fst snd app] in H.
      destruct (snd (snd (write_file _ _ _ s))) as [[]|]; [|discriminate]. rewrite pbind_eq in H. cbn [pres fst snd app] in H.
      destruct (chan_meta m c) as [cm|] eqn:Ec; [|discriminate]. cbn [fst snd] in H. unfold chan_meta in Ec.
      destruct (chan_in c (chans m)); [|discriminate]. destruct (lookup c (chans_md m)) as [cm'|] eqn:El; [|discriminate]. injection Ec as ->.
      destruct (IH _ _ _ H) as (I1 & I2 & I3). cbn [chans chans_md with_chans_md] in I1, I2.
      assert (Hc : ascii_files (set_files c [last_name (pjoin d (lower c ++ ".ascii")%string)] (chans_md m)) c).
      { destruct (ascii_name d (lower c)) as (p & Ep & Hp). eexists _, p. rewrite lookup_set_files, El, String.eqb_refl. split; [reflexivity|]. cbn [cm_files]. rewrite Ep. split; [reflexivity|exact Hp]. }
      split; [exact I1|]. split.
      + intros c' (y & p & Hy & Hp & Hq). apply I2. destruct (String.eqb_spec c' c) as [->|E]; [exact Hc|]. exists y, p. rewrite lookup_set_files, Hy.
        destruct (String.eqb_spec c' c); [congruence|]. split; [reflexivity|]. split; [exact Hp|exact Hq].
      + intros c' [<-|Hin]; [apply I2; exact Hc|exact (I3 c' Hin)].
  Qed.
  Lemma write_file_read p i c s : p <> [] -> result (write_file p i c) s = Ok tt -> kind_at (final (write_file p i c) s) p = Some (KFile c).
  Proof.
    intros Hp H. destruct (kind_at s (removelast p)) as [k|] eqn:K.
    - destruct k as [c0|].
      + exfalso. unfold result, write_file in H. unfold kind_at in K. destruct (look s (removelast p)) as [[x|es]|]; [|discriminate|discriminate].
        destruct (look s p) as [[y|es]|]; discriminate.
      + destruct (kind_at s p) as [k|] eqn:Kp; [destruct k|].
        * unfold final. rewrite (write_file_ok p i c s Hp K) by (rewrite Kp; discriminate). cbn [fst snd]. rewrite kind_put' by (try assumption; try (right; exists c; reflexivity); rewrite Kp; discriminate).
          destruct (path_dec p p); [reflexivity|congruence].
        * exfalso. unfold result, write_file in H. unfold kind_at in Kp. destruct (look s p) as [[x|es]|]; [discriminate| |discriminate]. discriminate.
        * unfold final. rewrite (write_file_ok p i c s Hp K) by (rewrite Kp; discriminate). cbn [fst snd]. rewrite kind_put' by (try assumption; try (right; exists c; reflexivity); rewrite Kp; discriminate).
          destruct (path_dec p p); [reflexivity|congruence].
    - exfalso. unfold result, write_file in H. unfold kind_at in K. destruct (look s (removelast p)) as [x|]; [discriminate|].
      destruct (look s p) as [[y|es]|]; discriminate.
  Qed.
  (** ** the metadata written, explicitly *)
  Lemma keyed_ext (l l' : list (chan * chan_md)) : NoDup (map fst l) -> map fst l' = map fst l ->
    (forall c x, lookup c l = Some x -> lookup c l' = Some x) -> l' = l.
  Proof.
    revert l'. induction l as [|[k v] l IH]; intros l' N E H; destruct l' as [|[k' v'] l']; try discriminate; [reflexivity|].
    cbn [map fst] in E. injection E as -> E. apply NoDup_cons_iff in N. destruct N as [N1 N2]. cbn [map fst] in *.
    assert (Hv : v' = v). { specialize (H k v). cbn in H. rewrite String.eqb_refl in H. specialize (H eq_refl). congruence. }
    subst v'. f_equal. apply IH; [exact N2|exact E|]. intros c x Hc. specialize (H c x). cbn in H.
    destruct (String.eqb_spec k c) as [->|Nk]; [|exact (H Hc)]. exfalso. apply N1. apply lookup_In. exists x. exact Hc.
  Qed.
  Lemma lookup_map_md (g : chan * chan_md -> chan_md) l c : (forall k v, g (k, v) = g (k, v)) ->
    lookup c (map (fun kv => (fst kv, g kv)) l) = match lookup c l with Some x => Some (g (c, x)) | None => None end.
  Proof.
    intros _. induction l as [|[k v] l IH]; cbn; [reflexivity|]. destruct (String.eqb_spec k c) as [->|E]; [reflexivity|exact IH].
  Qed.
  Lemma numpy_meta_eq m : chans_described m -> numpy_meta m = as_written numpy_name m.
  Proof.
    intros [N D]. unfold numpy_meta.
    destruct (set_all_files_spec [NPY] (chans m) m) as (m' & E1 & E2 & E3 & E4 & E5 & E6).
    { intros c Hc. split; [exact Hc|]. apply D. exact Hc. }
    { exact N. }
    rewrite E1, E2. unfold with_history, with_chans_md, as_written. cbn [fs chans n_chans n_samples first_time last_time info chans_md history]. f_equal.
    apply keyed_ext.
    - rewrite map_map. cbn [fst]. exact N.
    - rewrite map_map. cbn [fst]. exact E3.
    - intros c x Hx. rewrite (lookup_map_md (fun kv => mkChanMd [numpy_name (fst kv)] (cm_info (snd kv)))) in Hx by reflexivity. cbn [fst snd] in Hx.
      assert (Hin : In c (map fst (chans_md m))) by (apply lookup_In; destruct (lookup c (chans_md m)) as [y|]; [exists y; reflexivity|discriminate]).
      pose proof Hin as Hin2. rewrite <- E3 in Hin2. apply lookup_In in Hin2. destruct Hin2 as [x' Hx']. rewrite Hx'. f_equal.
      pose proof (E5 c x' Hx' (proj1 (D c) Hin)) as F. destruct (lookup c (chans_md m)) as [y|] eqn:Ly; [|discriminate]. injection Hx as <-.
      assert (I1 : cm_info x' = cm_info y).
      { clear - E4 Hx' Ly. revert E4 Hx' Ly. generalize (chans_md m') (chans_md m). induction l as [|[k v] l IH]; intros [|[k2 v2] l2] E H1 H2; try discriminate.
        cbn in E, H1, H2. injection E as -> Ei E. destruct (String.eqb k2 c); [congruence|]. exact (IH l2 E H1 H2). }
      destruct x' as [fl ci]. cbn in F, I1. rewrite F, I1. reflexivity.
  Qed.
  Lemma write_ascii_chans_md d td cs : forall m s m', result (write_ascii_chans savetxt inter d td cs m) s = Ok m' ->
    NoDup (map fst (chans_md m)) ->
    m' = with_chans_md m (chans_md m') /\ map fst (chans_md m') = map fst (chans_md m) /\
    forall c x, lookup c (chans_md m) = Some x ->
      lookup c (chans_md m') = Some (if in_dec String.string_dec c cs then mkChanMd [ascii_file_name d c] (cm_info x) else x).
  Proof.
    induction cs as [|c cs IH]; intros m s m' H N; cbn [write_ascii_chans] in H; unfold result in H.
    - cbn in H. injection H as <-. split; [destruct m; reflexivity|]. split; [reflexivity|]. intros c x Hx. exact Hx.
    - rewrite pbind_eq in H. cbn [pres fst snd] in H. destruct (get_chan td c) as [x|]; [|discriminate]. rewrite pbind_eq in H. cbn [fst snd app] in H.
      destruct (snd (snd (write_file _ _ _ s))) as [[]|]; [|discriminate]. rewrite pbind_eq in H. cbn [pres fst snd app] in H.
      destruct (chan_meta m c) as [cm|] eqn:Ec; [|discriminate]. cbn [fst snd] in H.
      destruct (IH _ _ _ H) as (I1 & I2 & I3); [cbn [chans_md with_chans_md]; rewrite set_files_keys; exact N|]. cbn [chans chans_md with_chans_md] in I1, I2, I3.
      rewrite set_files_keys in I2. split; [rewrite I1 at 1; reflexivity|]. split; [exact I2|].
      intros c' y Hy. specialize (I3 c'). rewrite lookup_set_files, Hy in I3. specialize (I3 _ eq_refl). rewrite I3. f_equal.
      destruct (String.eqb_spec c' c) as [->|E].
      + destruct (in_dec String.string_dec c (c :: cs)) as [_|Nn]; [|exfalso; apply Nn; left; reflexivity]. cbn [cm_info]. destruct (in_dec String.string_dec c cs); reflexivity.
      + destruct (in_dec String.string_dec c' cs) as [Hi|Hi], (in_dec String.string_dec c' (c :: cs)) as [Hj|Hj]; try reflexivity.
        * exfalso. apply Hj. right. exact Hi.
        * exfalso. destruct Hj as [Hj|Hj]; [congruence|]. exact (Hi Hj).
  Qed.
  Lemma ascii_meta_eq d td m s : chans_described (meta td) -> result (write_ascii_chans savetxt inter d td (chans (meta td)) (meta td)) s = Ok m ->
    with_history m (history m ++ [CWriter]) = as_written (ascii_file_name d) (meta td).
  Proof.
    intros [N D] H. destruct (write_ascii_chans_md d td (chans (meta td)) (meta td) s m H N) as (E1 & E2 & E3).
    rewrite E1. unfold with_history, with_chans_md, as_written. cbn [fs chans n_chans n_samples first_time last_time info chans_md history]. f_equal.
    apply keyed_ext.
    - rewrite map_map. cbn [fst]. exact N.
    - rewrite map_map. cbn [fst]. exact E2.
    - intros c x Hx. rewrite (lookup_map_md (fun kv => mkChanMd [ascii_file_name d (fst kv)] (cm_info (snd kv)))) in Hx by reflexivity. cbn [fst snd] in Hx.
      destruct (lookup c (chans_md (meta td))) as [y|] eqn:Ly; [|discriminate]. injection Hx as <-. rewrite (E3 c y Ly).
      destruct (in_dec String.string_dec c (chans (meta td))) as [_|Nn]; [reflexivity|]. exfalso. apply Nn. apply D. apply lookup_In. exists y. exact Ly.
  Qed.

  Lemma c22_ascii (X : Type) (loadtxt : tmeta -> string -> Z -> Z -> res X) ov s d td ft tt_ fs_ ts : chans (meta td) <> [] -> chans_described (meta td) ->
    tparse (tser (as_written (ascii_file_name d) (meta td))) = Ok (as_written (ascii_file_name d) (meta td)) ->
    result (write_ascii tser savetxt inter ov d td) s = Ok tt ->
    read_ascii rnd tparse loadtxt ".txt" ft tt_ fs_ ts d (final (write_ascii tser savetxt inter ov d td) s) = Err TimeDataReadError.
  Proof.
    intros Hne D Pt H. unfold result in H. unfold final. unfold write_ascii in *. rewrite pbind_eq in *.
    destruct (snd (snd (check_dir ov d s))) as [[|]|]; cbn [negb fst snd] in *; [|discriminate|discriminate].
    set (s1 := fst (snd (check_dir ov d s))) in *. rewrite pbind_eq in *.
    destruct (snd (snd (write_ascii_chans savetxt inter d td (chans (meta td)) (meta td) s1))) as [m|] eqn:Em; cbn [fst snd] in *; [|discriminate].
    set (s2 := fst (snd (write_ascii_chans savetxt inter d td (chans (meta td)) (meta td) s1))) in *.
    destruct (write_ascii_chans_spec d td (chans (meta td)) (meta td) s1 m Em) as (I1 & _ & I3).
    assert (Km := write_file_read (d ++ [META_FILE]) _ _ s2 ltac:(destruct d; discriminate) H). unfold final in Km.
    unfold read_ascii, read_metadata. rewrite read_file_kind, Km. cbn [bind]. pose proof (ascii_meta_eq d td m s1 D Em) as Eq. rewrite Eq, Pt. cbn [bind].
    set (s3 := fst (snd _)). destruct (check_data_files s3 d _); [|reflexivity]. cbn [negb].
    destruct (chans (meta td)) as [|c0 cs]; [congruence|]. destruct (I3 c0 (or_introl eq_refl)) as (x & p & Hx & Hp & Hq).
    assert (F : check_extensions ".txt" d (as_written (ascii_file_name d) (meta td)) = false).
    { rewrite <- Eq. unfold check_extensions. cbn [chans_md with_history]. apply not_true_iff_false. intros T. rewrite forallb_forall in T. specialize (T (c0, x) (lookup_In_pair _ _ _ Hx)).
      cbn [snd] in T. rewrite Hp in T. cbn [forallb] in T. rewrite (pjoin_component d _ (ascii_component p Hq)) in T. unfold last_name in T. rewrite last_last in T.
      rewrite andb_true_r in T. apply String.eqb_eq in T. exact (suffix_ascii p T). }
    rewrite F. reflexivity.
  Qed.

  (** ** C66: the memory map *)
  Lemma c66_now ft tt_ fs_ ts d s m x : read_numpy_map rnd tparse nparse ft tt_ fs_ ts d s = Ok (m, x) ->
    exists td, read ft tt_ fs_ ts d s = Ok td /\ meta td = m /\ elements nparse x s = Ok (rows td) /\ source_dtype x = dtype td /\
    exists f a b, x = Mapped (pjoin d f) (dtype td) a b.
  Proof.
    unfold read_numpy_map, read_numpy. intros H. destruct (read_metadata tparse ".npy" d s) as [m0|]; cbn [bind] in *; [|discriminate].
    destruct (get_read_samples rnd m0 ft tt_ fs_ ts) as [[a b]|]; cbn [bind] in *; [|discriminate].
    destruct (first_data_file m0) as [f|]; cbn [bind] in *; [|discriminate]. rewrite read_file_kind in *. unfold kind_at in *.
    destruct (look s (pjoin d f)) as [[c|es]|] eqn:L; cbn [option_map kind_of bind] in *; [|discriminate|discriminate].
    destruct (nparse c) as [z|] eqn:Pz; cbn [bind] in *; [|discriminate]. unfold read_data_numpy.
    destruct (get_return_metadata rnd m0 a b) as [m'|]; cbn [bind] in *; [|discriminate]. injection H as <- <-.
    eexists. split; [reflexivity|]. cbn [meta rows dtype elements source_dtype]. split; [reflexivity|]. rewrite L, Pz. split; [reflexivity|]. split; [reflexivity|]. exists f, a, b. reflexivity.
  Qed.
  Lemma c66_frame x s s' : (forall p dt a b, x = Mapped p dt a b -> kind_at s' p = kind_at s p) -> elements nparse x s' = elements nparse x s.
  Proof.
    destruct x as [dt data|p dt a b]; [reflexivity|]. intros H. specialize (H p dt a b eq_refl). cbn. unfold kind_at in H.
    destruct (look s' p) as [[c|es]|], (look s p) as [[c'|es']|]; cbn in H; try discriminate; try reflexivity. injection H as ->. reflexivity.
  Qed.
  Lemma c66_write_back d s m dt a b : (forall y, nparse ""%string <> Ok y) -> kind_at s d = Some KDir -> kind_at s (d ++ [NPY]) <> Some KDir ->
    result (write_numpy_map tser nser nparse inter true d m (Mapped (d ++ [NPY]) dt a b)) s = Err RuntimeErr /\
    kind_at (final (write_numpy_map tser nser nparse inter true d m (Mapped (d ++ [NPY]) dt a b)) s) (d ++ [NPY]) = Some (KFile "").
  Proof.
    intros P Kd Kz. unfold result, final, write_numpy_map. rewrite pbind_eq. unfold check_dir. rewrite pbind_eq. cbn [preads fst snd]. rewrite exists_kind, Kd. cbn [andb negb].
    rewrite pbind_eq. cbn [pret fst snd app negb]. rewrite pbind_eq, (write_here s d NPY [] "" Kd Kz). cbn [fst snd]. rewrite pbind_eq. cbn [pres elements fst snd].
    pose proof (kind_put_here s d NPY "" (d ++ [NPY]) Kd Kz) as K. destruct (path_dec (d ++ [NPY]) (d ++ [NPY])); [|congruence].
    set (s1 := put s (d ++ [NPY]) (File "")) in *. unfold kind_at in K. destruct (look s1 (d ++ [NPY])) as [[c|es]|] eqn:L; cbn in K; [|discriminate|discriminate].
    injection K as ->. destruct (nparse ""%string) as [y|] eqn:Py; [exfalso; exact (P y eq_refl)|]. cbn [fst snd]. split; [reflexivity|]. unfold kind_at. rewrite L. reflexivity.
  Qed.

  (** ** restated with the explicit metadata *)
  Lemma t22_numpy ov s d td : consistent rnd td -> chans_described (meta td) -> (2 <= n_samples (meta td)) ->
    writable s d [NPY; META_FILE] -> (ov = true \/ kind_at s d = None) ->
    tparse (tser (as_written numpy_name (meta td))) = Ok (as_written numpy_name (meta td)) -> nparse (nser (dtype td, rows td)) = Ok (dtype td, rows td) ->
    result (write ov d td) s = Ok tt /\
    stored s d [(NPY, nser (dtype td, rows td)); (META_FILE, tser (as_written numpy_name (meta td)))] (final (write ov d td) s) /\
    exists td', read None None None None d (final (write ov d td) s) = Ok td' /\
      rows td' = rows td /\ dtype td' = dtype td /\ same_recording (meta td) (meta td') /\
      history (meta td') = history (meta td) ++ [CWriter; CReader].
  Proof. intros H D. rewrite <- (numpy_meta_eq _ D). intros. apply c22_numpy; assumption. Qed.
  Lemma t22_short ov s d td : chans_described (meta td) -> (n_samples (meta td) <= 1) -> rows td <> [] -> length (rows td) = length (chans (meta td)) ->
    writable s d [NPY; META_FILE] -> (ov = true \/ kind_at s d = None) ->
    tparse (tser (as_written numpy_name (meta td))) = Ok (as_written numpy_name (meta td)) -> nparse (nser (dtype td, rows td)) = Ok (dtype td, rows td) ->
    result (write ov d td) s = Ok tt /\ read None None None None d (final (write ov d td) s) = Err ValueError.
  Proof. intros D. rewrite <- (numpy_meta_eq _ D). intros. apply c22_short; assumption. Qed.
  Lemma t55_time ov s d td s' ft tt_ fs_ ts r : chans_described (meta td) -> chans (meta td) <> [] ->
    writable s d [NPY; META_FILE] -> (ov = true \/ kind_at s d = None) ->
    faithful tser tparse inter (as_written numpy_name (meta td)) -> faithful nser nparse inter (dtype td, rows td) ->
    (forall old, stored_meta d s = Ok old -> names_npy old) ->
    In s' (crash_states (write ov d td) s) -> read ft tt_ fs_ ts d s' = Ok r ->
    read ft tt_ fs_ ts d (final (write ov d td) s) = Ok r \/
    read ft tt_ fs_ ts d s = Ok r \/
    (exists old, stored_meta d s = Ok old /\ reader_run rnd old (dtype td) (rows td) ft tt_ fs_ ts = Ok r).
  Proof. intros D. rewrite <- (numpy_meta_eq _ D). intros. eapply c55_time; eassumption. Qed.
  Lemma t55_time_mix s d td old ft tt_ fs_ ts : chans_described (meta td) -> writable s d [NPY; META_FILE] ->
    nparse (nser (dtype td, rows td)) = Ok (dtype td, rows td) -> stored_meta d s = Ok old -> names_npy old -> chans old <> [] ->
    exists s', In s' (crash_states (write true d td) s) /\ read ft tt_ fs_ ts d s' = reader_run rnd old (dtype td) (rows td) ft tt_ fs_ ts.
  Proof.
    intros D W Pn So [Hf Hi] Hne.
    destruct (two_files_spec true s d NPY (inter (nser (dtype td, rows td))) (nser (dtype td, rows td)) META_FILE (inter (tser (numpy_meta (meta td))))
      (tser (numpy_meta (meta td))) npy_meta_neq W (or_introl eq_refl)) as (_ & _ & _ & s' & Hs' & K1 & K2 & K3).
    exists s'. split; [unfold crash_states; rewrite (write_numpy_two true d td D s); exact Hs'|].
    unfold Spec.Persist.stored_meta in So. rewrite read_file_kind in So. change (d ++ ["metadata.json"%string]) with (d ++ [META_FILE]) in So.
    destruct (kind_at s (d ++ [META_FILE])) as [[c|]|] eqn:Km; [|discriminate|discriminate]. cbn [bind] in So.
    exact (read_numpy_kinds d s' ft tt_ fs_ ts c old _ _ K3 So Hf Hi Hne K2 Pn).
  Qed.
End TimeFiles.
