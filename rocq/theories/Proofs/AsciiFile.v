(** C82: text recordings on disk. *)
From Coq Require Import String Ascii.
From Verif Require Import Base.Prelude Base.ListUtil Base.Rounding Base.B32 Base.NdArray Base.FileSys Spec.Project Model.Sampling Spec.Sampling Model.Time Model.Persist Model.AsciiData
  Spec.Time Spec.Persist Spec.AsciiData Proofs.FileSys Proofs.ProjectNames Proofs.TimeMeta Proofs.TimeProc Proofs.TimeFinal Proofs.PersistTime Proofs.AsciiData.
Open Scope list_scope.
Open Scope Q_scope.

Section AsciiFile.
  Variable rnd : Q -> Q.
  Variable tparse : string -> res tmeta.
  (** the reader opens the one file the metadata names *)
  Lemma read_ascii_kinds {X} (load : tmeta -> string -> Z -> Z -> res X) ext d s ft tt_ fs_ ts mt m f text :
    kind_at s (d ++ [META_FILE]) = Some (KFile mt) -> tparse mt = Ok m -> component f -> suffix f = ext ->
    (forall c y, In (c, y) (chans_md m) -> cm_files y = [f]) -> (forall c, In c (chans m) -> In c (map fst (chans_md m))) -> chans m <> [] ->
    kind_at s (d ++ [f]) = Some (KFile text) ->
    read_ascii rnd tparse load ext ft tt_ fs_ ts d s = ('(a, b) <- get_read_samples rnd m ft tt_ fs_ ts ;; load m text a b).
  Proof.
    intros Km Pm Cf Sf Hf Hc Hne Kz. unfold read_ascii, read_metadata. rewrite read_file_kind, Km. cbn [bind]. rewrite Pm. cbn [bind].
    pose proof (pjoin_component d f Cf) as Pj.
    assert (C1 : check_data_files s d m = true).
    { unfold check_data_files. apply forallb_forall. intros [ch y] Hy. cbn [snd]. rewrite (Hf ch y Hy). cbn [forallb]. rewrite Pj, is_file_kind, Kz. reflexivity. }
    assert (C2 : check_extensions ext d m = true).
    { unfold check_extensions. apply forallb_forall. intros [ch y] Hy. cbn [snd]. rewrite (Hf ch y Hy). cbn [forallb]. rewrite Pj. unfold last_name. rewrite last_last, Sf, String.eqb_refl. reflexivity. }
    rewrite C1, C2. cbn [negb bind]. destruct (get_read_samples rnd m ft tt_ fs_ ts) as [[a b]|]; cbn [bind]; [|reflexivity].
    unfold first_data_file. destruct (chans m) as [|c0 cs]; [congruence|]. specialize (Hc c0 (or_introl eq_refl)). apply lookup_In in Hc. destruct Hc as [y Hy].
    rewrite Hy, (Hf c0 y (lookup_In_pair _ _ _ Hy)). cbn [bind]. rewrite Pj, read_file_kind, Kz. reflexivity.
  Qed.
End AsciiFile.

Lemma c82_file rnd tparse pyfloat delimiter header samples d s ft tt_ fs_ ts m f text : good_rnd rnd ->
  0 < fs m -> (1 <= n_samples m <= 2 ^ 49 - 1)%Z -> last_time m == stamp (first_time m) (period rnd (fs m)) (n_samples m - 1) ->
  text_recording tparse d s m f text -> sample_file pyfloat delimiter header samples text ->
  rectangular (length (chans m)) samples -> Z.of_nat (length samples) = n_samples m -> (2 <= length (chans m))%nat ->
  read_ascii rnd tparse (read_data_ascii rnd pyfloat delimiter (Z.of_nat (length header))) ".txt" ft tt_ fs_ ts d s =
  (td <- reader_run rnd m "float32" (channels (length (chans m)) samples) ft tt_ fs_ ts ;; Ok (as_any td)).
Proof.
  intros G Hfs Hns Hl (mt & Km & Pm & Cf & Sf & Hf & Hc & Kz) F R L N.
  assert (Hne : chans m <> []) by (intros E; rewrite E in N; cbn in N; lia).
  rewrite (read_ascii_kinds rnd tparse _ ".txt" d s ft tt_ fs_ ts mt m f text Km Pm Cf Sf Hf Hc Hne Kz). unfold reader_run.
  destruct (get_read_samples rnd m ft tt_ fs_ ts) as [[a b]|e] eqn:E; cbn [bind]; [|reflexivity].
  destruct (read_range_valid G m ft tt_ fs_ ts a b Hfs Hns Hl E) as (A & B & C).
  apply read_many; try assumption; lia.
Qed.
Lemma c82_one rnd tparse pyfloat delimiter header samples d s m f text a b :
  text_recording tparse d s m f text -> sample_file pyfloat delimiter header samples text ->
  rectangular 1 samples -> length (chans m) = 1%nat -> Z.of_nat (length samples) = n_samples m -> (0 <= a < b)%Z -> (b < n_samples m)%Z ->
  exists x, read_ascii rnd tparse (read_data_ascii rnd pyfloat delimiter (Z.of_nat (length header))) ".txt" None None (Some a) (Some b) d s = Ok x /\
    ad_data x = nd1 (slice a (b + 1) (single samples 0)) /\
    forall c, In c (chans m) -> exists v, any_chan x c = Ok (Sc v) /\ nth_error (single samples 0) (Z.to_nat a) = Some v.
Proof.
  intros (mt & Km & Pm & Cf & Sf & Hf & Hc & Kz) F R N L Hab Hb.
  assert (Hne : chans m <> []) by (intros E; rewrite E in N; cbn in N; lia).
  rewrite (read_ascii_kinds rnd tparse _ ".txt" d s None None (Some a) (Some b) mt m f text Km Pm Cf Sf Hf Hc Hne Kz).
  rewrite read_samples_explicit by lia. cbn [bind]. rewrite (read_one _ _ _ _ samples) by (try assumption; lia).
  destruct (read_data_spec rnd m "float32" (channels 1 samples) a b) as (td & E & _ & _ & _ & _ & _ & _ & Ec & _). rewrite E. cbn [bind].
  eexists. split; [reflexivity|]. cbn [ad_data]. split; [reflexivity|]. intros c Hin. unfold any_chan. cbn [ad_meta ad_data]. rewrite Ec.
  rewrite (proj2 (chan_in_spec c (chans m)) Hin). destruct (chans m) as [|c0 [|c1 cs]]; cbn in N; try lia. destruct Hin as [<-|[]].
  assert (Ei : chan_index [c0] c0 = Some 0%nat) by (unfold chan_index; cbn [last_index_from]; rewrite String.eqb_refl; reflexivity).
  rewrite Ei. assert (Lb : (b < Z.of_nat (length (single samples 0)))%Z) by (assert (Ll : length (single samples 0) = length samples) by (unfold single; apply map_length); lia).
  destruct (slice_entries _ a b (single samples 0) ltac:(lia) ltac:(lia) Lb) as [Ls Es].
  specialize (Es 0%Z ltac:(lia)). rewrite Z.add_0_r in Es. change (Z.to_nat 0) with 0%nat in Es.
  destruct (slice a (b + 1) (single samples 0)) as [|v l]; [cbn in Ls; lia|]. exists v. cbn [nd1 map nd_nth nth_error]. split; [reflexivity|].
  rewrite <- Es. reflexivity.
Qed.
(** a file shorter than its metadata says *)
Lemma c82_short rnd tparse pyfloat delimiter header samples d s m f text a b :
  text_recording tparse d s m f text -> sample_file pyfloat delimiter header samples text ->
  rectangular (length (chans m)) samples -> (2 <= length (chans m))%nat -> (0 <= a)%Z -> (a + 1 < Z.of_nat (length samples) <= b)%Z -> (b < n_samples m)%Z ->
  exists x, read_ascii rnd tparse (read_data_ascii rnd pyfloat delimiter (Z.of_nat (length header))) ".txt" None None (Some a) (Some b) d s = Ok x /\
    n_samples (ad_meta x) = (b - a + 1)%Z /\
    exists r, ad_data x = nd2 r /\ forall row, In row r -> Z.of_nat (length row) = (Z.of_nat (length samples) - a)%Z.
Proof.
  intros (mt & Km & Pm & Cf & Sf & Hf & Hc & Kz) F R N Ha Hs Hb.
  assert (Hne : chans m <> []) by (intros E; rewrite E in N; cbn in N; lia).
  rewrite (read_ascii_kinds rnd tparse _ ".txt" d s None None (Some a) (Some b) mt m f text Km Pm Cf Sf Hf Hc Hne Kz).
  rewrite read_samples_explicit by lia. cbn [bind]. rewrite (read_many rnd _ _ _ (length (chans m)) samples) by (try assumption; lia).
  destruct (read_data_spec rnd m "float32" (channels (length (chans m)) samples) a b) as (td & E & Er & _ & En & _). rewrite E. cbn [bind].
  eexists. split; [reflexivity|]. cbn [ad_meta ad_data as_any]. split; [exact En|]. exists (rows td). split; [reflexivity|].
  intros row Hrow. rewrite Er in Hrow. apply in_map_iff in Hrow. destruct Hrow as (v & <- & Hv). unfold channels in Hv. apply in_map_iff in Hv.
  destruct Hv as (c & <- & _). unfold slice. rewrite firstn_length, skipn_length. assert (Ll : length (single samples c) = length samples) by (unfold single; apply map_length). lia.
Qed.

(** ** files that are not a table of numbers *)
Section Malformed.
  Variable rnd : Q -> Q.
  Variable pyfloat : string -> res cell.
  Variable delimiter : option ascii.
  Variable sep : ascii.
  Hypothesis S : separator delimiter sep.
  Hypothesis VE : forall t e, pyfloat t = Err e -> e = ValueError.
  Definition good_tokens (row : list string) : Prop := row <> [] /\ forall t, In t row -> token sep t.

  Lemma convert_err row e : mapM (convert pyfloat) row = Err e -> e = ValueError.
  Proof.
    induction row as [|t row IH]; cbn [mapM]; [discriminate|]. unfold convert at 1. destruct (pyfloat t) as [v|e'] eqn:E; cbn [bind].
    - destruct (mapM (convert pyfloat) row); cbn [bind]; [discriminate|]. intros [= <-]. apply IH. reflexivity.
    - intros [= <-]. eapply VE. exact E.
  Qed.
  Lemma convert_bad row t e : In t row -> pyfloat t = Err e -> exists e', mapM (convert pyfloat) row = Err e'.
  Proof.
    induction row as [|x row IH]; [intros []|]. intros [H|H] E; cbn [mapM].
    - subst x. unfold convert at 1. rewrite E. cbn [bind]. eauto.
    - destruct (convert pyfloat x); cbn [bind]; [|eauto]. destruct (IH H E) as [e' ->]. cbn [bind]. eauto.
  Qed.
  Lemma parse_rows_cons n row tokens : good_tokens row ->
    parse_rows pyfloat delimiter n (map (line_of sep) (row :: tokens)) =
    if negb (Nat.eqb (length row) n) then Err ValueError
    else r <- mapM (convert pyfloat) row ;; rs <- parse_rows pyfloat delimiter n (map (line_of sep) tokens) ;; Ok (r :: rs).
  Proof.
    intros [N T]. cbn [map parse_rows]. rewrite (split_line_ok _ _ _ S N T). destruct row; [contradiction|reflexivity].
  Qed.
  Lemma parse_err n : forall tokens e, (forall row, In row tokens -> good_tokens row) ->
    parse_rows pyfloat delimiter n (map (line_of sep) tokens) = Err e -> e = ValueError.
  Proof.
    induction tokens as [|row tokens IH]; intros e T; [discriminate|].
    rewrite parse_rows_cons by (apply T; left; reflexivity). destruct (negb (Nat.eqb (length row) n)); [intros [= <-]; reflexivity|].
    destruct (mapM (convert pyfloat) row) eqn:E; cbn [bind]; [|intros [= <-]; eapply convert_err; exact E].
    destruct (parse_rows pyfloat delimiter n (map (line_of sep) tokens)) eqn:E'; cbn [bind]; [discriminate|]. intros [= <-]. apply (IH e0); [|reflexivity].
    intros r Hr. apply T. right. exact Hr.
  Qed.
  Lemma parse_bad n : forall tokens row, (forall row, In row tokens -> good_tokens row) -> In row tokens ->
    length row <> n \/ (exists t e, In t row /\ pyfloat t = Err e) ->
    exists e, parse_rows pyfloat delimiter n (map (line_of sep) tokens) = Err e.
  Proof.
    induction tokens as [|r tokens IH]; [intros row T []|]. intros row T [H|H] B.
    - subst r. rewrite parse_rows_cons by (apply T; left; reflexivity). destruct (Nat.eqb_spec (length row) n) as [Q|Q]; cbn [negb]; [|eauto].
      destruct B as [B|(t & e & I & E)]; [contradiction|]. destruct (convert_bad row t e I E) as [e' ->]. cbn [bind]. eauto.
    - rewrite parse_rows_cons by (apply T; left; reflexivity). destruct (negb (Nat.eqb (length r) n)); [eauto|].
      destruct (mapM (convert pyfloat) r); cbn [bind]; [|eauto].
      destruct (IH row (fun x Hx => T x (or_intror Hx)) H B) as [e ->]. cbn [bind]. eauto.
  Qed.

  Variable header : list string.
  Hypothesis HH : forall l, In l header -> each_char line_char l.
  Lemma lines_of tokens : (forall row, In row tokens -> good_tokens row) ->
    file_lines (text_of (header ++ map (line_of sep) tokens)) = header ++ map (line_of sep) tokens.
  Proof.
    intros T. apply file_lines_text. intros l Hl. apply in_app_or in Hl. destruct Hl as [Hl|Hl].
    - specialize (HH l Hl). revert HH. apply each_impl. intros c [K _]. exact K.
    - apply in_map_iff in Hl. destruct Hl as (row & <- & Hr). pose proof (line_plain _ _ _ S (proj2 (T row Hr))) as P. revert P. apply each_impl. intros c [[K _] _]. exact K.
  Qed.
  Lemma c82_bad tokens m a b j first row : (forall row, In row tokens -> good_tokens row) -> (0 <= a)%Z ->
    nth_error tokens (Z.to_nat a) = Some first -> (a <= j <= b)%Z -> nth_error tokens (Z.to_nat j) = Some row ->
    length row <> length first \/ (exists t e, In t row /\ pyfloat t = Err e) ->
    read_data_ascii rnd pyfloat delimiter (Z.of_nat (length header)) m (text_of (header ++ map (line_of sep) tokens)) a b = Err ValueError.
  Proof.
    intros T Ha F Hj R B. unfold read_data_ascii, loadtxt. rewrite (lines_of tokens T). rewrite app_length, map_length.
    assert (La : (Z.to_nat a < length tokens)%nat) by (apply nth_error_Some; congruence).
    destruct (Z.ltb_spec (Z.of_nat (length header + length tokens)) (a + Z.of_nat (length header))); [lia|].
    replace (Z.to_nat (a + Z.of_nat (length header))) with (length header + Z.to_nat a)%nat by lia.
    rewrite skipn_app, skipn_all2 by lia. replace (length header + Z.to_nat a - length header)%nat with (Z.to_nat a) by lia. cbn [app].
    rewrite skipn_map. destruct (nth_error_split tokens (Z.to_nat a) F) as (l1 & l2 & E & L1).
    assert (K : skipn (Z.to_nat a) tokens = first :: l2) by (rewrite E, <- L1, skipn_app, skipn_all, Nat.sub_diag; reflexivity).
    rewrite K. cbn [map].
    assert (Gf : good_tokens first) by (apply T; eapply nth_error_In; exact F).
    rewrite from_first_ok by (rewrite (split_line_ok _ _ _ S (proj1 Gf) (proj2 Gf)); exact (proj1 Gf)).
    rewrite (split_line_ok _ _ _ S (proj1 Gf) (proj2 Gf)).
    change (line_of sep first :: map (line_of sep) l2) with (map (line_of sep) (first :: l2)). rewrite firstn_map.
    assert (T' : forall r, In r (firstn (Z.to_nat (b - a + 1)) (first :: l2)) -> good_tokens r).
    { intros r Hr. apply T. rewrite <- (firstn_skipn (Z.to_nat a) tokens), K. apply in_or_app. right.
      rewrite <- (firstn_skipn (Z.to_nat (b - a + 1)) (first :: l2)). apply in_or_app. left. exact Hr. }
    assert (I : In row (firstn (Z.to_nat (b - a + 1)) (first :: l2))).
    { apply (nth_error_In _ (Z.to_nat j - Z.to_nat a)). rewrite nth_error_firstn. destruct (Nat.ltb_spec (Z.to_nat j - Z.to_nat a) (Z.to_nat (b - a + 1))); [|lia].
      rewrite <- K, nth_error_skipn. replace (Z.to_nat a + (Z.to_nat j - Z.to_nat a))%nat with (Z.to_nat j) by lia. exact R. }
    destruct (parse_bad (length first) _ row T' I B) as [e Ee]. rewrite Ee. cbn [bind].
    rewrite (parse_err (length first) _ e T' Ee). reflexivity.
  Qed.
  Lemma c82_short_skip tokens m a b : (forall row, In row tokens -> good_tokens row) -> (Z.of_nat (length tokens) < a)%Z ->
    exists e, read_data_ascii rnd pyfloat delimiter (Z.of_nat (length header)) m (text_of (header ++ map (line_of sep) tokens)) a b = Err e.
  Proof.
    intros T Ha. unfold read_data_ascii, loadtxt. rewrite (lines_of tokens T). rewrite app_length, map_length.
    destruct (Z.ltb_spec (Z.of_nat (length header + length tokens)) (a + Z.of_nat (length header))); [|lia]. cbn [bind]. eauto.
  Qed.
End Malformed.

(** ** comments *)
Lemma cut_comment_app l c : cut_comment (l ++ String "#"%char c)%string = cut_comment l.
Proof. induction l as [|x l IH]; [reflexivity|]. cbn [append cut_comment]. destruct (Ascii.eqb x "#"%char); [reflexivity|]. rewrite IH. reflexivity. Qed.
Section Comments.
  Variable delimiter : option ascii.
  Let same (l l' : string) : Prop := split_line delimiter l = split_line delimiter l'.
  Lemma parse_rows_same pyfloat n ls ls' : Forall2 same ls ls' -> parse_rows pyfloat delimiter n ls = parse_rows pyfloat delimiter n ls'.
  Proof. induction 1 as [|l l' ls ls' S _ IH]; [reflexivity|]. cbn [parse_rows]. rewrite S, IH. reflexivity. Qed.
  Lemma from_first_same ls ls' : Forall2 same ls ls' -> Forall2 same (from_first delimiter ls) (from_first delimiter ls').
  Proof.
    induction 1 as [|l l' ls ls' S F IH]; [constructor|]. cbn [from_first]. rewrite S. destruct (split_line delimiter l') eqn:E; [exact IH|].
    constructor; assumption.
  Qed.
  Lemma Forall2_firstn' {A B} (R : A -> B -> Prop) n l l' : Forall2 R l l' -> Forall2 R (firstn n l) (firstn n l').
  Proof. intros H. revert n. induction H; intros [|n]; cbn; constructor; auto. Qed.
  Lemma Forall2_skipn' {A B} (R : A -> B -> Prop) n l l' : Forall2 R l l' -> Forall2 R (skipn n l) (skipn n l').
  Proof. intros H. revert n. induction H; intros [|n]; cbn; auto; constructor; auto. Qed.
  Lemma loadtxt_same pyfloat text text' a b : Forall2 same (file_lines text) (file_lines text') ->
    loadtxt pyfloat delimiter a b text = loadtxt pyfloat delimiter a b text'.
  Proof.
    intros H. unfold loadtxt. rewrite (Forall2_length' _ _ _ H). destruct (Z.ltb _ _); [reflexivity|].
    pose proof (from_first_same _ _ (Forall2_skipn' _ (Z.to_nat a) _ _ H)) as K.
    destruct K as [|l l' t t' S K]; [reflexivity|]. rewrite S.
    rewrite (parse_rows_same pyfloat _ _ _ (Forall2_firstn' _ (Z.to_nat b) _ _ (Forall2_cons _ _ S K))). reflexivity.
  Qed.
End Comments.
Lemma c82_comments : forall rnd pyfloat delimiter n_header m lines a b,
  (forall l c, In (l, c) lines -> each_char line_char l /\ forall x, c = Some x -> each_char line_char x) ->
  read_data_ascii rnd pyfloat delimiter n_header m (text_of (map (fun lc => match snd lc with Some c => fst lc ++ "#" ++ c | None => fst lc end)%string lines)) a b =
  read_data_ascii rnd pyfloat delimiter n_header m (text_of (map fst lines)) a b.
Proof.
  intros rnd pyfloat delimiter n_header m lines a b H. unfold read_data_ascii.
  assert (N : forall s, each_char line_char s -> each_char (fun x => x <> newline) s).
  { induction s as [|x s IH]; cbn; [auto|]. intros [[A _] B]. split; [exact A|auto]. }
  assert (AP : forall P s t, each_char P s -> each_char P t -> each_char P (s ++ t)%string).
  { intros P s t. induction s as [|x s IH]; cbn; [auto|]. intros [A B] C. split; [exact A|auto]. }
  rewrite (loadtxt_same delimiter pyfloat _ (text_of (map fst lines))); [reflexivity|].
  rewrite !file_lines_text.
  - clear. induction lines as [|[l [c|]] t IH]; cbn [map fst snd]; [constructor| |constructor; [reflexivity|exact IH]].
    constructor; [|exact IH]. unfold split_line. change ("#" ++ c)%string with (String "#"%char c). rewrite cut_comment_app. reflexivity.
  - intros l Hl. apply in_map_iff in Hl. destruct Hl as ([l0 c] & <- & I). apply N. exact (proj1 (H l0 c I)).
  - intros l Hl. apply in_map_iff in Hl. destruct Hl as ([l0 [c|]] & <- & I); cbn [fst snd]; apply N; [|exact (proj1 (H l0 None I))].
    destruct (H l0 (Some c) I) as [A B]. apply AP; [exact A|]. cbn. split; [split; discriminate|]. exact (B c eq_refl).
Qed.
