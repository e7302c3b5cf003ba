(** C82: recordings in text files. *)
From Coq Require Import String Ascii.
From Verif Require Import Base.Prelude Base.ListUtil Base.Rounding Base.B32 Base.NdArray Base.PyString Model.Time Model.AsciiData Spec.AsciiData.
From Verif Require Import Proofs.TimeMeta.
Open Scope list_scope.

(** ** strings *)
Lemma each_app P s t : each_char P (s ++ t) <-> each_char P s /\ each_char P t.
Proof. induction s as [|c s IH]; cbn; [tauto|]. rewrite IH. tauto. Qed.
Lemma each_impl (P R : ascii -> Prop) s : (forall c, P c -> R c) -> each_char P s -> each_char R s.
Proof. intros H. induction s as [|c s IH]; cbn; [tauto|]. intros [A B]. split; [apply H; exact A|apply IH; exact B]. Qed.
Lemma split_char_app c l t : each_char (fun x => x <> c) l -> split_char c (l ++ String c t) = l :: split_char c t.
Proof.
  induction l as [|x l IH]; cbn [String.append each_char]; intros H.
  - cbn [split_char]. rewrite Ascii.eqb_refl. reflexivity.
  - destruct H as [Hx Hl]. cbn [split_char]. destruct (Ascii.eqb_spec x c) as [E|_]; [contradiction|]. rewrite (IH Hl). reflexivity.
Qed.
Lemma split_char_none c l : each_char (fun x => x <> c) l -> split_char c l = [l].
Proof.
  induction l as [|x l IH]; cbn [each_char]; intros H; [reflexivity|]. destruct H as [Hx Hl]. cbn [split_char].
  destruct (Ascii.eqb_spec x c) as [E|_]; [contradiction|]. rewrite (IH Hl). reflexivity.
Qed.
Lemma split_text ls : (forall l, In l ls -> each_char (fun x => x <> newline) l) -> split_char newline (text_of ls) = ls ++ [""%string].
Proof.
  induction ls as [|l ls IH]; intros H; [reflexivity|]. cbn [text_of].
  change (ascii_of_nat 10) with newline. rewrite split_char_app by (apply H; left; reflexivity).
  rewrite IH by (intros x Hx; apply H; right; exact Hx). reflexivity.
Qed.
Lemma drop_last ls : drop_last_empty (ls ++ [""%string]) = ls.
Proof.
  induction ls as [|l ls IH]; [reflexivity|]. cbn [app]. 
  assert (E : forall x (t : list string), t <> [] -> drop_last_empty (x :: t) = x :: drop_last_empty t) by (intros x [|y t] Hn; [contradiction|reflexivity]).
  rewrite E, IH; [reflexivity|]. destruct ls; discriminate.
Qed.
Lemma file_lines_text ls : (forall l, In l ls -> each_char (fun x => x <> newline) l) -> file_lines (text_of ls) = ls.
Proof. intros H. unfold file_lines. rewrite split_text by exact H. apply drop_last. Qed.

Lemma cut_id s : each_char (fun x => x <> "#"%char) s -> cut_comment s = s.
Proof. induction s as [|c s IH]; cbn [each_char cut_comment]; [reflexivity|]. intros [A B]. destruct (Ascii.eqb_spec c "#"%char) as [E|_]; [contradiction|]. rewrite (IH B). reflexivity. Qed.
Lemma lcr_id s : each_char (fun x => x <> return_char) s -> lstrip_cr s = s.
Proof. destruct s as [|c s]; cbn [each_char lstrip_cr]; [reflexivity|]. intros [A B]. destruct (Ascii.eqb_spec c return_char) as [E|_]; [contradiction|reflexivity]. Qed.
Lemma rcr_id s : each_char (fun x => x <> return_char) s -> rstrip_cr s = s.
Proof.
  induction s as [|c s IH]; cbn [each_char rstrip_cr]; [reflexivity|]. intros [A B]. rewrite (IH B).
  destruct (Ascii.eqb_spec c return_char) as [E|_]; [contradiction|]. destruct s; reflexivity.
Qed.

Lemma app_cons_str s c t : ((s ++ String c "") ++ t = s ++ String c t)%string.
Proof. induction s as [|x s IH]; cbn; [reflexivity|]. rewrite IH. reflexivity. Qed.
Lemma app_nil_str s : (s ++ "" = s)%string.
Proof. induction s as [|x s IH]; cbn; [reflexivity|]. rewrite IH. reflexivity. Qed.
Lemma words_run t : forall cur rest, each_char (fun c => is_space c = false) t -> words_acc cur (t ++ rest) = words_acc (cur ++ t) rest.
Proof.
  induction t as [|c t IH]; intros cur rest; cbn [each_char String.append]; intros H; [rewrite app_nil_str; reflexivity|].
  destruct H as [A B]. cbn [words_acc]. rewrite A, (IH _ _ B), app_cons_str. reflexivity.
Qed.
Lemma is_space_char c : (33 <= nat_of_ascii c <= 126)%nat -> is_space c = false.
Proof.
  unfold nat_of_ascii, is_space. intros H. assert (K : (33 <= N_of_ascii c)%N) by lia. revert K. generalize (N_of_ascii c). clear H. intros n K. cbv zeta.
  rewrite (proj2 (N.eqb_neq n 32)), (proj2 (N.leb_gt n 13)), (proj2 (N.leb_gt n 31)) by lia. rewrite !andb_false_r. reflexivity.
Qed.
Lemma token_no_space sep t : token sep t -> each_char (fun c => is_space c = false) t.
Proof. intros [_ H]. revert H. apply each_impl. intros c (K & _). apply is_space_char. exact K. Qed.

Lemma words_line sep row : is_space sep = true -> (forall t, In t row -> token sep t) -> words (line_of sep row) = row.
Proof.
  intros Hs. unfold words. induction row as [|x row IH]; intros H; [reflexivity|].
  pose proof (H x (or_introl eq_refl)) as Hx. pose proof (token_no_space _ _ Hx) as Sx.
  destruct row as [|y row].
  - cbn [line_of]. rewrite <- (app_nil_str x) at 1. rewrite words_run by exact Sx. cbn [String.append words_acc].
    destruct x as [|c x]; [destruct Hx as [Hx _]; contradiction|]. reflexivity.
  - change (line_of sep (x :: y :: row)) with (x ++ String sep (line_of sep (y :: row)))%string.
    rewrite words_run by exact Sx. cbn [String.append words_acc]. rewrite Hs, IH by (intros t Ht; apply H; right; exact Ht).
    destruct x as [|c x]; [destruct Hx as [Hx _]; contradiction|]. reflexivity.
Qed.
Lemma split_line_of sep row : row <> [] -> (forall t, In t row -> token sep t) -> split_char sep (line_of sep row) = row.
Proof.
  assert (T : forall t, token sep t -> each_char (fun x => x <> sep) t) by (intros t [_ H]; revert H; apply each_impl; intros c (_ & K & _); exact K).
  induction row as [|x row IH]; intros Hn H; [contradiction|]. pose proof (T x (H x (or_introl eq_refl))) as Hx. destruct row as [|y row].
  - cbn [line_of]. apply split_char_none. exact Hx.
  - change (line_of sep (x :: y :: row)) with (x ++ String sep (line_of sep (y :: row)))%string.
    rewrite split_char_app by exact Hx. rewrite IH; [reflexivity|discriminate|intros t Ht; apply H; right; exact Ht].
Qed.
Lemma each_line (P : ascii -> Prop) sep row : P sep -> (forall t, In t row -> each_char P t) -> each_char P (line_of sep row).
Proof.
  intros Hs. induction row as [|x row IH]; intros H; [exact I|]. destruct row as [|y row]; [apply H; left; reflexivity|].
  change (line_of sep (x :: y :: row)) with (x ++ String sep (line_of sep (y :: row)))%string. apply each_app.
  split; [apply H; left; reflexivity|]. cbn [each_char]. split; [exact Hs|]. apply IH. intros t Ht. apply H. right. exact Ht.
Qed.
Lemma sep_plain delim sep : separator delim sep -> line_char sep /\ sep <> "#"%char.
Proof.
  destruct delim as [c|]; cbn; [intros (-> & A & B); split; assumption|]. intros [->| ->]; repeat split; intros E; vm_compute in E; discriminate E.
Qed.
Lemma token_plain sep t : token sep t -> each_char (fun c => line_char c /\ c <> "#"%char) t.
Proof.
  intros [_ H]. revert H. apply each_impl. intros c (K & _ & N). split; [|exact N]. split; intros ->; vm_compute in K; lia.
Qed.
Lemma line_plain delim sep row : separator delim sep -> (forall t, In t row -> token sep t) -> each_char (fun c => line_char c /\ c <> "#"%char) (line_of sep row).
Proof. intros S H. apply each_line; [exact (sep_plain _ _ S)|]. intros t Ht. exact (token_plain _ _ (H t Ht)). Qed.
Lemma split_line_ok delim sep row : separator delim sep -> row <> [] -> (forall t, In t row -> token sep t) -> split_line delim (line_of sep row) = row.
Proof.
  intros S Hn H. pose proof (line_plain _ _ _ S H) as P. unfold split_line.
  rewrite cut_id by (revert P; apply each_impl; intros c [_ K]; exact K).
  assert (R : each_char (fun x => x <> return_char) (line_of sep row)) by (revert P; apply each_impl; intros c [[_ K] _]; exact K).
  rewrite lcr_id, rcr_id by exact R.
  destruct (line_of sep row) as [|c l] eqn:E.
  - exfalso. destruct row as [|x row]; [contradiction|]. destruct (H x (or_introl eq_refl)) as [Hx _].
    destruct x as [|c x]; [contradiction|]. destruct row; cbn in E; discriminate E.
  - rewrite <- E. destruct delim as [d|].
    + destruct S as (-> & _). apply split_line_of; assumption.
    + apply words_line; [|exact H]. destruct S as [->| ->]; reflexivity.
Qed.

(** ** arrays *)
Lemma squeeze_nd1 {A} (v : list A) : squeeze (nd1 v) = match v with [x] => Sc x | _ => nd1 v end.
Proof.
  unfold nd1. cbn [squeeze]. rewrite map_map. assert (E : map (fun x : A => squeeze (Sc x)) v = map Sc v) by reflexivity. rewrite E.
  destruct v as [|x [|y v]]; reflexivity.
Qed.
Lemma squeeze_many {A} (l : list (nd A)) : (2 <= length l)%nat -> squeeze (Ax l) = Ax (map squeeze l).
Proof. destruct l as [|x [|y l]]; cbn [length]; try lia. reflexivity. Qed.
Lemma squeeze_nd2 {A} (rows : list (list A)) n : (2 <= length rows)%nat -> (2 <= n)%nat -> (forall r, In r rows -> length r = n) -> squeeze (nd2 rows) = nd2 rows.
Proof.
  intros L N H. unfold nd2. rewrite squeeze_many by (rewrite map_length; exact L). f_equal. rewrite map_map. apply map_ext_in. intros r Hr.
  rewrite squeeze_nd1. specialize (H r Hr). destruct r as [|x [|y r]]; cbn in H; try lia; reflexivity.
Qed.
Lemma squeeze_one {A} (rows : list (list A)) (x : A) : (2 <= length rows)%nat -> (forall r, In r rows -> length r = 1%nat) -> squeeze (nd2 rows) = nd1 (map (fun r => nth 0 r x) rows).
Proof.
  intros L H. unfold nd2. rewrite squeeze_many by (rewrite map_length; exact L). unfold nd1 at 2. f_equal. rewrite !map_map. apply map_ext_in. intros r Hr.
  rewrite squeeze_nd1. specialize (H r Hr). destruct r as [|y [|z r]]; cbn in H; try lia. reflexivity.
Qed.
Lemma columns_nth {A} n (rows : list (list A)) (x : A) : (forall r, In r rows -> length r = n) -> columns n rows = map (fun c => map (fun r => nth c r x) rows) (seq 0 n).
Proof.
  intros H. unfold columns. apply map_ext_in. intros c Hc. apply in_seq in Hc. induction rows as [|r rows IH]; [reflexivity|].
  cbn [flat_map map]. rewrite IH by (intros r' Hr; apply H; right; exact Hr).
  pose proof (H r (or_introl eq_refl)) as Lr. rewrite (nth_error_nth' r x) by lia. reflexivity.
Qed.
Lemma transpose_nd2 {A} (rows : list (list A)) n (x : A) : rows <> [] -> (forall r, In r rows -> length r = n) ->
  transpose (nd2 rows) = Ok (nd2 (map (fun c => map (fun r => nth c r x) rows) (seq 0 n))).
Proof.
  intros Hn H. unfold nd2 at 1, transpose. 
  assert (S : scalars (map nd1 rows) = None) by (destruct rows; [contradiction|reflexivity]). rewrite S.
  assert (M : mapM (fun r => match r with Ax v => match scalars v with Some x => Ok x | None => Err RuntimeErr end | Sc _ => Err RuntimeErr end) (map nd1 rows) = Ok rows).
  { clear. induction rows as [|r rows IH]; [reflexivity|]. cbn [map mapM]. rewrite IH. unfold nd1 at 1. rewrite scalars_map. reflexivity. }
  rewrite M. cbn [bind]. rewrite <- (columns_nth n rows x H). do 2 f_equal.
  destruct rows as [|r rows]; [contradiction|]. rewrite (H r (or_introl eq_refl)). reflexivity.
Qed.
Lemma transpose_nd1 {A} (v : list A) : transpose (nd1 v) = Ok (nd1 v).
Proof. unfold transpose, nd1. rewrite scalars_map. reflexivity. Qed.

(** ** the rows read *)
Section Rows.
  Variable pyfloat : string -> res cell.
  Variable delimiter : option ascii.
  Definition single_row (row : list cell) : list cell := map (option_map b32) row.
  Lemma convert_row row vals : Forall2 (fun t v => pyfloat t = Ok v) row vals -> mapM (convert pyfloat) row = Ok (single_row vals).
  Proof. induction 1 as [|t v row vals E _ IH]; [reflexivity|]. cbn [mapM]. unfold convert at 1. rewrite E. cbn [bind]. rewrite IH. reflexivity. Qed.
  Lemma parse_ok sep n tokens samples : separator delimiter sep -> (0 < n)%nat -> (forall row, In row tokens -> forall t, In t row -> token sep t) ->
    Forall2 (Forall2 (fun t v => pyfloat t = Ok v)) tokens samples -> rectangular n samples ->
    parse_rows pyfloat delimiter n (map (line_of sep) tokens) = Ok (map single_row samples).
  Proof.
    intros S Hn. intros T V. revert T. induction V as [|row vals tokens samples E V IH]; intros T R; [reflexivity|]. cbn [map parse_rows].
    pose proof (R vals (or_introl eq_refl)) as L. pose proof (Forall2_length' _ _ _ E) as L'.
    rewrite (split_line_ok _ _ _ S); [|destruct row; [cbn in L'; lia|discriminate]|apply T; left; reflexivity].
    assert (G : match row with [] => parse_rows pyfloat delimiter n (map (line_of sep) tokens)
                | _ :: _ => if negb (Nat.eqb (length row) n) then Err ValueError else r <- mapM (convert pyfloat) row ;; rs <- parse_rows pyfloat delimiter n (map (line_of sep) tokens) ;; Ok (r :: rs) end
              = Ok (single_row vals :: map single_row samples)).
    { assert (Hm : forall X (x y : X), match row with [] => x | _ :: _ => y end = y) by (intros X x y; destruct row; [cbn in L'; lia|reflexivity]).
      rewrite Hm. rewrite L', L, Nat.eqb_refl. cbn [negb]. rewrite (convert_row _ _ E). cbn [bind].
      rewrite IH; [reflexivity|intros r Hr; apply T; right; exact Hr|intros r Hr; apply R; right; exact Hr]. }
    destruct row; exact G.
  Qed.
  Lemma forall2_slice {A B} (P : A -> B -> Prop) l l' : Forall2 P l l' -> forall n, Forall2 P (firstn n l) (firstn n l') /\ Forall2 P (skipn n l) (skipn n l').
  Proof.
    induction 1 as [|x y l l' E F IH]; intros [|n]; cbn; auto. destruct (IH n) as [I1 I2]. split; [constructor; assumption|exact I2].
  Qed.
  Lemma from_first_ok l t : split_line delimiter l <> [] -> from_first delimiter (l :: t) = l :: t.
  Proof. intros H. cbn [from_first]. destruct (split_line delimiter l); [contradiction|reflexivity]. Qed.
  Lemma loadtxt_rows header samples text n a k : sample_file pyfloat delimiter header samples text -> rectangular n samples -> (0 < n)%nat ->
    (0 <= a < Z.of_nat (length samples))%Z ->
    loadtxt pyfloat delimiter (a + Z.of_nat (length header)) k text = Ok (squeeze (nd2 (map single_row (firstn (Z.to_nat k) (skipn (Z.to_nat a) samples))))).
  Proof.
    intros (sep & tokens & -> & Hh & S & T & V) R Hn Ha. unfold loadtxt.
    assert (Ln : length tokens = length samples) by exact (Forall2_length' _ _ _ V).
    rewrite file_lines_text.
    2:{ intros l Hl. apply in_app_or in Hl. destruct Hl as [Hl|Hl].
        - specialize (Hh l Hl). revert Hh. apply each_impl. intros c [K _]. exact K.
        - apply in_map_iff in Hl. destruct Hl as (row & <- & Hr). pose proof (line_plain _ _ _ S (T row Hr)) as P. revert P. apply each_impl. intros c [[K _] _]. exact K. }
    rewrite app_length, map_length. destruct (Z.ltb_spec (Z.of_nat (length header + length tokens)) (a + Z.of_nat (length header))); [lia|].
    replace (Z.to_nat (a + Z.of_nat (length header))) with (length header + Z.to_nat a)%nat by lia.
    rewrite skipn_app, skipn_all2 by lia. replace (length header + Z.to_nat a - length header)%nat with (Z.to_nat a) by lia. cbn [app].
    rewrite skipn_map. destruct (forall2_slice _ _ _ V (Z.to_nat a)) as [_ V'].
    assert (T' : forall row, In row (skipn (Z.to_nat a) tokens) -> forall t, In t row -> token sep t) by (intros row Hr; apply T; rewrite <- (firstn_skipn (Z.to_nat a) tokens); apply in_or_app; right; exact Hr).
    assert (R' : rectangular n (skipn (Z.to_nat a) samples)) by (intros row Hr; apply R; rewrite <- (firstn_skipn (Z.to_nat a) samples); apply in_or_app; right; exact Hr).
    assert (L' : (0 < length (skipn (Z.to_nat a) samples))%nat) by (rewrite skipn_length; lia).
    revert V' T' R' L'. generalize (skipn (Z.to_nat a) tokens) (skipn (Z.to_nat a) samples). intros tk sm V' T' R' L'.
    destruct V' as [|row vals tk sm E V']; [cbn in L'; lia|]. cbn [map].
    assert (Lr : length row = n) by (rewrite (Forall2_length' _ _ _ E); apply R'; left; reflexivity).
    assert (Sr : split_line delimiter (line_of sep row) = row) by (apply split_line_ok; [exact S|destruct row; [cbn in Lr; lia|discriminate]|apply T'; left; reflexivity]).
    rewrite from_first_ok by (rewrite Sr; destruct row; [cbn in Lr; lia|discriminate]). rewrite Sr, Lr.
    change (line_of sep row :: map (line_of sep) tk) with (map (line_of sep) (row :: tk)). rewrite firstn_map.
    assert (V2 : Forall2 (Forall2 (fun t v => pyfloat t = Ok v)) (row :: tk) (vals :: sm)) by (constructor; assumption).
    destruct (forall2_slice _ _ _ V2 (Z.to_nat k)) as [V3 _].
    rewrite (parse_ok sep n _ (firstn (Z.to_nat k) (vals :: sm)) S Hn).
    - cbn [bind]. reflexivity.
    - intros r Hr. apply T'. rewrite <- (firstn_skipn (Z.to_nat k) (row :: tk)). apply in_or_app. left. exact Hr.
    - exact V3.
    - intros r Hr. apply R'. rewrite <- (firstn_skipn (Z.to_nat k) (vals :: sm)). apply in_or_app. left. exact Hr.
  Qed.
End Rows.

(** ** reading *)
Section Read.
  Variable rnd : Q -> Q.
  Variable pyfloat : string -> res cell.
  Variable delimiter : option ascii.
  Variable header : list string.
  Let h := Z.of_nat (length header).
  Notation read := (read_data_ascii rnd pyfloat delimiter h).

  Lemma rect_slice n samples k j : rectangular n samples -> forall r, In r (map single_row (firstn k (skipn j samples))) -> length r = n.
  Proof.
    intros R r Hr. apply in_map_iff in Hr. destruct Hr as (x & <- & Hx). unfold single_row. rewrite map_length. apply R.
    rewrite <- (firstn_skipn j samples). apply in_or_app. right. rewrite <- (firstn_skipn k (skipn j samples)). apply in_or_app. left. exact Hx.
  Qed.
  Lemma slice_channels n samples a b : rectangular n samples -> (0 <= a)%Z ->
    map (fun c => map (fun r : list cell => nth c r (None : cell)) (map single_row (firstn (Z.to_nat (b - a + 1)) (skipn (Z.to_nat a) samples)))) (seq 0 n) =
    map (slice a (b + 1)) (channels n samples).
  Proof.
    intros R Ha. unfold channels. rewrite map_map. apply map_ext_in. intros c Hc. apply in_seq in Hc. unfold slice, single.
    rewrite skipn_map, firstn_map, map_map. replace (b + 1 - a)%Z with (b - a + 1)%Z by lia. apply map_ext_in. intros row Hr.
    assert (L : length row = n).
    { apply R. rewrite <- (firstn_skipn (Z.to_nat a) samples). apply in_or_app. right.
      rewrite <- (firstn_skipn (Z.to_nat (b - a + 1)) (skipn (Z.to_nat a) samples)). apply in_or_app. left. exact Hr. }
    unfold single_row. rewrite (nth_indep _ None (option_map b32 None)) by (rewrite map_length, L; lia). rewrite List.map_nth. reflexivity.
  Qed.

  (** the rows that are there are read *)
  Lemma read_many n samples text m a b : sample_file pyfloat delimiter header samples text -> rectangular n samples -> (2 <= n)%nat ->
    (0 <= a < b)%Z -> (a + 1 < Z.of_nat (length samples))%Z ->
    read m text a b = (td <- read_data_numpy rnd m "float32" (channels n samples) a b ;; Ok (as_any td)).
  Proof.
    intros F R Hn Hab Hs. unfold read_data_ascii, h. rewrite (loadtxt_rows pyfloat delimiter header samples text n a _ F R) by lia. cbn [bind].
    rewrite (squeeze_nd2 _ n).
    - rewrite (transpose_nd2 _ n (None : cell)); [|intros E; apply (f_equal (@length _)) in E; rewrite map_length, firstn_length, skipn_length in E; cbn in E; lia|exact (rect_slice n samples _ _ R)].
      cbn [bind]. rewrite (slice_channels n samples a b R) by lia. unfold read_data_numpy. cbn [bind].
      destruct (get_return_metadata rnd m a b); reflexivity.
    - rewrite map_length, firstn_length, skipn_length. lia.
    - exact Hn.
    - exact (rect_slice n samples _ _ R).
  Qed.
  (** one channel: the array has one axis *)
  Lemma read_one samples text m a b : sample_file pyfloat delimiter header samples text -> rectangular 1 samples ->
    (0 <= a < b)%Z -> (a + 1 < Z.of_nat (length samples))%Z ->
    read m text a b = (td <- read_data_numpy rnd m "float32" (channels 1 samples) a b ;;
      Ok (mkAny (meta td) (dtype td) (nd1 (slice a (b + 1) (single samples 0))))).
  Proof.
    intros F R Hab Hs. unfold read_data_ascii, h. rewrite (loadtxt_rows pyfloat delimiter header samples text 1 a _ F R) by lia. cbn [bind].
    rewrite (squeeze_one _ (None : cell)).
    - rewrite transpose_nd1. cbn [bind].
      pose proof (slice_channels 1 samples a b R ltac:(lia)) as E. cbn [seq map channels] in E. 
      assert (E' : map (fun r : list cell => nth 0 r (None : cell)) (map single_row (firstn (Z.to_nat (b - a + 1)) (skipn (Z.to_nat a) samples))) = slice a (b + 1) (single samples 0)) by congruence.
      rewrite E'. unfold read_data_numpy. destruct (get_return_metadata rnd m a b); reflexivity.
    - rewrite map_length, firstn_length, skipn_length. lia.
    - exact (rect_slice 1 samples _ _ R).
  Qed.
End Read.
