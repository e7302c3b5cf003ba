(** Property C82: recordings in text files (TimeReaderAscii). [pyfloat] is python's float();
    metadata files are parsed by [tparse]. *)
From Coq Require Import String Ascii.
From Verif Require Import Base.Prelude Base.ListUtil Base.Rounding Base.B32 Base.NdArray Base.FileSys Spec.Project Model.Sampling Spec.Sampling Model.Time Model.Persist Model.AsciiData
  Spec.Time Spec.Persist Spec.AsciiData Proofs.AsciiFile.
Open Scope list_scope.
Open Scope Q_scope.

(** ** C82: the samples of the range are those of the lines, one row for each column; errors,
    times and metadata are those of a read of the same array *)
Theorem C82_text_partial : forall rnd tparse pyfloat delimiter header samples d s from_time to_time from_sample to_sample m f text, good_rnd rnd ->
  0 < fs m -> (1 <= n_samples m <= 2 ^ 49 - 1)%Z -> last_time m == stamp (first_time m) (period rnd (fs m)) (n_samples m - 1) ->
  text_recording tparse d s m f text -> sample_file pyfloat delimiter header samples text ->
  rectangular (length (chans m)) samples -> Z.of_nat (length samples) = n_samples m -> (2 <= length (chans m))%nat ->
  read_ascii rnd tparse (read_data_ascii rnd pyfloat delimiter (Z.of_nat (length header))) ".txt" from_time to_time from_sample to_sample d s =
  (td <- reader_run rnd m "float32" (channels (length (chans m)) samples) from_time to_time from_sample to_sample ;; Ok (as_any td)).
Proof. exact c82_file. Qed.
Print Assumptions C82_text_partial.
(** get_chan of the result is the channel that the other readers give (C21 says which row it is) *)
Theorem C82_channels : forall td c, any_chan (as_any td) c = (v <- get_chan td c ;; Ok (nd1 v)).
Proof.
  intros td c. unfold any_chan, get_chan, as_any. cbn [ad_meta ad_data]. destruct (chan_in c (chans (meta td))); [|reflexivity].
  destruct (chan_index (chans (meta td)) c) as [i|]; [|reflexivity]. cbn [nd_nth nd2]. rewrite nth_error_map. destruct (nth_error (rows td) i); reflexivity.
Qed.
Print Assumptions C82_channels.
(** one channel: the array has one axis, and "the channel" is a single value *)
Theorem C82_one_channel_refuted : forall rnd tparse pyfloat delimiter header samples d s m f text a b,
  text_recording tparse d s m f text -> sample_file pyfloat delimiter header samples text ->
  rectangular 1 samples -> length (chans m) = 1%nat -> Z.of_nat (length samples) = n_samples m -> (0 <= a < b)%Z -> (b < n_samples m)%Z ->
  exists x, read_ascii rnd tparse (read_data_ascii rnd pyfloat delimiter (Z.of_nat (length header))) ".txt" None None (Some a) (Some b) d s = Ok x /\
    ad_data x = nd1 (slice a (b + 1) (single samples 0)) /\
    forall c, In c (chans m) -> exists v, any_chan x c = Ok (Sc v) /\ nth_error (single samples 0) (Z.to_nat a) = Some v.
Proof. exact c82_one. Qed.
Print Assumptions C82_one_channel_refuted.
(** a file shorter than its metadata: fewer samples than the returned metadata says, no error *)
Theorem C82_short_file_refuted : forall rnd tparse pyfloat delimiter header samples d s m f text a b,
  text_recording tparse d s m f text -> sample_file pyfloat delimiter header samples text ->
  rectangular (length (chans m)) samples -> (2 <= length (chans m))%nat -> (0 <= a)%Z -> (a + 1 < Z.of_nat (length samples) <= b)%Z -> (b < n_samples m)%Z ->
  exists x, read_ascii rnd tparse (read_data_ascii rnd pyfloat delimiter (Z.of_nat (length header))) ".txt" None None (Some a) (Some b) d s = Ok x /\
    n_samples (ad_meta x) = (b - a + 1)%Z /\
    exists r, ad_data x = nd2 r /\ forall row, In row r -> Z.of_nat (length row) = (Z.of_nat (length samples) - a)%Z.
Proof. exact c82_short. Qed.
Print Assumptions C82_short_file_refuted.

(** a line of the range with another number of columns, or with something that is not a number, is
    a ValueError; a range behind the end of the file is an error *)
Theorem C82_malformed : forall rnd pyfloat delimiter sep header tokens m a b,
  separator delimiter sep -> (forall t e, pyfloat t = Err e -> e = ValueError) -> (forall l, In l header -> each_char line_char l) ->
  (forall row, In row tokens -> row <> [] /\ forall t, In t row -> token sep t) -> (0 <= a)%Z ->
  let read := read_data_ascii rnd pyfloat delimiter (Z.of_nat (length header)) m (text_of (header ++ map (line_of sep) tokens)) a b in
  (forall j first row, nth_error tokens (Z.to_nat a) = Some first -> (a <= j <= b)%Z -> nth_error tokens (Z.to_nat j) = Some row ->
     length row <> length first \/ (exists t e, In t row /\ pyfloat t = Err e) -> read = Err ValueError) /\
  ((Z.of_nat (length tokens) < a)%Z -> exists e, read = Err e).
Proof.
  intros rnd pyfloat delimiter sep header tokens m a b S V H T Ha. split.
  - intros j first row F Hj R B. exact (c82_bad rnd pyfloat delimiter sep S V header H tokens m a b j first row T Ha F Hj R B).
  - intros L. exact (c82_short_skip rnd pyfloat delimiter sep S header H tokens m a b T L).
Qed.
Print Assumptions C82_malformed.
(** what follows a "#" is not read: comments at the ends of lines, or lines of comments only, change nothing *)
Theorem C82_comments : forall rnd pyfloat delimiter n_header m lines a b,
  (forall l c, In (l, c) lines -> each_char line_char l /\ forall x, c = Some x -> each_char line_char x) ->
  read_data_ascii rnd pyfloat delimiter n_header m (text_of (map (fun lc => match snd lc with Some c => fst lc ++ "#" ++ c | None => fst lc end)%string lines)) a b =
  read_data_ascii rnd pyfloat delimiter n_header m (text_of (map fst lines)) a b.
Proof. exact c82_comments. Qed.
Print Assumptions C82_comments.

(** *** a file *)
Definition adFloat (t : string) : res cell :=
  if String.eqb t "1" then Ok (Some 1) else if String.eqb t "2.5" then Ok (Some (5 # 2)) else if String.eqb t "-3" then Ok (Some (-3 # 1))
  else if String.eqb t "nan" then Ok None else if String.eqb t "0.1" then Ok (Some (b64 (1 # 10))) else if String.eqb t "4" then Ok (Some 4) else Err ValueError.
Definition adHeader : list string := ["# Ex Hy"]%string.
Definition adTokens : list (list string) := [["1"; "-3"]; ["2.5"; "nan"]; ["4"; "1"]; ["0.1"; "2.5"]]%string.
Definition adSamples : list (list cell) := [[Some 1; Some (-3 # 1)]; [Some (5 # 2); None]; [Some 4; Some 1]; [Some (b64 (1 # 10)); Some (5 # 2)]].
Definition adText : string := text_of (adHeader ++ map (line_of ","%char) adTokens).
Definition adMd : list (chan * chan_md) := [("Ex"%string, mkChanMd ["data.txt"%string] ""); ("Hy"%string, mkChanMd ["data.txt"%string] "")].
Definition adMeta : tmeta := mkMeta 8 ["Ex"; "Hy"]%string 2 4 100 (100 + (3 # 8)) "" adMd [].
Definition adParse (t : string) : res tmeta := if String.eqb t "md" then Ok adMeta else Err ValueError.
Definition adFs : node := Dir [("r"%string, Dir [("metadata.json"%string, File "md"); ("data.txt"%string, File adText)])].
Example C82_ex_text : adText = ("# Ex Hy" ++ String newline ("1,-3" ++ String newline ("2.5,nan" ++ String newline ("4,1" ++ String newline ("0.1,2.5" ++ String newline "")))))%string.
Proof. vm_compute. reflexivity. Qed.
Example C82_ex_hyp : text_recording adParse ["r"%string] adFs adMeta "data.txt" adText /\ sample_file adFloat (Some ","%char) adHeader adSamples adText /\
  rectangular (length (chans adMeta)) adSamples /\ 0 < fs adMeta /\ last_time adMeta == stamp (first_time adMeta) (period b64 (fs adMeta)) (n_samples adMeta - 1).
Proof.
  split; [|split; [|split; [|split; [reflexivity|vm_compute; reflexivity]]]].
  - exists "md"%string. split; [reflexivity|]. split; [reflexivity|]. split; [split; [discriminate|split; [discriminate|cbn; repeat split; discriminate]]|].
    split; [reflexivity|]. split; [intros c y [K|[K|[]]]; injection K as <- <-; reflexivity|]. split; [intros c H; exact H|reflexivity].
  - exists ","%char, adTokens. split; [reflexivity|]. split.
    { intros l [<-|[]]. cbn. unfold line_char. repeat split; intros K; vm_compute in K; discriminate K. }
    split. { cbn. split; [reflexivity|]. split; [split; intros K; vm_compute in K; discriminate K|discriminate]. }
    split.
    { intros row Hr t Ht. cbn in Hr. repeat match goal with H : _ \/ _ |- _ => destruct H end; subst; cbn in Ht; try contradiction;
      repeat match goal with H : _ \/ _ |- _ => destruct H end; subst; try contradiction;
      (split; [discriminate|cbn; unfold token_char; repeat split; (discriminate || (vm_compute; lia))]). }
    repeat constructor.
  - intros row Hr. cbn in Hr. repeat match goal with H : _ \/ _ |- _ => destruct H end; subst; try contradiction; reflexivity.
Qed.
(** the values are those of the text rounded to single precision *)
Example C82_ex : exists x, read_ascii b64 adParse (read_data_ascii b64 adFloat (Some ","%char) 1) ".txt" None None (Some 1%Z) (Some 3%Z) ["r"%string] adFs = Ok x /\
  ad_data x = nd2 [[Some (5 # 2); Some 4; Some (13421773 # 134217728)]; [None; Some 1; Some (5 # 2)]] /\ n_samples (ad_meta x) = 3%Z /\ first_time (ad_meta x) == 100 + (1 # 8).
Proof. eexists. split; [vm_compute; reflexivity|]. split; [vm_compute; reflexivity|]. split; reflexivity. Qed.
(** an empty line between the samples: the sample number of every later sample is off by one *)
Theorem C82_blank_line_refuted : exists text lines, text = text_of lines /\ filter (fun l => negb (String.eqb l "")) lines = map (line_of ","%char) adTokens /\
  forall rnd, exists x, read_data_ascii rnd adFloat (Some ","%char) 0 adMeta text 2 3 = Ok x /\
    ad_data x = nd2 [[Some (5 # 2); Some 4]; [None; Some 1]] /\ map (slice 2 4) (channels 2 adSamples) = [[Some 4; Some (13421773 # 134217728)]; [Some 1; Some (5 # 2)]].
Proof.
  exists (text_of ["1,-3"; ""; "2.5,nan"; "4,1"; "0.1,2.5"]%string), ["1,-3"; ""; "2.5,nan"; "4,1"; "0.1,2.5"]%string.
  split; [reflexivity|]. split; [vm_compute; reflexivity|]. intros rnd. unfold read_data_ascii.
  assert (E : loadtxt adFloat (Some ","%char) 2 2 (text_of ["1,-3"; ""; "2.5,nan"; "4,1"; "0.1,2.5"]%string) = Ok (nd2 [[Some (5 # 2); None]; [Some 4; Some 1]])) by (vm_compute; reflexivity).
  change (2 + 0)%Z with 2%Z. change (3 - 2 + 1)%Z with 2%Z. rewrite E. cbn [bind].
  destruct (get_return_metadata rnd adMeta 2 3) as [m'|e] eqn:G; [|discriminate G].
  set (tr := transpose _). assert (T : tr = Ok (nd2 [[Some (5 # 2); Some 4]; [None; Some 1]])) by (vm_compute; reflexivity). rewrite T. cbn [bind]. eexists. split; [reflexivity|]. split; [reflexivity|vm_compute; reflexivity].
Qed.
Print Assumptions C82_blank_line_refuted.
