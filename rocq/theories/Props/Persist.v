(** C22, C55, C65, C66: data on disk.

    The file formats are parameters: [mser]/[tser] JSON metadata, [zser]/[nser] numpy files,
    with their readers; [inter] gives the incomplete contents a crash may leave. *)
From Coq Require Import String Ascii.
From Verif Require Import Spec.Project.
From Verif Require Import Base.Prelude Base.Rounding Base.FileSys Model.Sampling Model.Time Model.Persist Spec.Sampling Spec.Time Spec.Persist.
From Verif Require Import Proofs.FileSys Proofs.PersistFs Proofs.Persist Proofs.PersistTime.
Open Scope list_scope.
Open Scope Z_scope.

(** ** C65: decimated, windowed and spectra data written can be read back *)
Theorem C65_level_data_round_trip : forall (B A : Type) (mser : pmeta B -> string) (mparse : string -> res (pmeta B)) (zser : list (string * A) -> string)
  (zparse : string -> res (list (string * A))) inter who who' now ov s d m (data : list (Z * A)),
  writable s d ["data.npz"; "metadata.json"]%string -> (ov = true \/ kind_at s d = None) -> levels_distinct data ->
  mparse (mser (written who now m)) = Ok (written who now m) ->
  zparse (zser (archive data)) = Ok (archive data) ->
  let s' := final (write_levels mser zser inter who now ov d m data) s in
  result (write_levels mser zser inter who now ov d m data) s = Ok tt /\
  read_levels mparse zparse who' d s' = Ok (mkPMeta (pm_body m) (pm_hist m ++ [who; who']) (Some now), data) /\
  read_levels_md mparse d s' = Ok (mkPMeta (pm_body m) (pm_hist m ++ [who]) (Some now)) /\
  stored s d [("data.npz"%string, zser (archive data)); ("metadata.json"%string, mser (written who now m))] s'.
Proof.
  intros B A mser mparse zser zparse inter who who' now ov s d m data W Hov Hd Hm Hz s'.
  destruct (c65_round_trip mser mparse zser zparse inter who who' now ov s d m data W Hov Hd Hm) as (H1 & H2 & H3 & H4).
  { rewrite (str_keys_archive data Hd). exact Hz. }
  split; [exact H1|]. split; [exact H2|]. split; [exact H3|]. unfold contents in H4. rewrite (str_keys_archive data Hd) in H4. exact H4.
Qed.
Print Assumptions C65_level_data_round_trip.
Theorem C65_no_overwrite : forall (B A : Type) (mser : pmeta B -> string) (zser : list (string * A) -> string) inter who now s d m (data : list (Z * A)) k,
  kind_at s d = Some k -> write_levels mser zser inter who now false d m data s = ([], (s, Err WriteError)).
Proof. exact @c65_refuses. Qed.
Print Assumptions C65_no_overwrite.

Definition tMser (m : pmeta string) : string := ("{" ++ pm_body m ++ "}")%string.
Definition tMparse (t : string) : res (pmeta string) :=
  if String.eqb t "{new}" then Ok (mkPMeta "new" ["w"] (Some "now"))%string
  else if String.eqb t "{old}" then Ok (mkPMeta "old" [] None)%string else Err ValueError.
Fixpoint tZser (l : list (string * string)) : string :=
  match l with [] => "." | (k, v) :: t => k ++ ":" ++ v ++ ";" ++ tZser t end%string.
Fixpoint upto (c : ascii) (t : string) : option (string * string) :=
  match t with
  | EmptyString => None
  | String x u => if Ascii.eqb x c then Some (EmptyString, u) else option_map (fun p => (String x (fst p), snd p)) (upto c u)
  end.
Fixpoint tZparse_n (n : nat) (t : string) : res (list (string * string)) :=
  match n with
  | O => Err ValueError
  | S n => if String.eqb t "." then Ok [] else
      match upto ":" t with
      | None => Err ValueError
      | Some (k, u) => match upto ";" u with None => Err ValueError | Some (v, r) => l <- tZparse_n n r ;; Ok ((k, v) :: l) end
      end
  end.
Definition tZparse (t : string) : res (list (string * string)) := tZparse_n (S (String.length t)) t.
Definition tInter (t : string) : list string := [substring 0 1 t; substring 0 (String.length t - 1) t].
Definition D0 : path := ["p"; "spectra"]%string.
Definition R0 : node := Dir [("p"%string, Dir [])].
Definition lv : list (Z * string) := [(0, "aa"); (1, "b"); (12, "c"); (-3, "d")]%string.
Definition md : pmeta string := mkPMeta "new"%string [] None.
Example C65_ex : writable R0 D0 ["data.npz"; "metadata.json"]%string /\ levels_distinct lv /\
  faithful tMser tMparse tInter (written "w" "now" md) /\ faithful tZser tZparse tInter (archive lv) /\
  read_levels tMparse tZparse "r" D0 (final (write_levels tMser tZser tInter "w" "now" false D0 md lv) R0) = Ok (mkPMeta "new" ["w"; "r"] (Some "now"), lv)%string.
Proof.
  split; [|split; [|split; [|split]]].
  - split; [discriminate|]. split; [reflexivity|]. split.
    + intros [|a [|b [|c q]]] r x E; cbn in E.
      * subst r. vm_compute. discriminate.
      * injection E as <- _. vm_compute. discriminate.
      * injection E as <- <- _. vm_compute. discriminate.
      * injection E as _ _ E. discriminate.
    + intros f [<-|[<-|[]]]; vm_compute; discriminate.
  - unfold levels_distinct, lv. cbn [map fst]. repeat constructor; cbn; intuition discriminate.
  - split; [reflexivity|]. intros c H y. vm_compute in H. repeat (destruct H as [<-|H]; [vm_compute; discriminate|]). destruct H.
  - split; [vm_compute; reflexivity|]. intros c H y. vm_compute in H. repeat (destruct H as [<-|H]; [vm_compute; discriminate|]). destruct H.
  - vm_compute. reflexivity.
Qed.

(** ** C55: crashes *)
(** new directory: whatever can be read is the complete new data *)
Theorem C55_fresh_directory : forall (B A : Type) (mser : pmeta B -> string) (mparse : string -> res (pmeta B)) (zser : list (string * A) -> string)
  (zparse : string -> res (list (string * A))) inter who who' now ov s d m (data : list (Z * A)) s' r,
  writable s d ["data.npz"; "metadata.json"]%string -> (ov = true \/ kind_at s d = None) -> levels_distinct data ->
  faithful mser mparse inter (written who now m) -> faithful zser zparse inter (archive data) ->
  (forall old, read_levels_md mparse d s <> Ok old) ->
  In s' (crash_states (write_levels mser zser inter who now ov d m data) s) -> read_levels mparse zparse who' d s' = Ok r ->
  r = (seen who' (written who now m), data).
Proof. intros B A mser mparse zser zparse inter who who' now ov s d m data s' r W Ho Hd Hm Hz. rewrite <- (str_keys_archive data Hd) in Hz. exact (c55_fresh mser mparse zser zparse inter who who' now ov s d m data s' r W Ho Hd Hm Hz). Qed.
Print Assumptions C55_fresh_directory.
(** any directory: old, new, or the old metadata with the new data *)
Theorem C55_overwrite_partial : forall (B A : Type) (mser : pmeta B -> string) (mparse : string -> res (pmeta B)) (zser : list (string * A) -> string)
  (zparse : string -> res (list (string * A))) inter who who' now ov s d m (data : list (Z * A)) s' r,
  writable s d ["data.npz"; "metadata.json"]%string -> (ov = true \/ kind_at s d = None) -> levels_distinct data ->
  faithful mser mparse inter (written who now m) -> faithful zser zparse inter (archive data) ->
  In s' (crash_states (write_levels mser zser inter who now ov d m data) s) -> read_levels mparse zparse who' d s' = Ok r ->
  r = (seen who' (written who now m), data) \/
  read_levels mparse zparse who' d s = Ok r \/
  (exists old, read_levels_md mparse d s = Ok old /\ r = (seen who' old, data)).
Proof. intros B A mser mparse zser zparse inter who who' now ov s d m data s' r W Ho Hd Hm Hz. rewrite <- (str_keys_archive data Hd) in Hz. exact (c55_crash mser mparse zser zparse inter who who' now ov s d m data s' r W Ho Hd Hm Hz). Qed.
Print Assumptions C55_overwrite_partial.
(** and the third case happens at some crash point of every overwriting *)
Theorem C55_overwrite_refuted : forall (B A : Type) (mser : pmeta B -> string) (mparse : string -> res (pmeta B)) (zser : list (string * A) -> string)
  (zparse : string -> res (list (string * A))) inter who who' now s d m (data : list (Z * A)) old,
  writable s d ["data.npz"; "metadata.json"]%string -> levels_distinct data -> zparse (zser (archive data)) = Ok (archive data) -> read_levels_md mparse d s = Ok old ->
  exists s', In s' (crash_states (write_levels mser zser inter who now true d m data) s) /\ read_levels mparse zparse who' d s' = Ok (seen who' old, data).
Proof. intros B A mser mparse zser zparse inter who who' now s d m data old W Hd Hz. rewrite <- (str_keys_archive data Hd) in Hz. exact (c55_mixture mser mparse zser zparse inter who who' now s d m data old W Hd Hz). Qed.
Print Assumptions C55_overwrite_refuted.
(** what readers see at the nine crash points of a write to a new directory and of an overwrite *)
Example C55_ex : 
  map (fun s' => match read_levels tMparse tZparse "r" D0 s' with Ok r => Some (pm_body (fst r), length (snd r)) | Err _ => None end)
      (crash_states (write_levels tMser tZser tInter "w" "now" false D0 md lv) R0)
    = [None; None; None; None; None; None; None; None; None; Some ("new"%string, 4%nat)] /\
  map (fun s' => match read_levels tMparse tZparse "r" D0 s' with Ok r => Some (pm_body (fst r), length (snd r)) | Err _ => None end)
      (crash_states (write_levels tMser tZser tInter "w" "now" true D0 md lv)
         (Dir [("p"%string, Dir [("spectra"%string, Dir [("metadata.json"%string, File "{old}"); ("data.npz"%string, File "0:x;.")])])]))
    = [Some ("old"%string, 1%nat); None; None; None; Some ("old"%string, 4%nat); None; None; None; Some ("new"%string, 4%nat)].
Proof. split; vm_compute; reflexivity. Qed.

(** time data: the same *)
Theorem C55_time_partial : forall rnd tser tparse nser nparse inter ov s d td s' from_time to_time from_sample to_sample r,
  chans_described (meta td) -> chans (meta td) <> [] ->
  writable s d ["data.npy"; "metadata.json"]%string -> (ov = true \/ kind_at s d = None) ->
  faithful tser tparse inter (as_written numpy_name (meta td)) -> faithful nser nparse inter (dtype td, rows td) ->
  (forall old, stored_meta tparse d s = Ok old -> names_npy old) ->
  In s' (crash_states (write_numpy tser nser inter ov d td) s) -> read_numpy rnd tparse nparse from_time to_time from_sample to_sample d s' = Ok r ->
  read_numpy rnd tparse nparse from_time to_time from_sample to_sample d (final (write_numpy tser nser inter ov d td) s) = Ok r \/
  read_numpy rnd tparse nparse from_time to_time from_sample to_sample d s = Ok r \/
  (exists old, stored_meta tparse d s = Ok old /\ reader_run rnd old (dtype td) (rows td) from_time to_time from_sample to_sample = Ok r).
Proof. exact t55_time. Qed.
Print Assumptions C55_time_partial.
Theorem C55_time_refuted : forall rnd tser tparse nser nparse inter s d td old from_time to_time from_sample to_sample,
  chans_described (meta td) -> writable s d ["data.npy"; "metadata.json"]%string ->
  nparse (nser (dtype td, rows td)) = Ok (dtype td, rows td) -> stored_meta tparse d s = Ok old -> names_npy old -> chans old <> [] ->
  exists s', In s' (crash_states (write_numpy tser nser inter true d td) s) /\
    read_numpy rnd tparse nparse from_time to_time from_sample to_sample d s' = reader_run rnd old (dtype td) (rows td) from_time to_time from_sample to_sample.
Proof. exact t55_time_mix. Qed.
Print Assumptions C55_time_refuted.

(** ** C22 *)
Theorem C22_numpy_round_trip : forall rnd tser tparse nser nparse inter ov s d td,
  consistent rnd td -> chans_described (meta td) -> (2 <= n_samples (meta td)) ->
  writable s d ["data.npy"; "metadata.json"]%string -> (ov = true \/ kind_at s d = None) ->
  tparse (tser (as_written numpy_name (meta td))) = Ok (as_written numpy_name (meta td)) -> nparse (nser (dtype td, rows td)) = Ok (dtype td, rows td) ->
  result (write_numpy tser nser inter ov d td) s = Ok tt /\
  stored s d [("data.npy"%string, nser (dtype td, rows td)); ("metadata.json"%string, tser (as_written numpy_name (meta td)))] (final (write_numpy tser nser inter ov d td) s) /\
  exists td', read_numpy rnd tparse nparse None None None None d (final (write_numpy tser nser inter ov d td) s) = Ok td' /\
    rows td' = rows td /\ dtype td' = dtype td /\ same_recording (meta td) (meta td') /\
    Model.Time.history (meta td') = Model.Time.history (meta td) ++ [CWriter; CReader].
Proof. exact t22_numpy. Qed.
Print Assumptions C22_numpy_round_trip.
Theorem C22_no_overwrite : forall tser nser inter s d td k, chans_described (meta td) -> kind_at s d = Some k ->
  write_numpy tser nser inter false d td s = ([], (s, Err WriteError)).
Proof. exact c22_refuses. Qed.
Print Assumptions C22_no_overwrite.
(** a recording of one sample can be written but never read *)
Theorem C22_one_sample_refuted : forall rnd tser tparse nser nparse inter ov s d td,
  chans_described (meta td) -> (n_samples (meta td) <= 1) -> rows td <> [] -> length (rows td) = length (chans (meta td)) ->
  writable s d ["data.npy"; "metadata.json"]%string -> (ov = true \/ kind_at s d = None) ->
  tparse (tser (as_written numpy_name (meta td))) = Ok (as_written numpy_name (meta td)) -> nparse (nser (dtype td, rows td)) = Ok (dtype td, rows td) ->
  result (write_numpy tser nser inter ov d td) s = Ok tt /\
  read_numpy rnd tparse nparse None None None None d (final (write_numpy tser nser inter ov d td) s) = Err ValueError.
Proof. exact t22_short. Qed.
Print Assumptions C22_one_sample_refuted.
(** what the ASCII writer writes, the ASCII reader (extension ".txt") never reads *)
Theorem C22_ascii_refuted : forall rnd tser tparse savetxt inter (X : Type) (loadtxt : tmeta -> string -> Z -> Z -> res X) ov s d td from_time to_time from_sample to_sample,
  chans (meta td) <> [] -> chans_described (meta td) ->
  tparse (tser (as_written (ascii_file_name d) (meta td))) = Ok (as_written (ascii_file_name d) (meta td)) ->
  result (write_ascii tser savetxt inter ov d td) s = Ok tt ->
  read_ascii rnd tparse loadtxt ".txt" from_time to_time from_sample to_sample d (final (write_ascii tser savetxt inter ov d td) s) = Err TimeDataReadError.
Proof. intros rnd tser tparse. exact (c22_ascii rnd tser tparse (fun _ => ""%string) (fun _ => Err ValueError)). Qed.
Print Assumptions C22_ascii_refuted.

Open Scope Q_scope.
Definition tTd : tdata :=
  mkData (mkMeta 10 ["Ex"; "Hy"]%string 2 3 100 (1002 # 10) "site" [("Ex", mkChanMd [] "e"); ("Hy", mkChanMd ["raw.dat"] "h")]%string [])
         "float64" [[Some 1; Some 2; None]; [Some 0; Some 9; Some 4]].
Definition tTd1 : tdata :=
  mkData (mkMeta 10 ["Ex"]%string 1 1 100 100 "site" [("Ex", mkChanMd [] "e")]%string []) "float64" [[Some 1]].
Definition tTser (m : tmeta) : string := "{m}".
Definition tTparse (m : tmeta) (t : string) : res tmeta := if String.eqb t "{m}" then Ok m else Err ValueError.
Definition tNser (x : string * list (list cell)) : string := "npy".
Definition tNparse (x : string * list (list cell)) (t : string) : res (string * list (list cell)) := if String.eqb t "npy" then Ok x else Err ValueError.
Lemma tWritable : writable R0 D0 ["data.npy"; "metadata.json"]%string.
Proof.
  split; [discriminate|]. split; [reflexivity|]. split.
  + intros [|a [|b [|c q]]] r x E; cbn in E.
    * subst r. vm_compute. discriminate.
    * injection E as <- _. vm_compute. discriminate.
    * injection E as <- <- _. vm_compute. discriminate.
    * injection E as _ _ E. discriminate.
  + intros f [<-|[<-|[]]]; vm_compute; discriminate.
Qed.
Example C22_ex : consistent b64 tTd /\ chans_described (meta tTd) /\ writable R0 D0 ["data.npy"; "metadata.json"]%string /\
  exists td', read_numpy b64 (tTparse (as_written numpy_name (meta tTd))) (tNparse (dtype tTd, rows tTd)) None None None None D0
    (final (write_numpy tTser tNser tInter false D0 tTd) R0) = Ok td' /\ rows td' = rows tTd /\
    chans_md (meta td') = [("Ex", mkChanMd ["data.npy"] "e"); ("Hy", mkChanMd ["data.npy"] "h")]%string.
Proof.
  split; [|split; [|split]].
  - unfold consistent, tTd. cbn [meta rows chans n_chans n_samples first_time last_time fs]. split; [discriminate|]. split; [reflexivity|]. split; [reflexivity|]. split.
    + intros r [<-|[<-|[]]]; reflexivity.
    + vm_compute. reflexivity.
  - split; [repeat constructor; cbn; intuition discriminate|]. intros c. reflexivity.
  - exact tWritable.
  - eexists. split; [vm_compute; reflexivity|]. split; reflexivity.
Qed.
Example C22_ex_one : result (write_numpy tTser tNser tInter false D0 tTd1) R0 = Ok tt /\
  read_numpy b64 (tTparse (as_written numpy_name (meta tTd1))) (tNparse (dtype tTd1, rows tTd1)) None None None None D0 (final (write_numpy tTser tNser tInter false D0 tTd1) R0) = Err ValueError.
Proof. split; vm_compute; reflexivity. Qed.
Example C22_ex_ascii : result (write_ascii tTser (fun _ => "1.000000"%string) tInter false D0 tTd) R0 = Ok tt /\
  kind_at (final (write_ascii tTser (fun _ => "1.000000"%string) tInter false D0 tTd) R0) (D0 ++ ["ex.ascii"]%string) = Some (KFile "1.000000") /\
  read_metadata (tTparse (as_written (ascii_file_name D0) (meta tTd))) ".txt" D0 (final (write_ascii tTser (fun _ => "1.000000"%string) tInter false D0 tTd) R0) = Err TimeDataReadError /\
  is_ok (read_metadata (tTparse (as_written (ascii_file_name D0) (meta tTd))) ".ascii" D0 (final (write_ascii tTser (fun _ => "1.000000"%string) tInter false D0 tTd) R0)) = true.
Proof. split; [vm_compute; reflexivity|]. split; [vm_compute; reflexivity|]. split; vm_compute; reflexivity. Qed.

(** ** C66: data read from disk is a snapshot *)
(** what the reader returns shows the data at the time of reading, and as long as the file is
    not changed *)
Theorem C66_snapshot_partial : forall rnd tparse nparse from_time to_time from_sample to_sample d s m x,
  read_numpy_map rnd tparse nparse from_time to_time from_sample to_sample d s = Ok (m, x) ->
  exists td, read_numpy rnd tparse nparse from_time to_time from_sample to_sample d s = Ok td /\ meta td = m /\ source_dtype x = dtype td /\
    elements nparse x s = Ok (rows td) /\
    exists file, forall s', kind_at s' file = kind_at s file -> elements nparse x s' = Ok (rows td).
Proof.
  intros rnd tparse nparse ft tt_ fs_ ts d s m x H. destruct (c66_now rnd tparse nparse ft tt_ fs_ ts d s m x H) as (td & H1 & H2 & H3 & H4 & f & a & b & ->).
  exists td. split; [exact H1|]. split; [exact H2|]. split; [exact H4|]. split; [exact H3|]. exists (pjoin d f). intros s' Hs'.
  rewrite (c66_frame nparse _ s s'); [exact H3|]. intros p dt a' b' E. injection E as <- <- <- <-. exact Hs'.
Qed.
Print Assumptions C66_snapshot_partial.
(** writing the data back to the directory it was read from ends the process and leaves an
    empty data file *)
Theorem C66_write_back_refuted : forall tser nser nparse inter d s m dt a b, (forall y, nparse ""%string <> Ok y) ->
  kind_at s d = Some KDir -> kind_at s (d ++ ["data.npy"]%string) <> Some KDir ->
  result (write_numpy_map tser nser nparse inter true d m (Mapped (d ++ ["data.npy"]%string) dt a b)) s = Err RuntimeErr /\
  kind_at (final (write_numpy_map tser nser nparse inter true d m (Mapped (d ++ ["data.npy"]%string) dt a b)) s) (d ++ ["data.npy"]%string) = Some (KFile "").
Proof. exact c66_write_back. Qed.
Print Assumptions C66_write_back_refuted.
Example C66_ex : let s := final (write_numpy tTser tNser tInter false D0 tTd) R0 in
  exists m a b, read_numpy_map b64 (tTparse (as_written numpy_name (meta tTd))) (tNparse (dtype tTd, rows tTd)) None None None None D0 s
    = Ok (m, Mapped (D0 ++ ["data.npy"]%string) "float64" a b) /\ kind_at s D0 = Some KDir /\ kind_at s (D0 ++ ["data.npy"]%string) = Some (KFile "npy").
Proof. eexists _, _, _. split; [vm_compute; reflexivity|]. split; vm_compute; reflexivity. Qed.
(** overwriting a recording of two samples by one of three: at one crash point the reader
    returns samples of the new recording under the old metadata *)
Definition tOld : tmeta := mkMeta 5 ["Ex"; "Hy"]%string 2 2 50 (502 # 10) "old" [("Ex", mkChanMd ["data.npy"] "e"); ("Hy", mkChanMd ["data.npy"] "h")]%string [].
Definition tT2parse (t : string) : res tmeta := if String.eqb t "{m}" then Ok (as_written numpy_name (meta tTd)) else if String.eqb t "{o}" then Ok tOld else Err ValueError.
Definition tN2parse (t : string) : res (string * list (list cell)) :=
  if String.eqb t "npy" then Ok (dtype tTd, rows tTd) else if String.eqb t "old" then Ok ("float64"%string, [[Some 7; Some 7]; [Some 8; Some 8]]) else Err ValueError.
Example C55_ex_time : names_npy tOld /\
  map (fun s' => match read_numpy b64 tT2parse tN2parse None None None None D0 s' with Ok r => Some (info (meta r), rows r) | Err _ => None end)
      (crash_states (write_numpy tTser tNser tInter true D0 tTd)
         (Dir [("p"%string, Dir [("spectra"%string, Dir [("metadata.json"%string, File "{o}"); ("data.npy"%string, File "old")])])]))
    = [Some ("old"%string, [[Some 7; Some 7]; [Some 8; Some 8]]); None; None; None; Some ("old"%string, [[Some 1; Some 2]; [Some 0; Some 9]]); None; None; None;
       Some ("site"%string, [[Some 1; Some 2; None]; [Some 0; Some 9; Some 4]])].
Proof. split; [|vm_compute; reflexivity]. split; [intros c x [H|[H|[]]]; injection H as <- <-; reflexivity|intros c H; exact H]. Qed.
