(** C12: what processors and writers do to the objects they are given.

    [world rnd drnd orc h ts ds]: [ts] and [ds] are the TimeData and DecimatedData objects of a
    session (any sequence of constructions, processors, copies, assignments, writers and
    decimations); [look h t] is what a user sees of the object [t]. *)
From Coq Require Import String.
From Verif Require Import Base.Prelude Base.Rounding Base.ListUtil Model.Sampling Model.Time Model.Decimate Model.Persist Model.Alias Spec.Alias.
From Verif Require Import Proofs.Toy Proofs.AliasFinal.
Open Scope list_scope.

(** ** processors that keep the time axis leave every object of the session as it was, and
    their result is independent of all of them *)
Theorem C12_processors_partial : forall rnd drnd orc h ts ds p t h' r,
  world rnd drnd orc h ts ds -> In t ts -> ~ adjusts_time p -> run_h rnd drnd orc p t h = (h', r) ->
  (forall t', In t' ts -> look h' t' = look h t') /\ (forall d, In d ds -> look_dec h' d = look_dec h d) /\
  match r with
  | Ok t1 => run rnd drnd orc p (look h t) = Ok (look h' t1) /\ (forall t', In t' ts -> independent h' t1 t')
  | Err e => run rnd drnd orc p (look h t) = Err e
  end.
Proof. exact c12_run. Qed.
Print Assumptions C12_processors_partial.
Theorem C12_copy : forall rnd drnd orc h ts ds t h' t1, world rnd drnd orc h ts ds -> In t ts -> copy_h t h = (h', t1) ->
  (forall t', In t' ts -> look h' t' = look h t') /\ (forall d, In d ds -> look_dec h' d = look_dec h d) /\
  look h' t1 = look h t /\ (forall t', In t' ts -> independent h' t1 t').
Proof. exact c12_copy. Qed.
Print Assumptions C12_copy.
(** a processor that fails changes nothing *)
Theorem C12_failure_changes_nothing : forall rnd drnd orc h ts ds p t h' e,
  world rnd drnd orc h ts ds -> In t ts -> run_h rnd drnd orc p t h = (h', Err e) -> h' = h.
Proof. exact c12_error. Qed.
Print Assumptions C12_failure_changes_nothing.
(** the data of no object is ever changed by a processor *)
Theorem C12_adjusting_effect : forall rnd drnd orc h ts ds p t h' t1,
  world rnd drnd orc h ts ds -> In t ts -> adjusts_time p -> run_h rnd drnd orc p t h = (h', Ok t1) ->
  run rnd drnd orc p (look h t) = Ok (look h' t1) /\
  (forall t', In t' ts -> look h' t' = if Nat.eqb (hist_of h t') (hist_of h t) then more_history (look h t') [CProc p] else look h t') /\
  (forall t', In t' ts -> rows (look h' t') = rows (look h t')) /\
  hist_of h' t1 = hist_of h' t.
Proof. exact c12_adjusting. Qed.
Print Assumptions C12_adjusting_effect.
(** ** refuted for Subsection, Resample, Decimate and ShiftTimestamps: the input's history grows *)
Theorem C12_adjusting_refuted : forall rnd drnd orc h ts ds p t h' t1,
  world rnd drnd orc h ts ds -> In t ts -> adjusts_time p -> run_h rnd drnd orc p t h = (h', Ok t1) ->
  look h' t = more_history (look h t) [CProc p] /\ look h' t <> look h t.
Proof. exact c12_refuted. Qed.
Print Assumptions C12_adjusting_refuted.
(** two results made from one recording both list both steps in their histories *)
Theorem C12_branches_refuted : forall rnd drnd orc h ts ds p1 p2 t h1 t1 h2 t2,
  world rnd drnd orc h ts ds -> In t ts -> adjusts_time p1 -> adjusts_time p2 ->
  run_h rnd drnd orc p1 t h = (h1, Ok t1) -> run_h rnd drnd orc p2 t h1 = (h2, Ok t2) ->
  history (meta (look h2 t1)) = history (meta (look h t)) ++ [CProc p1; CProc p2] /\
  history (meta (look h2 t2)) = history (meta (look h t)) ++ [CProc p1; CProc p2].
Proof. exact c12_branches. Qed.
Print Assumptions C12_branches_refuted.
(** the last result of a chain of processors is right all the same *)
Theorem C12_chain : forall rnd drnd orc ps h ts ds t h' r, world rnd drnd orc h ts ds -> In t ts -> run_chain rnd drnd orc ps t h = (h', r) ->
  match r with
  | Ok t1 => run_all rnd drnd orc ps (look h t) = Ok (look h' t1)
  | Err e => run_all rnd drnd orc ps (look h t) = Err e
  end.
Proof. exact c12_chain. Qed.
Print Assumptions C12_chain.

(** ** writers: the metadata written is right, but it is also the metadata of the input now *)
Theorem C12_writer_effect : forall rnd drnd orc h ts ds name t h' m,
  world rnd drnd orc h ts ds -> In t ts -> write_h name t h = (h', Ok m) ->
  exists m0, set_named (chans (meta (look h t))) name (meta (look h t)) = Ok m0 /\ m = with_history m0 (history m0 ++ [CWriter]) /\
    meta (look h' t) = m /\ rows (look h' t) = rows (look h t).
Proof. exact c12_write. Qed.
Print Assumptions C12_writer_effect.
Theorem C12_writer_refuted : forall rnd drnd orc h ts ds name t h' m,
  world rnd drnd orc h ts ds -> In t ts -> write_h name t h = (h', Ok m) -> look h' t <> look h t.
Proof. exact c12_write_refuted. Qed.
Print Assumptions C12_writer_refuted.
Theorem C12_writer_others : forall rnd drnd orc h ts ds name t h' r t',
  world rnd drnd orc h ts ds -> In t ts -> write_h name t h = (h', r) -> In t' ts ->
  hist_of h t' <> hist_of h t -> cmd_of h t' <> cmd_of h t -> look h' t' = look h t'.
Proof. exact c12_write_others. Qed.
Print Assumptions C12_writer_others.
Theorem C12_level_writer_refuted : forall rnd drnd orc h ts ds d h' x,
  world rnd drnd orc h ts ds -> In d ds -> write_dec_h d h = (h', x) ->
  x = more_history_dec (look_dec h d) [CWriter] /\ look_dec h' d = x.
Proof. exact c12_write_dec. Qed.
Print Assumptions C12_level_writer_refuted.

(** ** the Decimator: its result is right, its input gets the records of all levels, and level 0
    is the input's own array when the first factor is one *)
Theorem C12_decimator_effect : forall rnd drnd orc h ts ds ur maxf p t h' r,
  world rnd drnd orc h ts ds -> In t ts -> decimator_h rnd drnd orc ur maxf p t h = (h', r) ->
  look h' t = more_history (look h t) (decimator_records rnd orc ur maxf p (look h t)) /\
  (forall t', In t' ts -> hist_of h t' <> hist_of h t -> look h' t' = look h t') /\
  match r with
  | Ok d => decimator_run rnd orc ur maxf p (look h t) = Ok (look_dec h' d)
  | Err e => decimator_run rnd orc ur maxf p (look h t) = Err e
  end.
Proof. exact c12_decimator. Qed.
Print Assumptions C12_decimator_effect.
Theorem C12_level0_shared_refuted : forall rnd drnd orc h ts ds ur maxf p t h' d rest,
  world rnd drnd orc h ts ds -> In t ts -> (0 < dp_n_levels p)%Z -> dp_increments p = 1%Z :: rest ->
  decimator_h rnd drnd orc ur maxf p t h = (h', Ok d) ->
  forall c dt x h2, set_chan_h t c dt x h' = (h2, Ok tt) -> get_level (look_dec h2 d) 0 = Ok (rows (look h2 t)).
Proof. exact c12_level0. Qed.
Print Assumptions C12_level0_shared_refuted.

(** ** a session *)
Open Scope Q_scope.
Definition td0 : tdata :=
  mkData (mkMeta 10 ["Ex"; "Hy"]%string 2 6 100 (1005 # 10) "" [("Ex", mkChanMd ["ex.bin"] "E"); ("Hy", mkChanMd [] "H")]%string [CReader])
         "float64" [[Some 1; Some 2; Some 3; None; Some 5; Some 6]; [Some 0; Some 0; Some 9; Some 9; Some 4; Some 5]].
Definition s0 : heap * loc := make_meta (meta td0) (mkHeap [] [] [] []).
Definition s1 : heap * loc := new_arr (rows td0) (fst s0).
Definition t0 : tref := mkTref (snd s0) (snd s1) "float64".
Lemma session0 : world exact exact toy (fst s1) [t0] [].
Proof. apply (w_new exact exact toy (mkHeap [] [] [] []) [] [] td0 (fst s0) (snd s0) (fst s1) (snd s1)); [constructor|reflexivity|reflexivity]. Qed.
Definition ok (r : res tref) : tref := match r with Ok t => t | Err _ => t0 end.
Definition ok_d (r : res dref) : dref := match r with Ok d => d | Err _ => mkDref [] [] 0 0 0 ""%string [] O [] end.
Definition is_ok {A} (r : res A) : bool := match r with Ok _ => true | Err _ => false end.
Ltac compute_all := repeat match goal with |- _ /\ _ => apply conj end; vm_compute; reflexivity.
(** half the data, then the recording again at another rate: both mention both steps *)
Definition a1 := run_h exact exact toy (PDecimate 2 3) t0 (fst s1).
Definition a2 := run_h exact exact toy (PResample 20) t0 (fst a1).
Example C12_two_results : is_ok (snd a1) = true /\ is_ok (snd a2) = true /\
  history (meta (look (fst a2) (ok (snd a1)))) = [CReader; CProc (PDecimate 2 3); CProc (PResample 20)] /\
  history (meta (look (fst a2) (ok (snd a2)))) = [CReader; CProc (PDecimate 2 3); CProc (PResample 20)] /\
  history (meta (look (fst a2) t0)) = [CReader; CProc (PDecimate 2 3); CProc (PResample 20)] /\
  n_samples (meta (look (fst a2) (ok (snd a1)))) = 3%Z /\ n_samples (meta (look (fst a2) (ok (snd a2)))) = 12%Z /\ rows (look (fst a2) t0) = rows td0.
Proof. compute_all. Qed.
(** InterpolateNans, then Decimate, then the Numpy writer: the interpolated recording now claims
    that it was decimated and that its data is in data.npy; the first one is as it was *)
Definition b1 := run_h exact exact toy PInterpolateNans t0 (fst s1).
Definition b2 := run_h exact exact toy (PDecimate 2 3) (ok (snd b1)) (fst b1).
Definition b3 := write_h (fun _ => "data.npy"%string) (ok (snd b2)) (fst b2).
Example C12_session : is_ok (snd b1) = true /\ is_ok (snd b2) = true /\ is_ok (snd b3) = true /\
  look (fst b3) t0 = td0 /\
  map (fun kv => cm_files (snd kv)) (chans_md (meta (look (fst b2) (ok (snd b1))))) = [["ex.bin"%string]; []] /\
  map (fun kv => cm_files (snd kv)) (chans_md (meta (look (fst b3) (ok (snd b1))))) = [["data.npy"%string]; ["data.npy"%string]] /\
  history (meta (look (fst b3) (ok (snd b1)))) = [CReader; CProc PInterpolateNans; CProc (PDecimate 2 3); CWriter].
Proof. compute_all. Qed.
Definition dp0 : dec_params := mkDecParams 10 2 1 1 [2; 1] [1; 2]%Z [1; 2]%Z [10; 5].
Definition c1 := decimator_h exact exact toy true 3 dp0 t0 (fst s1).
Definition c2 := set_chan_h t0 "Ex"%string "float64"%string [Some 7; Some 7; Some 7; Some 7; Some 7; Some 7] (fst c1).
Example C12_decimator_session : is_ok (snd c1) = true /\ is_ok (snd c2) = true /\
  history (meta (look (fst c1) t0)) = [CReader; CProc (PResample (10 # 2))] /\ dd_history (look_dec (fst c1) (ok_d (snd c1))) = [CReader; COther "Decimator"] /\
  get_level (look_dec (fst c1) (ok_d (snd c1))) 0 = Ok (rows td0) /\
  get_level (look_dec (fst c2) (ok_d (snd c1))) 0 = Ok [[Some 7; Some 7; Some 7; Some 7; Some 7; Some 7]; [Some 0; Some 0; Some 9; Some 9; Some 4; Some 5]].
Proof. compute_all. Qed.
