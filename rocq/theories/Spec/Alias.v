(** Specification vocabulary for objects that share parts. *)
From Coq Require Import String.
From Verif Require Import Base.Prelude Base.ListUtil Model.Sampling Model.Time Model.Decimate Model.Persist Model.Alias.
Open Scope list_scope.

(** the History object and the channel metadata of a TimeData *)
Definition hist_of (h : heap) (t : tref) : loc := r_hist (meta_at h (t_meta t)).
Definition cmd_of (h : heap) (t : tref) : loc := r_cmd (meta_at h (t_meta t)).
(** nothing of one object is part of the other *)
Definition independent (h : heap) (t t' : tref) : Prop :=
  hist_of h t <> hist_of h t' /\ cmd_of h t <> cmd_of h t' /\ t_arr t <> t_arr t' /\ t_meta t <> t_meta t'.

(** processors whose result has another sampling frequency, length or start *)
Definition adjusts_time (p : proc) : Prop :=
  match p with PSubsection _ _ | PResample _ | PDecimate _ _ | PShift _ => True | _ => False end.

(** the same data with more history records *)
Definition more_history (td : tdata) (rs : list creator) : tdata :=
  mkData (with_history (meta td) (history (meta td) ++ rs)) (dtype td) (rows td).
Definition more_history_dec (d : dec_data) (rs : list creator) : dec_data :=
  mkDecData (dd_fs d) (dd_chans d) (dd_n_levels d) (dd_first d) (dd_last d) (dd_info d) (dd_levels_md d) (dd_history d ++ rs) (dd_data d).
(** the same data with other channel metadata *)
Definition with_cmd (td : tdata) (c : list (chan * chan_md)) : tdata := mkData (with_chans_md (meta td) c) (dtype td) (rows td).

(** chans_metadata[c].data_files = [name c] for the channels [cs] *)
Fixpoint set_named (cs : list chan) (name : chan -> string) (m : tmeta) : res tmeta :=
  match cs with
  | [] => Ok m
  | c :: t => _ <- chan_meta m c ;; set_named t name (with_chans_md m (set_files c [name c] (chans_md m)))
  end.

(** everything a session can build: a heap, its TimeData and its DecimatedData objects *)
Section World.
  Variable rnd drnd : Q -> Q.
  Variable orc : oracles.
  Inductive world : heap -> list tref -> list dref -> Prop :=
  | w_empty : world (mkHeap [] [] [] []) [] []
  (** TimeData(metadata, data) with new metadata, or with the metadata of another object *)
  | w_new h ts ds td h1 m h2 a : world h ts ds -> make_meta (meta td) h = (h1, m) -> new_arr (rows td) h1 = (h2, a) ->
      world h2 (mkTref m a (dtype td) :: ts) ds
  | w_share h ts ds t data dt h1 a : world h ts ds -> In t ts -> new_arr data h = (h1, a) -> world h1 (mkTref (t_meta t) a dt :: ts) ds
  | w_run h ts ds p t h' r : world h ts ds -> In t ts -> run_h rnd drnd orc p t h = (h', r) ->
      world h' (match r with Ok t' => t' :: ts | Err _ => ts end) ds
  | w_copy h ts ds t h' t' : world h ts ds -> In t ts -> copy_h t h = (h', t') -> world h' (t' :: ts) ds
  | w_set_chan h ts ds t c dt x h' r : world h ts ds -> In t ts -> set_chan_h t c dt x h = (h', r) -> world h' ts ds
  | w_write h ts ds t name h' r : world h ts ds -> In t ts -> write_h name t h = (h', r) -> world h' ts ds
  | w_decimator h ts ds ur maxf p t h' r : world h ts ds -> In t ts -> decimator_h rnd drnd orc ur maxf p t h = (h', r) ->
      world h' ts (match r with Ok d => d :: ds | Err _ => ds end)
  | w_write_dec h ts ds d h' x : world h ts ds -> In d ds -> write_dec_h d h = (h', x) -> world h' ts ds.
End World.

(** a list of processors, each run on the result of the one before *)
Fixpoint run_chain (rnd drnd : Q -> Q) (orc : oracles) (ps : list proc) (t : tref) (h : heap) : heap * res tref :=
  match ps with
  | [] => (h, Ok t)
  | p :: rest => match run_h rnd drnd orc p t h with
                 | (h, Err e) => (h, Err e)
                 | (h, Ok t') => run_chain rnd drnd orc rest t' h
                 end
  end.

(** which records a Decimator adds to the object it is given: one per level with a factor other
    than one, as far as the loop gets (also for a level that is dropped as too short) *)
Section DecRecords.
  Variable rnd : Q -> Q.
  Variable orc : oracles.
  Definition step_record (ur : bool) (maxf : Z) (td : tdata) (f : Z) : creator :=
    if ur then CProc (PResample (rnd (fs (meta td) / inject_Z f))) else CProc (PDecimate f maxf).
  Fixpoint loop_records (ur : bool) (maxf min_samples : Z) (incs : list Z) (td : tdata) : list creator :=
    match incs with
    | [] => []
    | f :: rest =>
        match dec_step rnd orc ur maxf td f with
        | Err _ => []
        | Ok td' => (if (f =? 1)%Z then [] else [step_record ur maxf td f]) ++
                    (if (n_samples (meta td') <? min_samples)%Z then [] else loop_records ur maxf min_samples rest td')
        end
    end.
  Definition decimator_records (ur : bool) (maxf : Z) (p : dec_params) (td : tdata) : list creator :=
    loop_records ur maxf (dp_min_samples p) (firstn (Z.to_nat (dp_n_levels p)) (dp_increments p)) td.
End DecRecords.
