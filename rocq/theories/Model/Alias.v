(** Model of the objects behind TimeData and DecimatedData: metadata objects, dictionaries of
    channel metadata, History objects and arrays live in a heap, so that sharing between objects
    is visible. What the processors compute is taken from Model/Time.v and Model/Decimate.v; this
    file adds which objects are copied, shared and changed in place.

    Simplifications: a chans_metadata dictionary and its ChanMetadata objects are one heap
    entry (no code shares one without the other); lists of strings inside metadata are never
    changed in place and are values. pydantic (version 1) .copy() is shallow, .dict() is deep. *)
From Coq Require Import String.
From Verif Require Import Base.Prelude Base.ListUtil Base.FileSys Model.Sampling Model.Time Model.Decimate Model.Persist.
Open Scope list_scope.

Definition loc := nat.
(** TimeMetadata, time.py 88-126: fields, and the objects it refers to *)
Record mrec := mkMrec {
  r_fs : Q; r_chans : list chan; r_n_chans : Z; r_n_samples : Z; r_first : time; r_last : time; r_info : string;
  r_cmd : loc;    (* chans_metadata *)
  r_hist : loc }. (* history *)
Record heap := mkHeap {
  h_metas : list mrec;
  h_cmds : list (list (chan * chan_md));
  h_hists : list (list creator);
  h_arrs : list (list (list cell)) }.
(** TimeData, time.py 473-484 *)
Record tref := mkTref { t_meta : loc; t_arr : loc; t_dtype : string }.
(** DecimatedData with its metadata, decimate.py 595-599; likewise windowed and spectra data *)
Record dref := mkDref {
  d_fs : list Q; d_chans : list chan; d_n_levels : Z; d_first : time; d_last : time; d_info : string; d_levels_md : list level_md;
  d_hist : loc; d_data : list (Z * loc) }.

Definition no_meta : mrec := mkMrec 0%Q [] 0 0 0%Q 0%Q ""%string O O.
Definition meta_at (h : heap) (l : loc) : mrec := nth l (h_metas h) no_meta.
Definition cmd_at (h : heap) (l : loc) := nth l (h_cmds h) [].
Definition hist_at (h : heap) (l : loc) := nth l (h_hists h) [].
Definition arr_at (h : heap) (l : loc) := nth l (h_arrs h) [].

(** what a user sees of an object *)
Definition look_meta (h : heap) (l : loc) : tmeta :=
  let m := meta_at h l in
  mkMeta (r_fs m) (r_chans m) (r_n_chans m) (r_n_samples m) (r_first m) (r_last m) (r_info m) (cmd_at h (r_cmd m)) (hist_at h (r_hist m)).
Definition look (h : heap) (t : tref) : tdata := mkData (look_meta h (t_meta t)) (t_dtype t) (arr_at h (t_arr t)).
Definition look_dec (h : heap) (d : dref) : dec_data :=
  mkDecData (d_fs d) (d_chans d) (d_n_levels d) (d_first d) (d_last d) (d_info d) (d_levels_md d) (hist_at h (d_hist d))
    (map (fun kv => (fst kv, arr_at h (snd kv))) (d_data d)).

(** new objects *)
Definition new_meta (m : mrec) (h : heap) : heap * loc := (mkHeap (h_metas h ++ [m]) (h_cmds h) (h_hists h) (h_arrs h), length (h_metas h)).
Definition new_cmd (c : list (chan * chan_md)) (h : heap) : heap * loc := (mkHeap (h_metas h) (h_cmds h ++ [c]) (h_hists h) (h_arrs h), length (h_cmds h)).
Definition new_hist (l : list creator) (h : heap) : heap * loc := (mkHeap (h_metas h) (h_cmds h) (h_hists h ++ [l]) (h_arrs h), length (h_hists h)).
Definition new_arr (a : list (list cell)) (h : heap) : heap * loc := (mkHeap (h_metas h) (h_cmds h) (h_hists h) (h_arrs h ++ [a]), length (h_arrs h)).

(** metadata.copy(): the new object refers to the same history and channel metadata *)
Definition copy_meta (l : loc) (h : heap) : heap * loc := new_meta (meta_at h l) h.
(** TimeMetadata with the content of a dictionary: everything new *)
Definition make_meta (m : tmeta) (h : heap) : heap * loc :=
  let (h, c) := new_cmd (chans_md m) h in
  let (h, r) := new_hist (history m) h in
  new_meta (mkMrec (fs m) (chans m) (n_chans m) (n_samples m) (first_time m) (last_time m) (info m) c r) h.
(** TimeMetadata of metadata.dict(), time.py 634 and 1215 *)
Definition deep_meta (l : loc) (h : heap) : heap * loc := make_meta (look_meta h l) h.
(** assignments of adjust_time_metadata, time.py 434-438 *)
Definition adjust_h (l : loc) (fs' : Q) (first last : time) (n : Z) (h : heap) : heap :=
  let m := meta_at h l in
  mkHeap (upd_nth l (mkMrec fs' (r_chans m) (r_n_chans m) n first last (r_info m) (r_cmd m) (r_hist m)) (h_metas h)) (h_cmds h) (h_hists h) (h_arrs h).
(** history.add_record, common.py 543-552 *)
Definition add_record_at (l : loc) (c : creator) (h : heap) : heap :=
  mkHeap (h_metas h) (h_cmds h) (upd_nth l (hist_at h l ++ [c]) (h_hists h)) (h_arrs h).
Definition add_record_h (l : loc) (c : creator) (h : heap) : heap := add_record_at (r_hist (meta_at h l)) c h.

(** processors that adjust a shallow copy of the metadata, time.py 1303, 1973, 2069, 2259; the
    others leave the metadata to new_time_data, 1214-1215 *)
Definition shallow (p : proc) : bool :=
  match p with PSubsection _ _ | PResample _ | PDecimate _ _ | PShift _ => true | _ => false end.

Section Alias.
  Variable rnd drnd : Q -> Q.
  Variable orc : oracles.

  (** run of a time processor, with new_time_data 1214-1220; data arrays are always new *)
  Definition run_h (p : proc) (t : tref) (h : heap) : heap * res tref :=
    match run rnd drnd orc p (look h t) with
    | Err e => (h, Err e)
    | Ok r =>
        let (h, a) := new_arr (rows r) h in
        let (h, m) := if shallow p
                      then let (h, m) := copy_meta (t_meta t) h in
                           (adjust_h m (fs (meta r)) (first_time (meta r)) (last_time (meta r)) (n_samples (meta r)) h, m)
                      else deep_meta (t_meta t) h in
        (add_record_h m (CProc p) h, Ok (mkTref m a (t_dtype t)))
    end.
  (** TimeData.copy, time.py 632-634 *)
  Definition copy_h (t : tref) (h : heap) : heap * tref :=
    let (h, m) := deep_meta (t_meta t) h in
    let (h, a) := new_arr (arr_at h (t_arr t)) h in
    (h, mkTref m a (t_dtype t)).
  (** TimeData.set_chan, time.py 550-577: the array is changed in place *)
  Definition set_chan_h (t : tref) (c : chan) (dt : string) (x : list cell) (h : heap) : heap * res unit :=
    match set_chan (look h t) c dt x with
    | Err e => (h, Err e)
    | Ok r => (mkHeap (h_metas h) (h_cmds h) (h_hists h) (upd_nth (t_arr t) (rows r) (h_arrs h)), Ok tt)
    end.

  (** the loop over channels of the writers, time.py 1143-1144 and 1177-1180: attributes of
      ChanMetadata objects are assigned *)
  Fixpoint set_files_h (cs : list chan) (name : chan -> string) (m : loc) (h : heap) : heap * res unit :=
    match cs with
    | [] => (h, Ok tt)
    | c :: t => match chan_meta (look_meta h m) c with
                | Err e => (h, Err e)
                | Ok _ => let l := r_cmd (meta_at h m) in
                          set_files_h t name m (mkHeap (h_metas h) (upd_nth l (set_files c [name c] (cmd_at h l)) (h_cmds h)) (h_hists h) (h_arrs h))
                end
    end.
  (** TimeWriterNumpy.run and TimeWriterAscii.run, time.py 1142-1145 and 1176-1181, once the
      directory is there: the metadata written *)
  Definition write_h (name : chan -> string) (t : tref) (h : heap) : heap * res tmeta :=
    let (h, m) := copy_meta (t_meta t) h in
    match set_files_h (r_chans (meta_at h (t_meta t))) name m h with
    | (h, Err e) => (h, Err e)
    | (h, Ok _) => let h := add_record_h m CWriter h in (h, Ok (look_meta h m))
    end.
  (** DecimatedDataWriter.run, decimate.py 832-833 (WindowedDataWriter window.py 1562-1563,
      SpectraDataWriter spectra.py 791-792): the data written *)
  Definition write_dec_h (d : dref) (h : heap) : heap * dec_data :=
    let h := add_record_at (d_hist d) CWriter h in (h, look_dec h d).

  (** Decimator._decimate and _resample, decimate.py 776-791 *)
  Definition dec_step_h (use_resample : bool) (maxf : Z) (t : tref) (factor : Z) (h : heap) : heap * res tref :=
    if (factor =? 1)%Z then (h, Ok t)
    else if use_resample then
      if (factor =? 0)%Z then (h, Err ZeroDivisionError)
      else run_h (PResample (rnd (r_fs (meta_at h (t_meta t)) / inject_Z factor))) t h
    else if (factor <? 1)%Z then (h, Err ValidationError)
    else run_h (PDecimate factor maxf) t h.
  (** the loop of Decimator.run, decimate.py 757-768 *)
  Fixpoint dec_loop_h (use_resample : bool) (maxf min_samples : Z) (incs : list Z) (ilevel : Z) (t : tref) (h : heap)
    : heap * res (list (Z * loc) * list level_md) :=
    match incs with
    | [] => (h, Ok ([], []))
    | f :: rest =>
      match dec_step_h use_resample maxf t f h with
      | (h, Err e) => (h, Err e)
      | (h, Ok t') =>
          if (r_n_samples (meta_at h (t_meta t')) <? min_samples)%Z then (h, Ok ([], []))
          else let md := level_of (look h t') in
               match dec_loop_h use_resample maxf min_samples rest (ilevel + 1) t' h with
               | (h, Err e) => (h, Err e)
               | (h, Ok (d, l)) => (h, Ok ((ilevel, t_arr t') :: d, md :: l))
               end
      end
    end.
  (** Decimator.run, decimate.py 734-774: metadata.dict() is taken before the loop *)
  Definition decimator_h (use_resample : bool) (maxf : Z) (p : dec_params) (t : tref) (h : heap) : heap * res dref :=
    let m := look_meta h (t_meta t) in
    match dec_loop_h use_resample maxf (dp_min_samples p) (firstn (Z.to_nat (dp_n_levels p)) (dp_increments p)) 0 t h with
    | (h, Err e) => (h, Err e)
    | (h, Ok (data, lmd)) =>
        match data with
        | [] => (h, Err KeyError)
        | _ => let (h, r) := new_hist (history m ++ [COther "Decimator"]) h in
               (h, Ok (mkDref (map lm_fs lmd) (chans m) (Z.of_nat (length lmd)) (first_time m) (last_time m) (info m) lmd r data))
        end
    end.
End Alias.
