(** C95: reading while other processes write.

    [q1], [q2], [q3] are the actions of the writers before the reader looks for the
    directory, reads the metadata and reads the data. *)
From Coq Require Import String Ascii.
From Verif Require Import Spec.Project.
From Verif Require Import Base.Prelude Base.FileSys Model.Project Model.Persist Model.Parallel Model.ParallelRead Spec.Persist Spec.Parallel.
From Verif Require Import Proofs.FileSys Proofs.PersistFs Proofs.Persist Proofs.Parallel Proofs.ParallelJobs Proofs.ParallelRead.
From Verif Require Props.Persist Props.Parallel.
Open Scope list_scope.

(** a directory that could not be read when the writers started: whatever can be read is the complete new data *)
Theorem C95_new_directory : forall (B A : Type) (mser : pmeta B -> string) (mparse : string -> res (pmeta B)) (zser : list (string * A) -> string)
  (zparse : string -> res (list (string * A))) inter (jobs : list (wjob B A)) i b s q1 q2 q3 pool1 s1 pool2 s2 pool3 s3 who r,
  apart (map w_dir jobs) ->
  (forall b, In b jobs -> levels_distinct (w_data b) /\ writable s (w_dir b) ["data.npz"; "metadata.json"]%string /\ (w_ov b = true \/ kind_at s (w_dir b) = None)) ->
  nth_error jobs i = Some b ->
  faithful mser mparse inter (written (w_who b) (w_now b) (w_meta b)) -> faithful zser zparse inter (archive (w_data b)) ->
  (forall old, read_levels_md mparse (w_dir b) s <> Ok old) ->
  run_schedule q1 (map (fun b => par_write_levels mser zser inter (w_who b) (w_now b) (w_ov b) (w_dir b) (w_meta b) (w_data b)) jobs) s = (pool1, s1) ->
  run_schedule q2 pool1 s1 = (pool2, s2) -> run_schedule q3 pool2 s2 = (pool3, s3) ->
  par_read_levels mparse zparse who (w_dir b) s1 s2 s3 = Ok r ->
  r = (seen who (written (w_who b) (w_now b) (w_meta b)), w_data b).
Proof.
  intros B A mser mparse zser zparse inter jobs i b s q1 q2 q3 pool1 s1 pool2 s2 pool3 s3 who r HA HG Hi Fm Fz N E1 E2 E3 Hr.
  destruct (c95_levels mser mparse zser zparse inter jobs i b s q1 q2 q3 pool1 s1 pool2 s2 pool3 s3 who r HA HG Hi Fm Fz E1 E2 E3 Hr) as [E|(old & E & _)]; [exact E|exfalso; exact (N old E)].
Qed.
Print Assumptions C95_new_directory.
(** overwriting: new metadata come with the new data, old metadata with old or new data *)
Theorem C95_overwrite_partial : forall (B A : Type) (mser : pmeta B -> string) (mparse : string -> res (pmeta B)) (zser : list (string * A) -> string)
  (zparse : string -> res (list (string * A))) inter (jobs : list (wjob B A)) i b s q1 q2 q3 pool1 s1 pool2 s2 pool3 s3 who r,
  apart (map w_dir jobs) ->
  (forall b, In b jobs -> levels_distinct (w_data b) /\ writable s (w_dir b) ["data.npz"; "metadata.json"]%string /\ (w_ov b = true \/ kind_at s (w_dir b) = None)) ->
  nth_error jobs i = Some b ->
  faithful mser mparse inter (written (w_who b) (w_now b) (w_meta b)) -> faithful zser zparse inter (archive (w_data b)) ->
  run_schedule q1 (map (fun b => par_write_levels mser zser inter (w_who b) (w_now b) (w_ov b) (w_dir b) (w_meta b) (w_data b)) jobs) s = (pool1, s1) ->
  run_schedule q2 pool1 s1 = (pool2, s2) -> run_schedule q3 pool2 s2 = (pool3, s3) ->
  par_read_levels mparse zparse who (w_dir b) s1 s2 s3 = Ok r ->
  r = (seen who (written (w_who b) (w_now b) (w_meta b)), w_data b) \/
  exists old, read_levels_md mparse (w_dir b) s = Ok old /\ (r = (seen who old, w_data b) \/ read_levels mparse zparse who (w_dir b) s = Ok r).
Proof. exact @c95_levels. Qed.
Print Assumptions C95_overwrite_partial.
(** and old metadata with new data happens in some order of every overwriting *)
Theorem C95_overwrite_refuted : forall (B A : Type) (mser : pmeta B -> string) (mparse : string -> res (pmeta B)) (zser : list (string * A) -> string)
  (zparse : string -> res (list (string * A))) inter (jobs : list (wjob B A)) i b s who old,
  apart (map w_dir jobs) ->
  (forall b, In b jobs -> levels_distinct (w_data b) /\ writable s (w_dir b) ["data.npz"; "metadata.json"]%string /\ (w_ov b = true \/ kind_at s (w_dir b) = None)) ->
  nth_error jobs i = Some b -> zparse (zser (archive (w_data b))) = Ok (archive (w_data b)) -> read_levels_md mparse (w_dir b) s = Ok old ->
  exists q pool s', run_schedule q (map (fun b => par_write_levels mser zser inter (w_who b) (w_now b) (w_ov b) (w_dir b) (w_meta b) (w_data b)) jobs) s = (pool, s') /\
    par_read_levels mparse zparse who (w_dir b) s s s' = Ok (seen who old, w_data b).
Proof. exact @c95_mixture. Qed.
Print Assumptions C95_overwrite_refuted.
(** a solution is one file: whatever can be read is the old or the new solution; sites at the same time, *)
Theorem C95_solutions_of_sites : forall (S : Type) (sparse : string -> res S) (jobs : list sjob) i b s q pool s' r,
  apart (map s_dir jobs) -> (forall b, In b jobs -> writable s (s_dir b) [s_name b]) -> nth_error jobs i = Some b ->
  (forall c, In c (""%string :: s_inter b) -> forall y, sparse c <> Ok y) ->
  run_schedule q (map (fun b => par_save_solution (s_dir b) (s_name b) (s_inter b) (s_text b)) jobs) s = (pool, s') ->
  (t <- read_file s' (s_dir b ++ [s_name b]) ;; sparse t) = Ok r ->
  sparse (s_text b) = Ok r \/ (t <- read_file s (s_dir b ++ [s_name b]) ;; sparse t) = Ok r.
Proof. exact @c95_solutions_apart. Qed.
Print Assumptions C95_solutions_of_sites.
(** or solutions of one site at the same time *)
Theorem C95_solutions_of_one_site : forall (S : Type) (sparse : string -> res S) d (jobs : list sjob) i b s q pool s' r,
  kind_at s d = Some KDir -> NoDup (map s_name jobs) -> (forall b, In b jobs -> s_dir b = d /\ kind_at s (d ++ [s_name b]) <> Some KDir) ->
  nth_error jobs i = Some b -> (forall c, In c (""%string :: s_inter b) -> forall y, sparse c <> Ok y) ->
  run_schedule q (map (fun b => par_save_solution (s_dir b) (s_name b) (s_inter b) (s_text b)) jobs) s = (pool, s') ->
  (t <- read_file s' (d ++ [s_name b]) ;; sparse t) = Ok r ->
  sparse (s_text b) = Ok r \/ (t <- read_file s (d ++ [s_name b]) ;; sparse t) = Ok r.
Proof. exact @c95_solutions_same. Qed.
Print Assumptions C95_solutions_of_one_site.

Import Props.Persist Props.Parallel.
(** one overwriting writer; the reader looks after every pair of numbers of actions: before it reads the metadata, and then before it reads the data *)
Definition job95 : wjob string string := mkWJob "w" "now" true D0 md lv.
Definition old95 : node := Dir [("p"%string, Dir [("spectra"%string, Dir [("metadata.json"%string, File "{old}"); ("data.npz"%string, File "0:x;.")])])].
Definition view95 (s : node) (a b : nat) : option (string * nat) :=
  let '(pool, s2) := run_schedule (repeat 0%nat a) [par_write_levels tMser tZser tInter (w_who job95) (w_now job95) (w_ov job95) (w_dir job95) (w_meta job95) (w_data job95)] s in
  let '(_, s3) := run_schedule (repeat 0%nat b) pool s2 in
  match par_read_levels tMparse tZparse "r" D0 s2 s2 s3 with Ok r => Some (pm_body (fst r), length (snd r)) | Err _ => None end.
Example C95_ex : 
  levels_distinct lv /\ writable R0 D0 ["data.npz"; "metadata.json"]%string /\
  faithful tMser tMparse tInter (written "w" "now" md) /\ faithful tZser tZparse tInter (archive lv) /\
  map (fun a => view95 old95 a 0) [0; 5; 7; 8; 10; 11; 12]%nat =
    [Some ("old", 1%nat); None; Some ("old", 4%nat); None; None; Some ("new", 4%nat); Some ("new", 4%nat)]%string /\
  map (fun b => view95 old95 0 b) [0; 3; 5; 6; 7; 8; 20]%nat =
    [Some ("old", 1%nat); Some ("old", 1%nat); None; None; Some ("old", 4%nat); Some ("old", 4%nat); Some ("old", 4%nat)]%string /\
  existsb (fun ab => match view95 R0 (fst ab) (snd ab) with Some (m, n) => negb (String.eqb m "new" && Nat.eqb n 4) | None => false end) (list_prod (seq 0 20) (seq 0 20)) = false.
Proof.
  destruct C65_ex as (W & L & F1 & F2 & _). split; [exact L|]. split; [exact W|]. split; [exact F1|]. split; [exact F2|].
  repeat match goal with |- _ /\ _ => apply conj end; vm_compute; reflexivity.
Qed.
Example C95_ex_solution : (forall c, In c [""; "{"]%string -> forall y, (if String.eqb c "{1}" then Ok c else Err ValueError) <> Ok y) /\
  map (fun k => kind_at (snd (run_schedule (repeat 0%nat k ++ [1; 1; 1; 1]%nat) (map (fun b => par_save_solution (s_dir b) (s_name b) (s_inter b) (s_text b)) j76) (s76 [("default"%string, Dir [("128_000000_impedancetensor.json"%string, File "{0}")])])))
    (d76 ++ ["128_000000_impedancetensor.json"]%string)) [0; 2; 3; 4]%nat = [Some (KFile "{0}"); Some (KFile ""); Some (KFile "{"); Some (KFile "{1}")]%string.
Proof. split; [intros c [<-|[<-|[]]] y; discriminate|vm_compute; reflexivity]. Qed.
