(** Model of several resistics processes working on one project at the same time.

    resistics starts no threads itself, but a project is a directory and nothing stops a
    user from running several scripts on it. A process is here a sequence of atomic
    actions on the shared file system (one system call each), so that the actions of
    several processes can be interleaved in any order, and any of them may stop anywhere.

    Simplifications: writing a file sets its content in some number of steps, by path;
    nothing is ever deleted (resistics deletes nothing); reading the inputs of the job is
    done before (only the saving of the results is modelled). *)
From Coq Require Import String Ascii NArith.
From Verif Require Import Base.Prelude Base.PyString Base.FileSys Base.ListUtil Model.Project Model.Persist.
Open Scope list_scope.

(** a process: finished with a result, or about to perform an action on what it finds *)
Inductive io : Type :=
| Ret (r : res unit)
| Act (f : node -> node * io).

(** os.mkdir: one system call *)
Definition os_mkdir (s : node) (p : path) : res node :=
  if exists_ s p then Err OSError
  else match look s (removelast p) with
       | Some (Dir _) => Ok (put s p (Dir []))
       | Some (File _) => Err OSError
       | None => Err FileNotFoundError
       end.

(** pathlib.Path.mkdir(parents=False, exist_ok) (CPython, pathlib.py):
      try: os.mkdir(self)
      except FileNotFoundError: raise
      except OSError: if not exist_ok or not self.is_dir(): raise *)
Definition mkdir_exists (p : path) (exist_ok : bool) (e : exn) (k : res unit -> io) : io :=
  if exist_ok then Act (fun s => (s, k (if is_dir_ s p then Ok tt else Err e))) else k (Err e).
Definition mkdir_one (p : path) (exist_ok : bool) (k : res unit -> io) : io :=
  Act (fun s => match os_mkdir s p with
                | Ok s' => (s', k (Ok tt))
                | Err FileNotFoundError => (s, k (Err FileNotFoundError))
                | Err e => (s, mkdir_exists p exist_ok e k)
                end).
(** pathlib.Path.mkdir(parents=True, exist_ok); the path is given in reverse:
      except FileNotFoundError:
          self.parent.mkdir(parents=True, exist_ok=True)
          self.mkdir(parents=False, exist_ok) *)
Fixpoint mkdir_all (rp : path) (exist_ok : bool) (k : res unit -> io) : io :=
  Act (fun s => match os_mkdir s (rev rp) with
                | Ok s' => (s', k (Ok tt))
                | Err FileNotFoundError =>
                    (s, match rp with
                        | [] => k (Err FileNotFoundError)
                        | _ :: up => mkdir_all up true (fun r =>
                            match r with Ok _ => mkdir_one (rev rp) exist_ok k | Err e => k (Err e) end)
                        end)
                | Err e => (s, mkdir_exists (rev rp) exist_ok e k)
                end).

(** ResisticsWriter._check_dir, common.py 920-930, with every look at the disk an action *)
Definition par_check_dir (overwrite : bool) (d : path) (k : res bool -> io) : io :=
  Act (fun s => (s, if exists_ s d && negb overwrite then k (Ok false)
    else Act (fun s => (s,                     (* 925: the second look only logs *)
      Act (fun s => (s, if exists_ s d then k (Ok true)
        else mkdir_all (rev d) false (fun r => match r with Ok _ => k (Ok true) | Err e => k (Err e) end))))))).

(** open(path, "w") truncates; then the content arrives in steps *)
Fixpoint put_contents (p : path) (cs : list string) (k : io) : io :=
  match cs with [] => k | c :: t => Act (fun s => (put s p (File c), put_contents p t k)) end.
Definition par_write_file (p : path) (inter : list string) (content : string) (k : res unit -> io) : io :=
  Act (fun s => match look s p, look s (removelast p) with
                | Some (Dir _), _ => (s, k (Err OSError))
                | _, Some (Dir _) => (put s p (File ""%string), put_contents p (inter ++ [content]) (k (Ok tt)))
                | _, Some (File _) => (s, k (Err OSError))
                | _, None => (s, k (Err FileNotFoundError))
                end).
(** the files of a job one after another: name, contents on the way, content *)
Fixpoint par_write_files (d : path) (fl : list (string * (list string * string))) (k : res unit -> io) : io :=
  match fl with
  | [] => k (Ok tt)
  | (f, (inter, c)) :: t => par_write_file (d ++ [f]) inter c (fun r =>
      match r with Ok _ => par_write_files d t k | Err e => k (Err e) end)
  end.

Section Levels.
  Context {B A : Type}.
  Variable mser : pmeta B -> string.
  Variable zser : list (string * A) -> string.
  Variable inter : string -> list string.
  (** SpectraDataWriter.run, spectra.py 767-793 (DecimatedDataWriter.run, decimate.py 808-834;
      WindowedDataWriter.run, window.py 1538-1564): the last step of process_time_to_evals,
      letsgo.py 733-737 *)
  Definition par_write_levels (who now : string) (overwrite : bool) (d : path) (m : pmeta B) (data : list (Z * A)) : io :=
    let arc := zser (str_keys data []) in
    let text := mser (mkPMeta (pm_body m) (pm_hist m ++ [who]) (Some now)) in
    par_check_dir overwrite d (fun r =>
      match r with
      | Err e => Ret (Err e)
      | Ok false => Ret (Err WriteError)
      | Ok true => par_write_files d [(NPZ_FILE, (inter arc, arc)); (META_FILE, (inter text, text))] Ret
      end).
End Levels.

(** the last lines of process_evals_to_tf, letsgo.py 801-807:
      if not solution_path.exists(): solution_path.mkdir(parents=True)
      solution.write(solution_path / solution_name) *)
Definition par_save_solution (sp : path) (name : string) (inter : list string) (content : string) : io :=
  let write := par_write_files sp [(name, (inter, content))] Ret in
  Act (fun s => (s, if exists_ s sp then write
    else mkdir_all (rev sp) false (fun r => match r with Ok _ => write | Err e => Ret (Err e) end))).

(** ** Schedules: the numbers of the processes in the order in which they act *)
Fixpoint set_proc (i : nat) (t : io) (l : list io) : list io :=
  match l, i with
  | [], _ => []
  | _ :: r, O => t :: r
  | x :: r, S j => x :: set_proc j t r
  end.
Fixpoint run_schedule (sched : list nat) (pool : list io) (s : node) : list io * node :=
  match sched with
  | [] => (pool, s)
  | i :: rest =>
      match nth_error pool i with
      | Some (Act f) => let (s', t) := f s in run_schedule rest (set_proc i t pool) s'
      | _ => run_schedule rest pool s
      end
  end.
