(** Property C83: processed time data becomes a measurement of the project (process_time). File
    formats are parameters as in Props/Persist.v. *)
From Coq Require Import String Ascii.
From Verif Require Import Spec.Project.
From Verif Require Import Base.Prelude Base.Rounding Base.FileSys Model.Project Model.Sampling Spec.Sampling Model.Time Model.Persist Model.ProcessTime
  Spec.Time Spec.Persist Proofs.Toy Proofs.ProcessTime.
Open Scope list_scope.
Open Scope Q_scope.

(** ** C83: the new measurement holds the processed time range of the old one, with the complete
    history; no other file changes, in particular none of the old measurement *)
Theorem C83_process_time : forall rnd, good_rnd rnd -> forall drnd orc tser tparse nser nparse inter proj site measurement out_site out_meas m dt stored from_time to_time ps z s td0 td1,
  let src := get_meas_time_path proj site measurement in let out := get_meas_time_path proj out_site out_meas in
  component site /\ component measurement -> component out_site /\ component out_meas ->
  names_npy m -> chans_described m -> usable rnd (mkData m dt stored) -> (n_samples m < 2 ^ 49)%Z ->
  kind_at s (src ++ ["data.npy"%string]) = Some (KFile z) -> nparse z = Ok (dt, stored) ->
  good_oracles orc -> Forall valid_proc ps ->
  reader_run rnd m dt stored from_time to_time None None = Ok td0 -> run_all rnd drnd orc ps td0 = Ok td1 ->
  (forall qs rest mid, ps = qs ++ rest -> run_all rnd drnd orc qs td0 = Ok mid -> (n_samples (meta mid) < 2 ^ 49)%Z) ->
  (2 <= n_samples (meta td1))%Z -> writable s out ["data.npy"; "metadata.json"]%string -> (TimeOf site measurement <> TimeOf out_site out_meas \/ ps <> []) ->
  tparse (tser (as_written numpy_name (meta td1))) = Ok (as_written numpy_name (meta td1)) -> nparse (nser (dtype td1, rows td1)) = Ok (dtype td1, rows td1) ->
  let run := process_time rnd drnd orc tser nser nparse inter src m ps proj out_site out_meas from_time to_time in let s' := final run s in
  result run s = Ok tt /\
  (exists td', read_numpy rnd tparse nparse None None None None out s' = Ok td' /\ rows td' = rows td1 /\ dtype td' = dt /\ same_recording (meta td1) (meta td') /\
    Model.Time.history (meta td') = Model.Time.history m ++ CReader :: map CProc ps ++ [CWriter; CReader]) /\
  (forall q, (forall f, In f ["data.npy"; "metadata.json"]%string -> q <> out ++ [f]) -> (forall r, out <> q ++ r) -> kind_at s' q = kind_at s q) /\
  (TimeOf site measurement <> TimeOf out_site out_meas -> forall f, kind_at s' (src ++ [f]) = kind_at s (src ++ [f])).
Proof. intros. eapply c83; eassumption. Qed.
Print Assumptions C83_process_time.
(** an error while reading or processing leaves the project as it was *)
Theorem C83_failure : forall rnd drnd orc tser nser nparse inter proj site measurement out_site out_meas m dt stored from_time to_time ps z s e,
  let src := get_meas_time_path proj site measurement in
  names_npy m -> usable rnd (mkData m dt stored) ->
  kind_at s (src ++ ["data.npy"%string]) = Some (KFile z) -> nparse z = Ok (dt, stored) ->
  (reader_run rnd m dt stored from_time to_time None None = Err e \/
   (ps <> [] /\ exists td0, reader_run rnd m dt stored from_time to_time None None = Ok td0 /\ run_all rnd drnd orc ps td0 = Err e)) ->
  process_time rnd drnd orc tser nser nparse inter src m ps proj out_site out_meas from_time to_time s = ([], (s, Err e)).
Proof. intros. eapply c83_fail; eassumption. Qed.
Print Assumptions C83_failure.
(** without processors and with the source as output the process ends and the data is gone: the
    writer empties the file that the memory map shows *)
Theorem C83_onto_itself_refuted : forall rnd drnd orc tser nser nparse inter proj site measurement m dt stored from_time to_time z s td0,
  let src := get_meas_time_path proj site measurement in
  names_npy m -> usable rnd (mkData m dt stored) ->
  kind_at s (src ++ ["data.npy"%string]) = Some (KFile z) -> nparse z = Ok (dt, stored) -> (forall y, nparse ""%string <> Ok y) ->
  reader_run rnd m dt stored from_time to_time None None = Ok td0 ->
  let run := process_time rnd drnd orc tser nser nparse inter src m [] proj site measurement from_time to_time in
  result run s = Err RuntimeErr /\ kind_at (final run s) (src ++ ["data.npy"%string]) = Some (KFile "").
Proof. intros. eapply c83_onto_itself; eassumption. Qed.
Print Assumptions C83_onto_itself_refuted.

(** *** an instance *)
Definition ptM : tmeta := mkMeta 10 ["Ex"; "Hy"]%string 2 6 100 (1005 # 10) "site" [("Ex", mkChanMd ["data.npy"] "e"); ("Hy", mkChanMd ["data.npy"] "h")]%string [].
Definition ptRows : list (list cell) := [[Some 1; Some 2; Some 3; None; Some 5; Some 6]; [Some 0; Some 0; Some 9; Some 9; Some 4; Some 5]].
Definition ptPs : list proc := [PInterpolateNans; PAdd (AScalar 2)].
Definition ptTd1 : tdata :=
  match (td0 <- reader_run b64 ptM "float64" ptRows (Some (1001 # 10)) (Some (1004 # 10)) None None ;; run_all b64 b64 toy ptPs td0) with Ok x => x | Err _ => mkData ptM "" [] end.
Definition ptTser (m : tmeta) : string := "{m}".
Definition ptTparse (t : string) : res tmeta := if String.eqb t "{m}" then Ok (as_written numpy_name (meta ptTd1)) else Err ValueError.
Definition ptNser (x : string * list (list cell)) : string := "npy".
Definition ptNparse (t : string) : res (string * list (list cell)) :=
  if String.eqb t "npy" then Ok (dtype ptTd1, rows ptTd1) else if String.eqb t "src" then Ok ("float64"%string, ptRows) else Err ValueError.
Definition ptS : node := Dir [("p", Dir [("time", Dir [("A", Dir [("m1", Dir [("data.npy", File "src"); ("metadata.json", File "{s}")])])])])]%string.
Definition ptRun := process_time b64 b64 toy ptTser ptNser ptNparse (fun t => [substring 0 1 t]) (get_meas_time_path ["p"%string] "A" "m1") ptM ptPs ["p"%string] "A" "m2" (Some (1001 # 10)) (Some (1004 # 10)).
Example C83_ex : result ptRun ptS = Ok tt /\
  (exists td', read_numpy b64 ptTparse ptNparse None None None None ["p"; "time"; "A"; "m2"]%string (final ptRun ptS) = Ok td' /\
    rows td' = [[Some 4; Some 5; Some 6; Some 7]; [Some 2; Some 11; Some 11; Some 6]] /\ n_samples (meta td') = 4%Z /\ first_time (meta td') == 1001 # 10) /\
  kind_at (final ptRun ptS) ["p"; "time"; "A"; "m1"; "data.npy"]%string = Some (KFile "src").
Proof. split; [vm_compute; reflexivity|]. split; [|vm_compute; reflexivity]. eexists. split; [vm_compute; reflexivity|]. split; [vm_compute; reflexivity|]. split; reflexivity. Qed.
Example C83_ex_hyp : names_npy ptM /\ chans_described ptM /\ usable b64 (mkData ptM "float64" ptRows) /\
  writable ptS (get_meas_time_path ["p"%string] "A" "m2") ["data.npy"; "metadata.json"]%string /\ Forall valid_proc ptPs /\ (2 <= n_samples (meta ptTd1))%Z /\
  (forall qs rest mid td0, reader_run b64 ptM "float64" ptRows (Some (1001 # 10)) (Some (1004 # 10)) None None = Ok td0 -> ptPs = qs ++ rest ->
     run_all b64 b64 toy qs td0 = Ok mid -> (n_samples (meta mid) < 2 ^ 49)%Z).
Proof.
  split; [split; [intros c x [K|[K|[]]]; injection K as <- <-; reflexivity|intros c H; exact H]|].
  split; [split; [repeat constructor; cbn; intuition discriminate|intros c; reflexivity]|].
  split. { split; [|split; [reflexivity|cbn; lia]]. unfold consistent. cbn [meta rows]. split; [discriminate|]. split; [reflexivity|]. split; [reflexivity|]. split; [intros r [<-|[<-|[]]]; reflexivity|vm_compute; reflexivity]. }
  split.
  { assert (E : get_meas_time_path ["p"%string] "A" "m2" = ["p"; "time"; "A"; "m2"]%string) by (vm_compute; reflexivity). rewrite E.
    split; [discriminate|]. split; [reflexivity|]. split.
    - intros [|a [|b [|c [|d [|e q]]]]] r x H; cbn in H; try (injection H as <- <- <- <- <-); try (injection H as <- <- <- <-); try (injection H as <- <- <-); try (injection H as <- <-); subst; try (vm_compute; discriminate).
    - intros f [<-|[<-|[]]]; vm_compute; discriminate. }
  split; [repeat constructor|]. split; [vm_compute; discriminate|].
  intros qs rest mid td0 H0 Eq Hm. vm_compute in H0. injection H0 as <-.
  destruct qs as [|q1 [|q2 [|q3 qs]]]; cbn in Eq.
  - cbn in Hm. injection Hm as <-. reflexivity.
  - injection Eq as <- _. vm_compute in Hm. injection Hm as <-. reflexivity.
  - injection Eq as <- <- _. vm_compute in Hm. injection Hm as <-. reflexivity.
  - injection Eq as _ _ Eq. discriminate.
Qed.
