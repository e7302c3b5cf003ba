(** C94 for solutions: process_evals_to_tf stopped anywhere and run again. *)
From Coq Require Import String Ascii.
From Verif Require Import Spec.Project.
From Verif Require Import Base.Prelude Base.FileSys Model.Project Model.Letsgo Model.Persist Spec.Persist Spec.Restart
  Proofs.FileSys Proofs.PersistFs Proofs.ProjectFinal Proofs.Restart.
Open Scope list_scope.
Open Scope Q_scope.

Section Tf.
  Context {S : Type}.
  Variables (inter : string -> list string) (sser : S -> string) (sparse : string -> res S) (tfn tfv : S -> string).
  Notation process := (process_evals_to_tf inter sser tfn tfv).

  Lemma make_final {A} d files (k : prog A) s : writable s d files ->
    exists s1, ready s d s1 /\ final (x <~ preads (fun s => exists_ s d) ;; _ <~ (if (x : bool) then pret tt else mkdir_parents d) ;; k) s = final k s1 /\
      result (x <~ preads (fun s => exists_ s d) ;; _ <~ (if (x : bool) then pret tt else mkdir_parents d) ;; k) s = result k s1.
  Proof.
    intros W. destruct (check_dir_ok true s d files W (or_introl eq_refl)) as (C1 & R & _). exists (fst (snd (check_dir true d s))). split; [exact R|].
    revert C1. clear R. unfold check_dir, final, result. rewrite !(pbind_eq (preads (fun s => exists_ s d))). cbn [preads fst snd app]. rewrite andb_false_r.
    rewrite !(pbind_eq (if exists_ s d then _ else _)).
    destruct (snd (snd ((if exists_ s d then pret tt else mkdir_parents d) s))) as [u|e]; cbn [fst snd pret]; [|discriminate]. intros _. split; reflexivity.
  Qed.
  Lemma process_keeps compute p config fs site postfix name : (forall s sol, compute s = Ok sol -> pjoin (get_results_path p site config) (get_solution_name fs (tfn sol) (tfv sol) postfix) = get_results_path p site config ++ [name]) ->
    keeps (get_results_path p site config) [name] (process compute p config fs site postfix).
  Proof.
    intros E s W s' I. unfold process_evals_to_tf, final, crash_states in I. rewrite pbind_eq in I. cbn [pres fst snd app] in I.
    destruct (compute s) as [sol|e] eqn:C; [|cbn [fst snd] in I; destruct I as [->|[<-|[]]]; apply touched_refl].
    rewrite (E s sol C) in I. cbv zeta in I. cbn [fst snd] in I.
    refine (keeps_make (get_results_path p site config) [name] (fun _ => false) (_ <~ write_json inter (get_results_path p site config ++ [name]) (sser sol) ;; pret sol) _ _ s W s' I).
    - discriminate.
    - apply keeps_bind; [apply keeps_write_file; left; reflexivity|]. intros _. apply keeps_still. intros t. eexists. reflexivity.
  Qed.
  Lemma c94_solution s s' p (j : job S) compute : job_ok tfn tfv j ->
    let d := get_results_path p (j_site j) (j_config j) in let name := job_name tfn tfv j in
    writable s d [name] -> sparse (sser (j_sol j)) = Ok (j_sol j) -> compute s' = Ok (j_sol j) ->
    attempts (fun q => exists compute0 j0, job_ok tfn tfv j0 /\ same_file tfn tfv j0 j /\ (forall t sol, compute0 t = Ok sol -> sol = j_sol j0) /\
      q = process compute0 p (j_config j0) (j_fs j0) (j_site j0) (j_postfix j0)) s s' ->
    elsewhere_same d [name] s s' /\
    let s'' := final (process compute p (j_config j) (j_fs j) (j_site j) (j_postfix j)) s' in
    result (process compute p (j_config j) (j_fs j) (j_site j) (j_postfix j)) s' = Ok (j_sol j) /\
    get_solution_file sparse p (j_site j) (j_config j) (j_fs j) (tfn (j_sol j)) (tfv (j_sol j)) (j_postfix j) s'' = Ok (j_sol j) /\
    stored s d [(name, sser (j_sol j))] s''.
  Proof.
    intros J d name W P C H.
    assert (Join : forall k, job_ok tfn tfv k -> same_file tfn tfv k j -> pjoin (get_results_path p (j_site k) (j_config k)) (job_name tfn tfv k) = get_results_path p (j_site k) (j_config k) ++ [name]).
    { intros k Jk (E1 & E2 & E3). rewrite (job_join tfn tfv p k Jk), (results_path tfn tfv p k Jk). unfold job_path, name. rewrite E3, <- app_assoc. reflexivity. }
    pose proof (fun K => attempts_touched d [name] _ s s' K W H) as X. destruct X as [T W'].
    { intros q (c0 & j0 & J0 & F0 & C0 & ->). pose proof F0 as (E1 & E2 & E3). unfold d. rewrite <- E1, <- E2. apply process_keeps.
      intros t sol Ht. rewrite (C0 t sol Ht). exact (Join j0 J0 F0). }
    split; [exact (touched_elsewhere _ _ _ _ T)|]. cbv zeta.
    assert (Jj : pjoin d name = d ++ [name]) by (apply (Join j J); repeat split).
    set (k := _ <~ write_json inter (d ++ [name]) (sser (j_sol j)) ;; pret (j_sol j)).
    destruct (make_final d [name] k s' W') as (s1 & (R1 & R2 & R3) & F & R).
    assert (E : forall t, compute t = Ok (j_sol j) -> process compute p (j_config j) (j_fs j) (j_site j) (j_postfix j) t = (x <~ preads (fun s => exists_ s d) ;; _ <~ (if (x : bool) then pret tt else mkdir_parents d) ;; k) t).
    { intros t Ht. unfold process_evals_to_tf. rewrite pbind_eq. cbn [pres fst snd app]. rewrite Ht. change (get_solution_name (j_fs j) (tfn (j_sol j)) (tfv (j_sol j)) (j_postfix j)) with name.
      fold d. rewrite Jj. cbv zeta. rewrite <- surjective_pairing. reflexivity. }
    unfold final, result in *. rewrite (E s' C). rewrite F, R. clear F R E.
    assert (N : kind_at s1 (d ++ [name]) <> Some KDir) by (rewrite R2; apply W'; left; reflexivity).
    assert (Ek : k s1 = (map (fun c => put s1 (d ++ [name]) (File c)) (""%string :: inter (sser (j_sol j)) ++ [sser (j_sol j)]), (put s1 (d ++ [name]) (File (sser (j_sol j))), Ok (j_sol j)))).
    { unfold k, write_json. rewrite pbind_eq, (write_here s1 d name _ _ R1 N). cbn [fst snd pret]. rewrite app_nil_r. reflexivity. }
    rewrite Ek. cbn [fst snd]. set (s2 := put s1 (d ++ [name]) (File (sser (j_sol j)))).
    assert (K2 : forall q, kind_at s2 q = if path_dec q (d ++ [name]) then Some (KFile (sser (j_sol j))) else kind_at s1 q) by (intros q; exact (kind_put_here s1 d name _ q R1 N)).
    assert (Kf : kind_at s2 (d ++ [name]) = Some (KFile (sser (j_sol j)))) by (rewrite K2; destruct (path_dec (d ++ [name]) (d ++ [name])); [reflexivity|congruence]).
    split; [reflexivity|]. split.
    - unfold get_solution_file. change (get_solution_name (j_fs j) (tfn (j_sol j)) (tfv (j_sol j)) (j_postfix j)) with name. fold d. rewrite Jj.
      unfold read_file. unfold kind_at in Kf. destruct (look s2 (d ++ [name])) as [[c|es]|]; [|discriminate Kf|discriminate Kf]. cbn in Kf. injection Kf as ->. cbn [bind]. exact P.
    - eapply stored_from; [exact T|reflexivity|]. split; [|split].
      + intros f c [E|[]]. injection E as <- <-. exact Kf.
      + intros q r Hq. rewrite K2. destruct (path_dec q (d ++ [name])) as [->|_]; [exfalso; exact (no_prefix_below d name r Hq)|].
        destruct r as [|x r]; [rewrite app_nil_r in Hq; subst q; exact R1|]. apply (kind_prefix_dir _ q (x :: r) KDir); [rewrite <- Hq; exact R1|discriminate].
      + intros q H1 H2. rewrite K2. destruct (path_dec q (d ++ [name])) as [->|_]; [exfalso; exact (H1 name _ (or_introl eq_refl) eq_refl)|]. apply R3. exact H2.
  Qed.
End Tf.
