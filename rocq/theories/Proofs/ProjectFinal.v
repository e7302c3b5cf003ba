(** Projects: final statements. *)
From Coq Require Import String Ascii.
From Verif Require Import Base.Prelude Base.FileSys Model.Project Model.Letsgo Spec.Project.
From Verif Require Import Proofs.FileSys Proofs.ProjectFs Proofs.ProjectLoad Proofs.ProjectNames Proofs.ProjectSites.
Open Scope list_scope.
Open Scope Q_scope.

(** ** names stay distinct *)
Lemma wf_dir es : wf_names (Dir es) <-> NoDup (map fst es) /\ forall x m, assoc x es = Some m -> wf_names m.
Proof.
  split.
  - intros W. split; [exact (W [])|]. intros x m E q. pose proof (W (x :: q)) as K. unfold iterdir in *. cbn [look] in K. rewrite E in K. exact K.
  - intros [N H] [|x q]; [exact N|]. unfold iterdir. cbn [look]. destruct (assoc x es) as [m|] eqn:E; [exact (H x m E q)|constructor].
Qed.
Lemma wf_file c : wf_names (File c).
Proof. intros [|x q]; unfold iterdir; cbn; constructor. Qed.
Lemma NoDup_snoc {A} (l : list A) x : NoDup l -> ~ In x l -> NoDup (l ++ [x]).
Proof.
  intros N. induction N as [|y l H N IH]; intros K; cbn; [constructor; [intros []|constructor]|]. constructor.
  - rewrite in_app_iff. intros [E|[E|[]]]; [exact (H E)|]. apply K. left. symmetry. exact E.
  - apply IH. intros E. apply K. right. exact E.
Qed.
Lemma set_assoc_names {A} k (v : A) l : NoDup (map fst l) -> NoDup (map fst (set_assoc k v l)).
Proof.
  intros N. destruct (assoc k l) as [w|] eqn:E.
  - replace (map fst (set_assoc k v l)) with (map fst l); [exact N|]. clear N. induction l as [|[x u] l IH]; [discriminate|]. cbn in *.
    destruct (String.eqb x k); cbn; [reflexivity|]. rewrite (IH E). reflexivity.
  - rewrite (set_assoc_new _ _ _ E), map_app. cbn. apply NoDup_snoc; [exact N|]. apply assoc_none. exact E.
Qed.
Lemma wf_put p : forall s v, wf_names s -> wf_names v -> wf_names (put s p v).
Proof.
  induction p as [|x p IH]; intros s v Ws Wv; cbn [put]; [exact Wv|]. destruct s as [c|es]; [exact Ws|]. apply wf_dir in Ws. destruct Ws as [N W].
  assert (G : forall u, wf_names u -> wf_names (Dir (set_assoc x u es))).
  { intros u Wu. apply wf_dir. split; [apply set_assoc_names; exact N|]. intros y m E. destruct (string_dec y x) as [->|Ne].
    - rewrite assoc_set_same in E. injection E as <-. exact Wu.
    - rewrite assoc_set_other in E by exact Ne. exact (W y m E). }
  destruct (assoc x es) as [m|] eqn:E; [apply G, IH; [exact (W x m E)|exact Wv]|]. destruct p; [apply G; exact Wv|]. apply wf_dir. split; assumption.
Qed.
Lemma wf_empty : wf_names (Dir []).
Proof. apply wf_dir. split; [constructor|]. intros x m E. discriminate. Qed.
Ltac wf_tac :=
  first [ apply wf_file
        | apply wf_dir; split; [repeat constructor; cbn; intuition congruence|];
          let E := fresh in intros ? ? E; cbn [assoc] in E;
          repeat (match type of E with (if ?b then _ else _) = _ => destruct b end; [injection E as <-; wf_tac|]); discriminate ].
Definition keeps_wf {A} (p : prog A) : Prop := forall s, wf_names s -> wf_names (final p s).
Lemma keeps_bind {A B} (p : prog A) (f : A -> prog B) : keeps_wf p -> (forall a, keeps_wf (f a)) -> keeps_wf (pbind p f).
Proof.
  intros Hp Hf s W. unfold final. rewrite pbind_eq. pose proof (Hp s W) as K. unfold final in K. destruct (snd (snd (p s))) as [a|e]; cbn [fst snd]; [|exact K].
  exact (Hf a _ K).
Qed.
Lemma keeps_reads {A} (f : node -> A) : keeps_wf (preads f). Proof. intros s W. exact W. Qed.
Lemma keeps_ret {A} (a : A) : keeps_wf (pret a). Proof. intros s W. exact W. Qed.
Lemma keeps_fail {A} e : keeps_wf (@pfail A e). Proof. intros s W. exact W. Qed.
Lemma keeps_res {A} (f : node -> res A) : keeps_wf (pres f). Proof. intros s W. exact W. Qed.
Lemma keeps_mkdir p : keeps_wf (mkdir p).
Proof.
  intros s W. unfold final, mkdir. destruct (exists_ s p); [exact W|]. destruct (look s (removelast p)) as [[c|es]|]; [exact W| |exact W]. cbn. apply wf_put; [exact W|exact wf_empty].
Qed.
Lemma keeps_mkdir_parents rest : forall done, keeps_wf (mkdir_parents_from done rest).
Proof.
  induction rest as [|x rest IH]; intros done s W; [exact W|]. unfold final. cbn [mkdir_parents_from]. destruct (look s (done ++ [x])) as [[c|es]|].
  - exact W.
  - destruct rest; [exact W|]. exact (IH (done ++ [x]) s W).
  - destruct rest as [|y rest]; [cbn; apply wf_put; [exact W|exact wf_empty]|]. rewrite pbind_eq. cbn [pstep fst snd].
    apply (IH (done ++ [x]) (put s (done ++ [x]) (Dir []))). apply wf_put; [exact W|exact wf_empty].
Qed.
Lemma keeps_write p i c : keeps_wf (write_file p i c).
Proof.
  intros s W. unfold final, write_file.
  assert (K : wf_names (fst (snd (psteps (map (fun c => put s p (File c)) (""%string :: i ++ [c])) s)))).
  { rewrite psteps_eq by discriminate. cbn [fst snd]. 
    assert (L : forall (l : list string) d, wf_names d -> wf_names (last (map (fun c => put s p (File c)) l) d)).
    { induction l as [|z l IHl]; intros d Wd; [exact Wd|]. cbn [map]. destruct l as [|w l]; [cbn; apply wf_put; [exact W|apply wf_file]|].
      change (wf_names (last (map (fun c0 => put s p (File c0)) (w :: l)) d)). apply IHl. exact Wd. }
    apply L. exact W. }
  destruct (look s p) as [[c0|es0]|]; [|exact W|]; destruct (look s (removelast p)) as [[c1|es1]|]; try exact W; exact K.
Qed.
Lemma keeps_subdirs p dirs : keeps_wf (make_subdirs p dirs).
Proof.
  induction dirs as [|[k d] dirs IH]; cbn [make_subdirs]; [apply keeps_ret|]. apply keeps_bind; [apply keeps_reads|]. intros e. apply keeps_bind; [|intros _; exact IH].
  destruct e; [apply keeps_ret|apply keeps_mkdir].
Qed.
Section Fin.
  Context {M D S : Type}.
  Variable pser : M -> string.
  Variable pparse : string -> res M.
  Variable inter : string -> list string.
  Variable now : path -> Q * Q.
  Lemma keeps_new p m : keeps_wf (new pser inter p m).
  Proof.
    unfold new. apply keeps_bind; [apply keeps_reads|]. intros []; [apply keeps_fail|]. apply keeps_bind; [apply keeps_reads|]. intros e.
    apply keeps_bind; [destruct e; [apply keeps_res|apply keeps_mkdir_parents]|]. intros _. apply keeps_bind; [apply keeps_subdirs|]. intros _. apply keeps_write.
  Qed.

  Theorem c54_new (readers : list (reader D)) s p m : creatable s p -> wf_names s -> pparse (pser m) = Ok m ->
    result (new pser inter p m) s = Ok tt /\ created s p (pser m) (final (new pser inter p m) s) /\
    exists pr, load pparse now readers p (final (new pser inter p m) s) = Ok pr /\
      project_of now (final (new pser inter p m) s) readers p m pr /\ (kind_at s p = None -> pr_sites pr = []).
  Proof.
    intros C W Hm. destruct (created_final pser inter s p m C) as [F R]. split; [exact R|]. split; [exact F|].
    destruct F as (F1 & F2 & F3 & F4).
    destruct (load_ok pparse now (final (new pser inter p m) s) readers p (pser m) m) as (pr & E & P).
    - apply keeps_new. exact W.
    - apply (F3 p []). rewrite app_nil_r. reflexivity.
    - exact F1.
    - exact Hm.
    - apply F2. left. reflexivity.
    - exists pr. split; [exact E|]. split; [exact P|]. intros K. destruct P as (_ & _ & _ & _ & P & _).
      destruct (pr_sites pr) as [|[name st] l]; [reflexivity|]. exfalso. pose proof (proj1 (P name) (or_introl eq_refl)) as Q1.
      assert (Len : forall q, length q = 2%nat -> forall r, p <> (p ++ q) ++ r).
      { intros q Lq r E'. apply (f_equal (@length string)) in E'. rewrite !app_length in E'. lia. }
      rewrite F4 in Q1.
      + unfold kind_at in *. rewrite look_app in Q1. destruct (look s p); [discriminate|discriminate].
      + unfold proj_file. intros E'. apply app_inv_head in E'. discriminate.
      + intros d _ E'. unfold sub_dir in E'. apply app_inv_head in E'. discriminate.
      + apply Len. reflexivity.
  Qed.
  Theorem c54_refuses s p m k : kind_at s p = Some KDir -> kind_at s (proj_file p) = Some k ->
    result (new pser inter p m) s = Err ProjectCreateError /\ crash_states (new pser inter p m) s = [s] /\ final (new pser inter p m) s = s.
  Proof. intros K1 K2. unfold result, crash_states, final. rewrite (new_refuses pser inter s p m k K1 K2). split; [reflexivity|]. split; reflexivity. Qed.
  (** a crash while the project file is written leaves a directory that neither new nor load accepts *)
  Theorem c54_stuck (readers : list (reader D)) s p m : creatable s p -> (forall x, pparse ""%string <> Ok x) ->
    exists s', In s' (crash_states (new pser inter p m) s) /\ result (new pser inter p m) s' = Err ProjectCreateError /\
      forall pr, load pparse now readers p s' <> Ok pr.
  Proof.
    intros C Hp. destruct (new_spec pser inter s p m C) as (t & s1 & E & _ & G & Kp & _ & _).
    assert (Kf : kind_at s1 (proj_file p) = None) by (apply (grown_creatable p s s1 C G)).
    exists (put s1 (proj_file p) (File ""%string)).
    assert (K : kind_at (put s1 (proj_file p) (File ""%string)) (proj_file p) = Some (KFile ""%string)).
    { rewrite put_file_kind by assumption. destruct (path_dec (proj_file p) (proj_file p)); [reflexivity|congruence]. }
    split; [|split].
    - unfold crash_states. rewrite E. right. cbn [fst]. apply in_app_iff. right. left. reflexivity.
    - unfold result. erewrite new_refuses; [reflexivity| |exact K]. rewrite put_file_kind by assumption. destruct (path_dec p (proj_file p)) as [F|F]; [|exact Kp].
      exfalso. unfold proj_file in F. apply (longer_not_prefix p "resistics.json"%string []). rewrite app_nil_r. exact F.
    - intros pr L. destruct (load_needs pparse now _ readers p pr L) as (_ & _ & text & x & K' & Hx). rewrite K in K'. injection K' as <-. exact (Hp x Hx).
  Qed.
  Theorem c54_load_refuses (readers : list (reader D)) s p : kind_at s (sub_dir p "time"%string) <> Some KDir -> forall pr, load pparse now readers p s <> Ok pr.
  Proof. intros H pr L. destruct (load_needs pparse now s readers p pr L) as (_ & K & _). exact (H K). Qed.

  (** ** stored solutions *)
  Variable sser : S -> string.
  Variable sparse : string -> res S.
  Variables (tfn tfv : S -> string).
  Notation process := (process_evals_to_tf inter sser tfn tfv).
  Notation find := (get_solution_file sparse).
  Definition job_path (p : path) (j : job S) : path := p ++ ["results"%string; j_site j; j_config j; job_name tfn tfv j].
  Lemma job_join p j : job_ok tfn tfv j -> pjoin (get_results_path p (j_site j) (j_config j)) (job_name tfn tfv j) = job_path p j.
  Proof.
    intros (J1 & J2 & J3 & J4 & J5 & J6). unfold get_results_path.
    rewrite (pjoin_component _ (job_name tfn tfv j)) by (apply name_component; assumption).
    rewrite (pjoin_component _ (j_config j) J2), (pjoin_component _ (j_site j) J1). change (pjoin p (proj_sub "results"%string)) with (p ++ ["results"%string]).
    rewrite <- !app_assoc. reflexivity.
  Qed.
  Lemma results_path p j : job_ok tfn tfv j -> get_results_path p (j_site j) (j_config j) = p ++ ["results"%string; j_site j; j_config j].
  Proof.
    intros (J1 & J2 & _). unfold get_results_path. rewrite (pjoin_component _ (j_config j) J2), (pjoin_component _ (j_site j) J1).
    change (pjoin p (proj_sub "results"%string)) with (p ++ ["results"%string]). rewrite <- !app_assoc. reflexivity.
  Qed.
  Lemma prefix_dir s (p q r : path) : kind_at s p = Some KDir -> p = q ++ r -> kind_at s q = Some KDir.
  Proof.
    intros K E. unfold kind_at in *. rewrite E, look_app in K. destruct (look s q) as [[c|es]|]; [|reflexivity|discriminate].
    destruct r as [|x r]; [exact K|discriminate].
  Qed.
  Lemma app_prefix (p q r e : path) : p ++ e = q ++ r -> (exists t, p = q ++ t) \/ (exists t, t <> [] /\ q = p ++ t /\ e = t ++ r).
  Proof.
    revert p. induction q as [|x q IH]; intros p H; [left; exists p; reflexivity|]. destruct p as [|y p].
    - right. exists (x :: q). split; [discriminate|]. split; [reflexivity|exact H].
    - cbn in H. injection H as -> H. destruct (IH p H) as [(t & ->)|(t & Nt & -> & ->)].
      + left. exists t. reflexivity.
      + right. exists t. split; [exact Nt|]. split; reflexivity.
  Qed.
  (** one run *)
  Lemma process_spec s p (j : job S) (compute : node -> res S) : results_tree s p -> job_ok tfn tfv j -> compute s = Ok (j_sol j) ->
    exists s1, result (process compute p (j_config j) (j_fs j) (j_site j) (j_postfix j)) s = Ok (j_sol j) /\
      final (process compute p (j_config j) (j_fs j) (j_site j) (j_postfix j)) s = s1 /\
      kind_at s1 (job_path p j) = Some (KFile (sser (j_sol j))) /\
      (forall q, q <> job_path p j -> kind_at s1 q = kind_at s q \/
         (kind_at s q = None /\ kind_at s1 q = Some KDir /\ exists t, t <> [] /\ q = p ++ t /\ (length t <= 3)%nat)).
  Proof.
    intros (R0 & R1 & R2 & R3 & R4) J Hc. unfold process_evals_to_tf, result, final. rewrite pbind_eq. cbn [pres fst snd]. rewrite Hc. cbn [fst snd].
    rewrite (results_path p j J). set (sp := p ++ ["results"%string; j_site j; j_config j]).
    rewrite pbind_eq. cbn [preads fst snd].
    assert (P : exists t0 s0, (if exists_ s sp then pret tt else mkdir_parents sp) s = (t0, (s0, Ok tt)) /\ kind_at s0 sp = Some KDir /\
      forall q, kind_at s0 q = kind_at s q \/ (kind_at s q = None /\ kind_at s0 q = Some KDir /\ exists t, t <> [] /\ q = p ++ t /\ (length t <= 3)%nat)).
    { rewrite exists_kind. destruct (kind_at s sp) as [[c|]|] eqn:K.
      - exfalso. exact (R3 _ _ _ K).
      - exists [], s. split; [reflexivity|]. split; [exact K|]. intros q. left. reflexivity.
      - unfold mkdir_parents. assert (Nsp : sp <> []) by (unfold sp; destruct p; discriminate).
        assert (Kroot : kind_at s [] = Some KDir) by (apply (prefix_dir s p [] p R0); reflexivity).
        destruct (mkdir_parents_spec sp [] s Nsp Kroot) as (I1 & I2 & I3 & I4 & _ & I5).
        { intros q (r & Er & Nr) c. cbn [app]. unfold sp in Er. destruct (app_prefix _ _ _ _ Er) as [(t & Et)|(t & Nt & -> & Et)].
          - rewrite (prefix_dir s p q t R0 Et). discriminate.
          - destruct t as [|a [|b [|c' [|d t]]]]; cbn in Et; [congruence| | | |discriminate].
            + injection Et as <- _. apply R1.
            + injection Et as <- <- _. apply R2.
            + injection Et as <- <- <- Et. subst r. destruct Nr. reflexivity. }
        { exact K. }
        destruct (mkdir_parents_from [] sp s) as [t0 [s0 r0]]. cbn [fst snd app] in *. exists t0, s0. rewrite I1. split; [reflexivity|]. split; [exact I2|].
        assert (Hin : In s0 t0).
        { rewrite I3. destruct t0 as [|x t0]; [congruence|]. clear. revert x. induction t0 as [|y t0 IH]; intros x; [left; reflexivity|]. right. apply IH. }
        intros q. destruct (I5 s0 Hin q) as [F|(F1 & F2 & a & b & F3 & F4 & F5)]; [left; exact F|right]. split; [exact F1|]. split; [exact F2|].
        cbn in F5. subst a. unfold sp in F3. destruct (app_prefix _ _ _ _ F3) as [(t & Et)|(t & Nt & Eq & Et)].
        + exfalso. rewrite (prefix_dir s p q t R0 Et) in F1. discriminate.
        + exists t. split; [exact Nt|]. split; [exact Eq|]. apply (f_equal (@length string)) in Et. rewrite app_length in Et. cbn in Et. lia. }
    destruct P as (t0 & s0 & E0 & K0 & G0). rewrite pbind_eq, E0. cbn [fst snd].
    change (get_solution_name (j_fs j) (tfn (j_sol j)) (tfv (j_sol j)) (j_postfix j)) with (job_name tfn tfv j).
    assert (EJ : pjoin sp (job_name tfn tfv j) = job_path p j) by (unfold sp; rewrite <- (results_path p j J); apply job_join; exact J).
    rewrite EJ. assert (RL : removelast (job_path p j) = sp).
    { unfold job_path, sp. change (["results"%string; j_site j; j_config j; job_name tfn tfv j]) with (["results"%string; j_site j; j_config j] ++ [job_name tfn tfv j]). rewrite app_assoc. apply removelast_last. }
    assert (NJ : job_path p j <> []) by (unfold job_path; destruct p; discriminate).
    assert (KJ : kind_at s0 (job_path p j) <> Some KDir).
    { destruct (G0 (job_path p j)) as [F|(_ & _ & t & _ & F & L)]; [rewrite F; apply R4|]. unfold job_path in F. apply app_inv_head in F. subst t. cbn in L. lia. }
    unfold write_json. rewrite pbind_eq, write_file_ok; [|exact NJ|rewrite RL; exact K0|exact KJ]. cbn [fst snd pret].
    eexists. split; [reflexivity|]. split; [reflexivity|].
    assert (KP : forall q, kind_at (put s0 (job_path p j) (File (sser (j_sol j)))) q = if path_dec q (job_path p j) then Some (KFile (sser (j_sol j))) else kind_at s0 q).
    { intros q. apply kind_put'; [exact NJ|rewrite RL; exact K0|right; eexists; reflexivity|exact KJ]. }
    split; [rewrite KP; destruct (path_dec (job_path p j) (job_path p j)); [reflexivity|congruence]|].
    intros q Nq. rewrite KP. destruct (path_dec q (job_path p j)); [congruence|]. exact (G0 q).
  Qed.
  Lemma process_keeps s p (j : job S) compute : results_tree s p -> job_ok tfn tfv j -> compute s = Ok (j_sol j) ->
    results_tree (final (process compute p (j_config j) (j_fs j) (j_site j) (j_postfix j)) s) p.
  Proof.
    intros R J Hc. destruct (process_spec s p j compute R J Hc) as (s1 & _ & -> & KJ & G). destruct R as (R0 & R1 & R2 & R3 & R4).
    assert (NE : forall t, length t <> 4%nat -> p ++ t <> job_path p j).
    { intros t L E. apply app_inv_head in E. subst t. apply L. reflexivity. }
    assert (NF : forall t, length t <> 4%nat -> forall c, kind_at s (p ++ t) <> Some (KFile c) -> kind_at s1 (p ++ t) <> Some (KFile c)).
    { intros t L c H. destruct (G (p ++ t) (NE t L)) as [F|(_ & F & _)]; rewrite F; [exact H|discriminate]. }
    split; [|split; [|split; [|split]]].
    - assert (p <> job_path p j) by (intros E; apply (f_equal (@length string)) in E; unfold job_path in E; rewrite app_length in E; cbn in E; lia).
      destruct (G p H) as [F|(_ & F & _)]; congruence.
    - intros c. apply NF; [cbn; lia|apply R1].
    - intros a c. apply NF; [cbn; lia|apply R2].
    - intros a b c. apply NF; [cbn; lia|apply R3].
    - intros a b n. destruct (path_dec (p ++ ["results"%string; a; b; n]) (job_path p j)) as [E|E]; [rewrite E, KJ; discriminate|].
      destruct (G _ E) as [F|(_ & _ & t & _ & F & L)]; [rewrite F; apply R4|]. apply app_inv_head in F. subst t. cbn in L. lia.
  Qed.
  Lemma find_read s p (j : job S) : job_ok tfn tfv j -> find p (j_site j) (j_config j) (j_fs j) (tfn (j_sol j)) (tfv (j_sol j)) (j_postfix j) s =
    match kind_at s (job_path p j) with Some (KFile text) => sparse text | Some KDir => Err OSError | None => Err FileNotFoundError end.
  Proof.
    intros J. unfold get_solution_file. change (get_solution_name (j_fs j) (tfn (j_sol j)) (tfv (j_sol j)) (j_postfix j)) with (job_name tfn tfv j).
    rewrite (job_join p j J), read_file_kind. destruct (kind_at s (job_path p j)) as [[c|]|]; reflexivity.
  Qed.
  (** a sequence of runs *)
  Notation history := (history inter sser tfn tfv).
  Lemma process_fails s p compute config fs site px (e : exn) : compute s = Err e -> final (process compute p config fs site px) s = s.
  Proof. intros H. unfold final, process_evals_to_tf. rewrite pbind_eq. cbn [pres fst snd]. rewrite H. reflexivity. Qed.
  Lemma history_other p s js s' : history p s js s' -> results_tree s p ->
    forall q c, kind_at s q = Some (KFile c) -> (forall j, In j js -> job_path p j <> q) -> kind_at s' q = Some (KFile c).
  Proof.
    intros H. induction H as [s|s j compute js s' J Hc H IH|s e config fs site px compute js s' Hc H IH]; intros R q c K N.
    - exact K.
    - apply IH.
      + apply process_keeps; [exact R|exact J|exact Hc].
      + destruct (process_spec s p j compute R J Hc) as (s1 & _ & -> & _ & G).
        destruct (G q ltac:(intros E; apply (N j (or_introl eq_refl)); congruence)) as [F|(F & _)]; congruence.
      + intros j' H'. apply N. right. exact H'.
    - rewrite (process_fails s p compute config fs site px e Hc) in IH. exact (IH R q c K N).
  Qed.
  Theorem c58_history p s before j after s' : history p s (before ++ j :: after) s' -> results_tree s p ->
    (forall j', In j' after -> ~ same_file tfn tfv j' j) -> sparse (sser (j_sol j)) = Ok (j_sol j) ->
    find p (j_site j) (j_config j) (j_fs j) (tfn (j_sol j)) (tfv (j_sol j)) (j_postfix j) s' = Ok (j_sol j).
  Proof.
    intros H R N Hs. remember (before ++ j :: after) as js eqn:Ejs. revert before Ejs R.
    induction H as [s|s j0 compute js s' J Hc H IH|s e config fs site px compute js s' Hc H IH]; intros before Ejs R.
    - destruct before; discriminate.
    - destruct before as [|b before]; cbn [app] in Ejs; injection Ejs as E1 E2.
      + subst j0 js. rewrite (find_read s' p j J).
        rewrite (history_other p _ _ _ H (process_keeps s p j compute R J Hc) (job_path p j) (sser (j_sol j))); [exact Hs| |].
        * destruct (process_spec s p j compute R J Hc) as (s1 & _ & -> & K & _). exact K.
        * intros j' K E. apply (N j' K). unfold job_path in E. apply app_inv_head in E. injection E as E1 E2 E3. split; [exact E1|]. split; [exact E2|exact E3].
      + apply (IH before E2). apply process_keeps; [exact R|exact J|exact Hc].
    - rewrite (process_fails s p compute config fs site px e Hc) in IH. exact (IH before Ejs R).
  Qed.
  (** the call returns the solution it stores *)
  Theorem c58_returns p s j compute : results_tree s p -> job_ok tfn tfv j -> compute s = Ok (j_sol j) ->
    result (process compute p (j_config j) (j_fs j) (j_site j) (j_postfix j)) s = Ok (j_sol j) /\
    results_tree (final (process compute p (j_config j) (j_fs j) (j_site j) (j_postfix j)) s) p.
  Proof.
    intros R J Hc. split; [|apply process_keeps; assumption]. destruct (process_spec s p j compute R J Hc) as (s1 & E & _). exact E.
  Qed.
End Fin.
  (** the results directory of a new project *)
  Theorem c58_created s p text s' : creatable s p -> created s p text s' -> kind_at s (p ++ ["results"]%string) = None -> results_tree s' p.
  Proof.
    intros C (C1 & C2 & C3 & C4) K.
    assert (None_below : forall t, kind_at s (p ++ "results"%string :: t) = None).
    { intros t. change ("results"%string :: t) with (["results"%string] ++ t). rewrite app_assoc. unfold kind_at in *. rewrite look_app.
      destruct (look s (p ++ ["results"%string])); [discriminate|reflexivity]. }
    assert (B : forall a t, kind_at s' (p ++ "results"%string :: a :: t) = None).
    { intros a t. rewrite C4; [apply None_below| | |].
      - unfold proj_file. intros E. apply app_inv_head in E. discriminate.
      - intros d _ E. unfold sub_dir in E. apply app_inv_head in E. discriminate.
      - intros r E. apply (f_equal (@length string)) in E. rewrite !app_length in E. cbn in E. lia. }
    split; [apply (C3 p []); rewrite app_nil_r; reflexivity|]. split; [|split; [|split]].
    - intros c. change (p ++ ["results"%string]) with (sub_dir p "results"%string). rewrite (C2 "results"%string); [discriminate|]. cbn. tauto.
    - intros a c. rewrite B. discriminate.
    - intros a b c. rewrite B. discriminate.
    - intros a b n. rewrite B. discriminate.
  Qed.
