(** C96: loading a project while derived data are written. *)
From Coq Require Import String Ascii NArith.
From Verif Require Import Spec.Project.
From Verif Require Import Base.Prelude Base.PyString Base.FileSys Base.ListUtil Model.Project Model.Letsgo Model.Persist Model.Parallel Spec.Persist Spec.Parallel Spec.Unaffected
  Proofs.FileSys Proofs.PersistFs Proofs.ProjectNames Proofs.Parallel.
Open Scope list_scope.

Section Keep.
  Variables (p : path) (keep : string -> Prop).
  Definition kept (s s' : node) : Prop := kind_at s' p = Some KDir /\ forall y q, keep y -> look s' (p ++ y :: q) = look s (p ++ y :: q).
  Lemma kept_refl s : kind_at s p = Some KDir -> kept s s. Proof. split; auto. Qed.
  Lemma kept_trans s1 s2 s3 : kept s1 s2 -> kept s2 s3 -> kept s1 s3.
  Proof. intros [A1 A2] [B1 B2]. split; [exact B1|]. intros y q K. rewrite (B2 y q K). exact (A2 y q K). Qed.
  Lemma put_dir s x e v : kind_at s p = Some KDir -> kind_at (put s (p ++ x :: e) v) p = Some KDir.
  Proof.
    unfold kind_at. revert s. clear keep. induction p as [|z l IH]; intros s H; cbn [app put look].
    - cbn [look] in H. destruct s as [c|es]; [discriminate|]. destruct (assoc x es); [reflexivity|]. destruct e; reflexivity.
    - cbn [look] in H. destruct s as [c|es]; [discriminate|]. destruct (assoc z es) as [m|] eqn:E; [|discriminate]. cbn [look]. rewrite assoc_set_same. exact (IH m H).
  Qed.
  Lemma put_kept s x e v : ~ keep x -> kind_at s p = Some KDir -> kept s (put s (p ++ x :: e) v).
  Proof. intros N K. split; [apply put_dir, K|]. intros y q Hy. apply look_put_beside. intros ->. exact (N Hy). Qed.

  (** processes that never touch what is to be kept *)
  Inductive conf : io -> Prop :=
  | conf_ret r : conf (Ret r)
  | conf_act f : (forall s, kind_at s p = Some KDir -> kept s (fst (f s)) /\ conf (snd (f s))) -> conf (Act f).
  Lemma pool_conf sched : forall pool s, kind_at s p = Some KDir -> (forall t, In t pool -> conf t) ->
    let '(pool', s') := run_schedule sched pool s in kept s s'.
  Proof.
    induction sched as [|i rest IH]; intros pool s K H; cbn [run_schedule]; [apply kept_refl, K|].
    destruct (nth_error pool i) as [[r|f]|] eqn:E; try (apply IH; assumption).
    pose proof (H _ (nth_error_In _ _ E)) as C. inversion C as [|f0 C0]; subst f0. destruct (C0 s K) as [C1 C2]. destruct (f s) as [s1 t1]. cbn [fst snd] in *.
    assert (H' : forall t, In t (set_proc i t1 pool) -> conf t).
    { intros t Ht. apply In_nth_error in Ht. destruct Ht as [j Hj]. assert (Li : (i < List.length pool)%nat) by (apply nth_error_Some; congruence).
      destruct (Nat.eq_dec i j) as [->|N].
      - rewrite nth_set_proc_same in Hj by exact Li. congruence.
      - rewrite nth_set_proc_other in Hj by exact N. exact (H t (nth_error_In _ _ Hj)). }
    pose proof (IH (set_proc i t1 pool) s1 (proj1 C1) H') as X. destruct (run_schedule rest (set_proc i t1 pool) s1) as [pool' s']. exact (kept_trans _ _ _ C1 X).
  Qed.

  Variables (x : string) (e : path).
  Hypothesis Nx : ~ keep x.
  Let d := p ++ x :: e.
  Lemma mkdir_kept s q r s' : d = q ++ r -> kind_at s p = Some KDir -> os_mkdir s q = Ok s' -> kept s s'.
  Proof.
    intros E K H. unfold os_mkdir in H. destruct (exists_ s q) eqn:X; [discriminate|]. destruct (look s (removelast q)) as [[c|es]|]; try discriminate. injection H as <-.
    rewrite exists_kind in X. assert (KN : kind_at s q = None) by (destruct (kind_at s q); [discriminate|reflexivity]).
    unfold d in E. symmetry in E. apply app_eq_app in E. destruct E as (l & [[E1 E2]|[E1 E2]]).
    - destruct l as [|z l].
      + rewrite app_nil_r in E1. subst q. congruence.
      + cbn in E2. injection E2 as <- _. rewrite E1. apply put_kept; assumption.
    - exfalso. destruct l as [|z l]; [rewrite app_nil_r in E1; subst q; congruence|]. rewrite E1 in K. apply kind_prefix_dir in K; [congruence|discriminate].
  Qed.
  Lemma conf_exists q eo er k : (forall r, conf (k r)) -> conf (mkdir_exists q eo er k).
  Proof. intros K. unfold mkdir_exists. destruct eo; [|apply K]. apply conf_act. intros s H. cbn [fst snd]. split; [apply kept_refl, H|apply K]. Qed.
  Lemma conf_one q r eo k : d = q ++ r -> (forall r, conf (k r)) -> conf (mkdir_one q eo k).
  Proof.
    intros E K. unfold mkdir_one. apply conf_act. intros s H. destruct (os_mkdir s q) as [s'|er] eqn:M; cbn [fst snd].
    - split; [exact (mkdir_kept s q r s' E H M)|apply K].
    - pose proof (conf_exists q eo er k K) as X. destruct er; cbn [fst snd]; (split; [apply kept_refl, H|]); try exact X; apply K.
  Qed.
  Lemma conf_all rp : forall r eo k, d = rev rp ++ r -> (forall r, conf (k r)) -> conf (mkdir_all rp eo k).
  Proof.
    induction rp as [|z rp IH]; intros r eo k E K; cbn [mkdir_all]; apply conf_act; intros s H.
    - destruct (os_mkdir s (rev [])) as [s'|er] eqn:M; cbn [fst snd].
      + split; [exact (mkdir_kept s (rev []) r s' E H M)|apply K].
      + pose proof (conf_exists (rev []) eo er k K) as X. destruct er; cbn [fst snd]; (split; [apply kept_refl, H|]); try exact X; apply K.
    - destruct (os_mkdir s (rev (z :: rp))) as [s'|er] eqn:M; cbn [fst snd].
      + split; [exact (mkdir_kept s (rev (z :: rp)) r s' E H M)|apply K].
      + pose proof (conf_exists (rev (z :: rp)) eo er k K) as X. destruct er; cbn [fst snd]; (split; [apply kept_refl, H|]); try exact X.
        apply (IH ([z] ++ r)); [rewrite E; cbn [rev]; rewrite <- app_assoc; reflexivity|]. intros [u|er]; [|apply K]. apply (conf_one _ r); [exact E|exact K].
  Qed.
  Lemma conf_contents f cs k : conf k -> conf (put_contents (d ++ [f]) cs k).
  Proof.
    intros K. induction cs as [|c cs IH]; cbn [put_contents]; [exact K|]. apply conf_act. intros s H. cbn [fst snd]. split; [|exact IH].
    unfold d. rewrite <- app_assoc. cbn [app]. apply put_kept; assumption.
  Qed.
  Lemma conf_file f inter c k : (forall r, conf (k r)) -> conf (par_write_file (d ++ [f]) inter c k).
  Proof.
    intros K. unfold par_write_file. apply conf_act. intros s H.
    assert (F : forall er, kept s (fst (s, k (Err er))) /\ conf (snd (s, k (Err er)))) by (intros er; split; [apply kept_refl, H|apply K]).
    assert (G : kept s (put s (d ++ [f]) (File ""%string)) /\ conf (put_contents (d ++ [f]) (inter ++ [c]) (k (Ok tt)))).
    { split; [unfold d; rewrite <- app_assoc; cbn [app]; apply put_kept; assumption|apply conf_contents, K]. }
    destruct (look s (d ++ [f])) as [[c0|es]|]; [|apply F|]; (destruct (look s (removelast (d ++ [f]))) as [[c1|es1]|]; [apply F|exact G|apply F]).
  Qed.
  Lemma conf_files fl k : (forall r, conf (k r)) -> conf (par_write_files d fl k).
  Proof.
    intros K. induction fl as [|[f [inter c]] fl IH]; cbn [par_write_files]; [apply K|]. apply conf_file. intros [u|er]; [exact IH|apply K].
  Qed.
  Lemma conf_levels {B A} (mser : pmeta B -> string) (zser : list (string * A) -> string) inter who now ov m data : conf (par_write_levels mser zser inter who now ov d m data).
  Proof.
    unfold par_write_levels. cbv zeta. unfold par_check_dir.
    assert (K : forall r : res bool, conf (match r with Ok true => par_write_files d [(NPZ_FILE, (inter (zser (str_keys data [])), zser (str_keys data [])));
      (META_FILE, (inter (mser (mkPMeta (pm_body m) (pm_hist m ++ [who]) (Some now))), mser (mkPMeta (pm_body m) (pm_hist m ++ [who]) (Some now))))] Ret | Ok false => Ret (Err WriteError) | Err e0 => Ret (Err e0) end)).
    { intros [[|]|er]; [apply conf_files; intros r|..]; apply conf_ret. }
    apply conf_act. intros s H. cbn [fst snd]. split; [apply kept_refl, H|]. destruct (exists_ s d && negb ov); [apply conf_ret|].
    apply conf_act. intros s1 H1. cbn [fst snd]. split; [apply kept_refl, H1|]. apply conf_act. intros s2 H2. cbn [fst snd]. split; [apply kept_refl, H2|].
    destruct (exists_ s2 d); [exact (K (Ok true))|]. apply (conf_all _ []); [rewrite rev_involutive, app_nil_r; reflexivity|]. intros [u|er]; [exact (K (Ok true))|exact (K (Err er))].
  Qed.
  Lemma conf_save name inter c : conf (par_save_solution d name inter c).
  Proof.
    unfold par_save_solution. cbv zeta. assert (K : conf (par_write_files d [(name, (inter, c))] Ret)) by (apply conf_files; intros r; apply conf_ret).
    apply conf_act. intros s H. cbn [fst snd]. split; [apply kept_refl, H|]. destruct (exists_ s d); [exact K|].
    apply (conf_all _ []); [rewrite rev_involutive, app_nil_r; reflexivity|]. intros [u|er]; [exact K|apply conf_ret].
  Qed.
End Keep.

(** ** loading *)
Lemma filter_ext_in' {A} (f g : A -> bool) l : (forall a, In a l -> f a = g a) -> filter f l = filter g l.
Proof. induction l as [|a l IH]; intros H; [reflexivity|]. cbn. rewrite (H a (or_introl eq_refl)), IH; [reflexivity|]. intros b Hb. apply H. right. exact Hb. Qed.
Lemma dir_subdirs_same s s' q : (forall r, look s' (q ++ r) = look s (q ++ r)) -> dir_subdirs s' q = dir_subdirs s q.
Proof.
  intros H. unfold dir_subdirs, dir_contents, exists_, is_dir_, iterdir. pose proof (H []) as H0. rewrite app_nil_r in H0. rewrite H0.
  destruct (look s q) as [[c|es]|]; cbn [negb]; [reflexivity| |reflexivity]. cbn [bind fst]. f_equal. apply filter_ext_in'. intros a Ha. apply in_map_iff in Ha. destruct Ha as (z & <- & _).
  unfold is_file_. rewrite (H [z]). reflexivity.
Qed.
Lemma subdirs_below s q l : dir_subdirs s q = Ok l -> forall a, In a l -> exists z, a = q ++ [z].
Proof.
  unfold dir_subdirs, dir_contents. destruct (negb (exists_ s q)); [discriminate|]. destruct (negb (is_dir_ s q)); [discriminate|]. cbn [bind fst]. intros H. injection H as <-.
  intros a Ha. apply filter_In in Ha. destruct Ha as [Ha _]. apply in_map_iff in Ha. destruct Ha as (z & <- & _). exists z. reflexivity.
Qed.
Section Load.
  Context {M D : Type}.
  Variables (pparse : string -> res M) (now : path -> Q * Q) (readers : list (reader D)).
  Hypothesis Inside : forall r, In r readers -> looks_inside r.
  Lemma load_meas_same s s' site q : look s' q = look s q -> forall rs, (forall r, In r rs -> In r readers) -> load_measurement s' rs site q = load_measurement s rs site q.
  Proof.
    intros E. induction rs as [|r rs IH]; intros H; [reflexivity|]. cbn [load_measurement]. rewrite (proj1 (Inside r (H r (or_introl eq_refl)) s' s q E)).
    destruct (rd_md r s q); [reflexivity|]. apply IH. intros r0 Hr. apply H. right. exact Hr.
  Qed.
  Lemma load_meas_all_same s s' site dirs : (forall q, In q dirs -> look s' q = look s q) -> forall acc,
    load_meas_all s' readers site dirs acc = load_meas_all s readers site dirs acc.
  Proof.
    induction dirs as [|q dirs IH]; intros H acc; [reflexivity|]. cbn [load_meas_all]. rewrite (load_meas_same s s' site q (H q (or_introl eq_refl)) readers (fun _ h => h)).
    apply IH. intros q0 H0. apply H. right. exact H0.
  Qed.
  Lemma load_site_same s s' q : (forall r, look s' (q ++ r) = look s (q ++ r)) -> load_site now s' readers q = load_site now s readers q.
  Proof.
    intros H. unfold load_site. rewrite (dir_subdirs_same s s' q H). destruct (dir_subdirs s q) as [l|e] eqn:E; [|reflexivity]. cbn [bind].
    rewrite (load_meas_all_same s s' _ l); [reflexivity|]. intros a Ha. destruct (subdirs_below s q l E a Ha) as [z ->]. apply H.
  Qed.
  Lemma load_sites_same s s' dirs : (forall q, In q dirs -> forall r, look s' (q ++ r) = look s (q ++ r)) -> forall acc,
    load_sites now s' readers dirs acc = load_sites now s readers dirs acc.
  Proof.
    induction dirs as [|q dirs IH]; intros H acc; [reflexivity|]. cbn [load_sites]. rewrite (load_site_same s s' q (H q (or_introl eq_refl))).
    destruct (load_site now s readers q); [|reflexivity]. cbn [bind]. apply IH. intros q0 H0. apply H. right. exact H0.
  Qed.
  Definition essential (y : string) : Prop := y = "time"%string \/ y = "resistics.json"%string.
  Lemma load_same s s' p : kind_at s p = Some KDir -> kept p essential s s' -> load pparse now readers p s' = load pparse now readers p s.
  Proof.
    intros K0 [K H]. unfold load.
    assert (P1 : pjoin p PROJ_FILE = p ++ ["resistics.json"]%string) by reflexivity. assert (P2 : pjoin p (proj_sub "time") = p ++ ["time"]%string) by reflexivity.
    assert (A : assert_dir s' p = assert_dir s p).
    { unfold assert_dir. rewrite !exists_kind, !is_dir_kind, K, K0. reflexivity. }
    rewrite A. destruct (assert_dir s p); [|reflexivity]. cbn [bind]. rewrite P1.
    assert (F : look s' (p ++ ["resistics.json"]%string) = look s (p ++ ["resistics.json"]%string)) by (apply H; right; reflexivity).
    assert (T : forall r, look s' ((p ++ ["time"]%string) ++ r) = look s ((p ++ ["time"]%string) ++ r)) by (intros r; rewrite <- !app_assoc; apply H; left; reflexivity).
    unfold exists_. rewrite F. match goal with |- (if ?b then _ else _) = _ => destruct b end; [reflexivity|]. unfold check_subdirs, PROJ_DIRS.
    change (pjoin p "time") with (p ++ ["time"]%string). unfold assert_dir, exists_, is_dir_. pose proof (T []) as T0. rewrite app_nil_r in T0. rewrite T0.
    match goal with |- bind ?a _ = _ => destruct a end; [|reflexivity]. cbn [bind]. unfold read_file. rewrite F. match goal with |- bind ?a _ = _ => destruct a as [text|] end; [|reflexivity]. cbn [bind].
    destruct (pparse text) as [m|]; [|reflexivity]. cbn [bind]. rewrite P2, (dir_subdirs_same s s' _ T). destruct (dir_subdirs s (p ++ ["time"]%string)) as [dirs|] eqn:E; [|reflexivity]. cbn [bind].
    rewrite (load_sites_same s s' dirs); [reflexivity|]. intros q Hq r. destruct (subdirs_below _ _ _ E q Hq) as [z ->]. rewrite <- app_assoc. apply T.
  Qed.
End Load.

Lemma c96 {M D B A} (pparse : string -> res M) now (readers : list (reader D)) (mser : pmeta B -> string) (zser : list (string * A) -> string) inter p s
  (wjobs : list (wjob B A)) (sjobs : list sjob) sched pool s' :
  kind_at s p = Some KDir -> (forall r, In r readers -> looks_inside r) ->
  (forall b, In b wjobs -> derived_data p (w_dir b)) -> (forall b, In b sjobs -> derived_data p (s_dir b)) ->
  run_schedule sched (map (fun b => par_write_levels mser zser inter (w_who b) (w_now b) (w_ov b) (w_dir b) (w_meta b) (w_data b)) wjobs ++
                      map (fun b => par_save_solution (s_dir b) (s_name b) (s_inter b) (s_text b)) sjobs) s = (pool, s') ->
  load pparse now readers p s' = load pparse now readers p s /\
  forall r site meas, In r readers -> rd_run r s' (p ++ ["time"%string; site; meas]) = rd_run r s (p ++ ["time"%string; site; meas]).
Proof.
  intros K In_ W S E. set (keep := essential).
  pose proof (pool_conf p keep sched (map (fun b => par_write_levels mser zser inter (w_who b) (w_now b) (w_ov b) (w_dir b) (w_meta b) (w_data b)) wjobs ++
                      map (fun b => par_save_solution (s_dir b) (s_name b) (s_inter b) (s_text b)) sjobs) s K) as P.
  assert (X : kept p keep s s').
  { rewrite E in P. apply P. intros t Ht. apply in_app_or in Ht. destruct Ht as [Ht|Ht]; apply in_map_iff in Ht; destruct Ht as (b & <- & Hb).
    - destruct (W b Hb) as (x & e & -> & N1 & N2). apply conf_levels. intros [H|H]; contradiction.
    - destruct (S b Hb) as (x & e & -> & N1 & N2). apply conf_save. intros [H|H]; contradiction. }
  split; [exact (load_same pparse now readers In_ s s' p K X)|]. intros r site meas Hr. apply (In_ r Hr). apply (proj2 X "time"%string [site; meas]). left. reflexivity.
Qed.
Lemma c96_paths p site meas config : component site -> component meas -> component config ->
  derived_data p (get_meas_spectra_path p site meas config) /\ derived_data p (get_meas_evals_path p site meas config) /\ derived_data p (get_results_path p site config).
Proof.
  intros A1 A2 A3. unfold get_meas_spectra_path, get_meas_evals_path, get_results_path. rewrite !(pjoin_component _ _ A1), !(pjoin_component _ _ A2), !(pjoin_component _ _ A3).
  split; [|split].
  - exists "spectra"%string, [site; config; meas]. split; [change (pjoin p (proj_sub "spectra")) with (p ++ ["spectra"]%string); rewrite <- !app_assoc; reflexivity|split; discriminate].
  - exists "evals"%string, [site; config; meas]. split; [change (pjoin p (proj_sub "evals")) with (p ++ ["evals"]%string); rewrite <- !app_assoc; reflexivity|split; discriminate].
  - exists "results"%string, [site; config]. split; [change (pjoin p (proj_sub "results")) with (p ++ ["results"]%string); rewrite <- !app_assoc; reflexivity|split; discriminate].
Qed.
