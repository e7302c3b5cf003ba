(** C94: interrupted runs can be repeated. *)
From Coq Require Import String Ascii.
From Verif Require Import Spec.Project.
From Verif Require Import Base.Prelude Base.Rounding Base.FileSys Model.Sampling Model.Time Model.Persist Spec.Sampling Spec.Time Spec.Persist Spec.Restart.
From Verif Require Import Proofs.FileSys Proofs.PersistFs Proofs.Persist Proofs.PersistTime.
Open Scope list_scope.

Section Touched.
  Variables (d : path) (files : list string).
  Definition touched (s s' : node) : Prop := forall q, kind_at s' q = kind_at s q \/
    (exists f c, In f files /\ q = d ++ [f] /\ kind_at s' q = Some (KFile c)) \/
    (kind_at s q = None /\ kind_at s' q = Some KDir /\ exists r, d = q ++ r).
  Lemma touched_refl s : touched s s.
  Proof. intros q. left. reflexivity. Qed.
  Lemma touched_trans s s1 s2 : touched s s1 -> touched s1 s2 -> touched s s2.
  Proof.
    intros A B q. destruct (B q) as [E|[(f & c & F & Q & K)|(N & K & r & R)]].
    - rewrite E. apply A.
    - right. left. exists f, c. auto.
    - destruct (A q) as [E|[(f & c & F & Q & K1)|(N1 & K1 & _)]]; [|congruence|congruence].
      right. right. split; [congruence|]. split; [exact K|]. exists r. exact R.
  Qed.
  Lemma touched_writable s s' : writable s d files -> touched s s' -> writable s' d files.
  Proof.
    intros (W1 & W2 & W3 & W4) T. split; [exact W1|]. split; [|split].
    - destruct (T []) as [E|[(f & c & F & Q & K)|(N & K & _)]]; [congruence| |congruence]. destruct d; discriminate.
    - intros q r c E K. destruct (T q) as [E1|[(f & c1 & F & Q & K1)|(N & K1 & _)]]; [|subst q; exact (no_prefix_below d f r E)|congruence].
      apply (W3 q r c E). congruence.
    - intros f F K. destruct (T (d ++ [f])) as [E|[(f1 & c & F1 & Q & K1)|(N & K1 & r & R)]]; [|congruence|exact (no_prefix_below d f r R)].
      apply (W4 f F). congruence.
  Qed.
  Lemma touched_elsewhere s s' : touched s s' -> elsewhere_same d files s s'.
  Proof.
    intros T q Hf Hr. destruct (T q) as [E|[(f & c & F & Q & _)|(_ & _ & r & R)]]; [exact E|exfalso; exact (Hf f F Q)|exfalso; exact (Hr r R)].
  Qed.
  Lemma stored_from s s' s'' fl : touched s s' -> map fst fl = files -> stored s' d fl s'' -> stored s d fl s''.
  Proof.
    intros T E (A & B & C). split; [exact A|]. split; [exact B|]. intros q Hf Hr. rewrite (C q Hf Hr). apply (touched_elsewhere _ _ T); [|exact Hr].
    intros f F. rewrite <- E in F. apply in_map_iff in F. destruct F as ([f1 c] & <- & F). exact (Hf f1 c F).
  Qed.
  (** programs that touch nothing else, wherever they stop *)
  Definition keeps {A} (p : prog A) : Prop := forall s, writable s d files -> forall s', s' = final p s \/ In s' (crash_states p s) -> touched s s'.
  Lemma keeps_still {A} (p : prog A) : (forall s, exists r, p s = ([], (s, r))) -> keeps p.
  Proof. intros H s _ s' I. destruct (H s) as [r E]. unfold final, crash_states in I. rewrite E in I. cbn in I. destruct I as [->|[<-|[]]]; apply touched_refl. Qed.
  Lemma keeps_bind {A B} (p : prog A) (f : A -> prog B) : keeps p -> (forall a, keeps (f a)) -> keeps (pbind p f).
  Proof.
    intros P F s W s' I. pose proof (P s W (final p s) (or_introl eq_refl)) as T1. pose proof (touched_writable _ _ W T1) as W1.
    unfold final, crash_states in I. rewrite pbind_eq in I. change (fst (snd (p s))) with (final p s) in I. destruct (snd (snd (p s))) as [a|e]; cbn [fst snd] in I.
    - assert (J : s' = final (f a) (final p s) \/ In s' (crash_states p s) \/ In s' (crash_states (f a) (final p s))).
      { destruct I as [I|[I|I]]; [left; exact I|right; left; left; exact I|]. apply in_app_or in I. destruct I as [I|I]; [right; left; right; exact I|right; right; right; exact I]. }
      destruct J as [J|[J|J]].
      + exact (touched_trans _ _ _ T1 (F a _ W1 s' (or_introl J))).
      + exact (P s W s' (or_intror J)).
      + exact (touched_trans _ _ _ T1 (F a _ W1 s' (or_intror J))).
    - apply (P s W s'). exact I.
  Qed.
  Lemma keeps_ext {A} (p p' : prog A) : (forall s, p s = p' s) -> keeps p' -> keeps p.
  Proof. intros E K s W s' I. apply (K s W s'). unfold final, crash_states in *. rewrite E in I. exact I. Qed.
  Lemma psteps_trace l : forall s, psteps l s = (l, (last l s, Ok tt)).
  Proof.
    induction l as [|x l IH]; intros s; [reflexivity|]. cbn [psteps]. rewrite pbind_eq. cbn [pstep fst snd]. rewrite IH. cbn [fst snd app].
    destruct l as [|y l]; [reflexivity|]. f_equal. f_equal. cbn [last]. clear. revert y. induction l as [|z l IH]; intros y; [reflexivity|]. exact (IH z).
  Qed.
  Lemma keeps_write_file f i c : In f files -> keeps (write_file (d ++ [f]) i c).
  Proof.
    intros F s W s' I. unfold final, crash_states, write_file in I.
    assert (Stay : s' = s \/ s = s' \/ False -> touched s s') by (intros [->|[<-|[]]]; apply touched_refl).
    destruct (look s (d ++ [f])) as [[c0|es]|] eqn:L1.
    2: exact (Stay I).
    all: destruct (look s (removelast (d ++ [f]))) as [[c1|es1]|] eqn:L2; [exact (Stay I)| |exact (Stay I)].
    all: rewrite psteps_trace in I; cbn [fst snd] in I.
    all: assert (P : forall c', touched s (put s (d ++ [f]) (File c'))).
    1,3: intros c' q; rewrite (kind_put' s (d ++ [f]) (File c') q); [|destruct d; discriminate|unfold kind_at; rewrite L2; reflexivity|right; eexists; reflexivity|unfold kind_at; rewrite L1; discriminate];
      destruct (path_dec q (d ++ [f])) as [->|_]; [right; left; exists f, c'; repeat split; assumption|left; reflexivity].
    all: assert (J : s' = s \/ In s' (map (fun c => put s (d ++ [f]) (File c)) (""%string :: i ++ [c]))).
    1,3: destruct I as [I|[I|I]]; [|left; symmetry; exact I|right; exact I]; right; rewrite I;
      rewrite app_comm_cons, map_app; cbn [map]; rewrite last_last; apply in_or_app; right; left; reflexivity.
    all: destruct J as [->|J]; [apply touched_refl|]; apply in_map_iff in J; destruct J as (c' & <- & _); apply P.
  Qed.
  Lemma keeps_mkdir s : writable s d files -> kind_at s d = None -> forall s', s' = final (mkdir_parents d) s \/ In s' (crash_states (mkdir_parents d) s) -> touched s s'.
  Proof.
    intros (W1 & W2 & W3 & W4) K s' I. assert (P : forall q, (exists r, d = q ++ r /\ r <> []) -> forall c, kind_at s ([] ++ q) <> Some (KFile c)).
    { intros q (r & E & _) c. exact (W3 q r c E). }
    destruct (mkdir_parents_spec d [] s W1 W2 P K) as (I1 & I2 & I3 & I4 & I5 & I6). unfold final, crash_states, mkdir_parents in I.
    assert (J : s' = s \/ In s' (fst (mkdir_parents_from [] d s))).
    { destruct I as [I|[I|I]]; [|left; symmetry; exact I|right; exact I]. right. rewrite I, I3. destruct (exists_last I4) as (l & x & ->). rewrite last_last. apply in_or_app. right. left. reflexivity. }
    destruct J as [->|J]; [apply touched_refl|]. intros q. destruct (I6 s' J q) as [E|(N & K1 & a & b & E & _ & Eq)]; [left; exact E|]. right. right.
    split; [exact N|]. split; [exact K1|]. exists b. cbn in Eq. rewrite Eq. exact E.
  Qed.
  (** "if not exists: mkdir(parents=True)" *)
  Lemma keeps_make {A} (e : bool -> bool) (k : prog A) : (forall b, e b = true -> b = true) -> keeps k ->
    keeps (x <~ preads (fun s => exists_ s d) ;; _ <~ (if e x then pret tt else if x then pret tt else mkdir_parents d) ;; k).
  Proof.
    intros He K s W s' I. unfold final, crash_states in I. rewrite pbind_eq in I. cbn [preads fst snd app] in I. rewrite exists_kind in I.
    assert (Q : keeps (_ <~ pret tt ;; k)) by (apply keeps_bind; [apply keeps_still; intros t; eexists; reflexivity|intros _; exact K]).
    destruct (kind_at s d) as [kk|] eqn:E.
    - destruct (e true); exact (Q s W s' I).
    - destruct (e false) eqn:Ef; [apply He in Ef; discriminate|]. rewrite pbind_eq in I. change (fst (snd (mkdir_parents d s))) with (final (mkdir_parents d) s) in I.
      pose proof (keeps_mkdir s W E) as M. pose proof (M _ (or_introl eq_refl)) as T1. pose proof (touched_writable _ _ W T1) as W1.
      destruct (snd (snd (mkdir_parents d s))); cbn [fst snd] in I.
      + assert (J : s' = final k (final (mkdir_parents d) s) \/ In s' (crash_states (mkdir_parents d) s) \/ In s' (crash_states k (final (mkdir_parents d) s))).
        { destruct I as [I|[I|I]]; [left; exact I|right; left; left; exact I|]. apply in_app_or in I. destruct I as [I|I]; [right; left; right; exact I|right; right; right; exact I]. }
        destruct J as [J|[J|J]]; [exact (touched_trans _ _ _ T1 (K _ W1 s' (or_introl J)))|exact (M s' (or_intror J))|exact (touched_trans _ _ _ T1 (K _ W1 s' (or_intror J)))].
      + apply M. exact I.
  Qed.
  Lemma keeps_check_dir ov : keeps (check_dir ov d).
  Proof.
    intros s W s' I. unfold final, crash_states, check_dir in I. rewrite pbind_eq in I. cbn [preads fst snd app] in I. rewrite exists_kind in I.
    destruct (kind_at s d) as [kk|] eqn:E.
    - cbn [andb] in I. assert (Stay : s' = s \/ s = s' \/ False -> touched s s') by (intros [->|[<-|[]]]; apply touched_refl). destruct (negb ov); exact (Stay I).
    - cbn [andb] in I. rewrite pbind_eq in I. pose proof (keeps_mkdir s W E) as M. change (fst (snd (mkdir_parents d s))) with (final (mkdir_parents d) s) in I.
      destruct (snd (snd (mkdir_parents d s))); cbn [fst snd pret] in I; [rewrite app_nil_r in I|]; apply M; exact I.
  Qed.
  Lemma attempts_touched {A} (cmd : prog A -> Prop) s s' : (forall p, cmd p -> keeps p) -> writable s d files -> attempts cmd s s' -> touched s s' /\ writable s' d files.
  Proof.
    intros K W H. induction H as [|p s1 s2 H IH C I]; [split; [apply touched_refl|exact W]|]. destruct IH as [T W1].
    pose proof (K p C s1 W1 s2 (or_intror I)) as T2. split; [exact (touched_trans _ _ _ T T2)|]. exact (touched_writable _ _ W1 T2).
  Qed.
End Touched.

Lemma keeps_two_files d files ov (p1 : prog unit) (p2 : prog unit) e : keeps d files p1 -> keeps d files p2 ->
  keeps d files (ok <~ check_dir ov d ;; if negb (ok : bool) then pfail e else _ <~ p1 ;; p2).
Proof.
  intros K1 K2. apply keeps_bind; [apply keeps_check_dir|]. intros [|]; cbn [negb].
  - apply keeps_bind; [exact K1|intros _; exact K2].
  - apply keeps_still. intros s. eexists. reflexivity.
Qed.

Section LevelsRestart.
  Context {B A : Type}.
  Variables (mser : pmeta B -> string) (mparse : string -> res (pmeta B)) (zser : list (string * A) -> string) (zparse : string -> res (list (string * A))) (inter : string -> list string).
  Lemma levels_keeps who now ov d m data : keeps d ["data.npz"; "metadata.json"]%string (write_levels mser zser inter who now ov d m data).
  Proof. unfold write_levels. apply keeps_two_files; apply keeps_write_file; [left; reflexivity|right; left; reflexivity]. Qed.
  Lemma c94_levels who who' now s s' d m (data : list (Z * A)) :
    writable s d ["data.npz"; "metadata.json"]%string -> levels_distinct data ->
    mparse (mser (written who now m)) = Ok (written who now m) -> zparse (zser (archive data)) = Ok (archive data) ->
    attempts (fun p => exists who0 now0 ov0 m0 data0, p = write_levels mser zser inter who0 now0 ov0 d m0 data0) s s' ->
    elsewhere_same d ["data.npz"; "metadata.json"]%string s s' /\
    let s'' := final (write_levels mser zser inter who now true d m data) s' in
    result (write_levels mser zser inter who now true d m data) s' = Ok tt /\
    read_levels mparse zparse who' d s'' = Ok (mkPMeta (pm_body m) (pm_hist m ++ [who; who']) (Some now), data) /\
    stored s d [("data.npz"%string, zser (archive data)); ("metadata.json"%string, mser (written who now m))] s''.
  Proof.
    intros W Hd Hm Hz H. pose proof (fun K => attempts_touched d ["data.npz"; "metadata.json"]%string _ s s' K W H) as X. destruct X as [T W'].
    { intros p (w & n & o & m0 & d0 & ->). apply levels_keeps. }
    split; [exact (touched_elsewhere _ _ _ _ T)|]. cbv zeta.
    destruct (c65_round_trip mser mparse zser zparse inter who who' now true s' d m data W' (or_introl eq_refl) Hd Hm) as (H1 & H2 & _ & H4).
    { rewrite (str_keys_archive data Hd). exact Hz. }
    split; [exact H1|]. split; [exact H2|]. unfold contents in H4. rewrite (str_keys_archive data Hd) in H4.
    eapply stored_from; [exact T| |exact H4]. reflexivity.
  Qed.
End LevelsRestart.

Section TimeRestart.
  Variables (rnd : Q -> Q) (tser : tmeta -> string) (tparse : string -> res tmeta) (nser : string * list (list cell) -> string) (nparse : string -> res (string * list (list cell))) (inter : string -> list string).
  Lemma numpy_keeps ov d td : keeps d ["data.npy"; "metadata.json"]%string (write_numpy tser nser inter ov d td).
  Proof.
    unfold write_numpy. apply keeps_bind; [apply keeps_check_dir|]. intros [|]; cbn [negb]; [|apply keeps_still; intros s; eexists; reflexivity].
    apply keeps_bind; [|intros _].
    - apply (keeps_write_file d ["data.npy"; "metadata.json"]%string "data.npy"%string). left. reflexivity.
    - apply keeps_bind; [apply keeps_still; intros s; eexists; reflexivity|]. intros m. apply keeps_write_file. right. left. reflexivity.
  Qed.
  Lemma c94_time s s' d td : consistent rnd td -> chans_described (meta td) -> (2 <= n_samples (meta td))%Z ->
    writable s d ["data.npy"; "metadata.json"]%string ->
    tparse (tser (as_written numpy_name (meta td))) = Ok (as_written numpy_name (meta td)) -> nparse (nser (dtype td, rows td)) = Ok (dtype td, rows td) ->
    attempts (fun p => exists ov0 td0, p = write_numpy tser nser inter ov0 d td0) s s' ->
    elsewhere_same d ["data.npy"; "metadata.json"]%string s s' /\
    let s'' := final (write_numpy tser nser inter true d td) s' in
    result (write_numpy tser nser inter true d td) s' = Ok tt /\
    stored s d [("data.npy"%string, nser (dtype td, rows td)); ("metadata.json"%string, tser (as_written numpy_name (meta td)))] s'' /\
    exists td', read_numpy rnd tparse nparse None None None None d s'' = Ok td' /\ rows td' = rows td /\ dtype td' = dtype td /\ same_recording (meta td) (meta td') /\
      Model.Time.history (meta td') = Model.Time.history (meta td) ++ [CWriter; CReader].
  Proof.
    intros C D N W Ht Hn H. pose proof (fun K => attempts_touched d ["data.npy"; "metadata.json"]%string _ s s' K W H) as X. destruct X as [T W'].
    { intros p (o & t & ->). apply numpy_keeps. }
    split; [exact (touched_elsewhere _ _ _ _ T)|]. cbv zeta.
    destruct (t22_numpy rnd tser tparse nser nparse inter true s' d td C D N W' (or_introl eq_refl) Ht Hn) as (H1 & H2 & H3).
    split; [exact H1|]. split; [|exact H3]. eapply stored_from; [exact T| |exact H2]. reflexivity.
  Qed.
End TimeRestart.

Section Stuck.
  Context {B A : Type}.
  Variables (mser : pmeta B -> string) (mparse : string -> res (pmeta B)) (zser : list (string * A) -> string) (zparse : string -> res (list (string * A))) (inter : string -> list string).
  Notation write := (write_levels mser zser inter).
  Lemma c94_stuck who who' now s d m (data : list (Z * A)) : writable s d ["data.npz"; "metadata.json"]%string -> kind_at s d = None ->
    exists s', In s' (crash_states (write who now false d m data) s) /\ (forall r, read_levels mparse zparse who' d s' <> Ok r) /\
      forall s'', attempts (fun p => exists who0 now0 m0 data0, p = write who0 now0 false d m0 data0) s' s'' ->
        s'' = s' /\ forall who0 now0 m0 data0, result (write who0 now0 false d m0 data0) s'' = Err WriteError.
  Proof.
    intros W N. destruct (check_dir_ok false s d _ W (or_intror N)) as (C1 & (R1 & R2 & R3) & _).
    set (s1 := fst (snd (check_dir false d s))) in *. exists s1.
    assert (M : In s1 (fst (check_dir false d s))).
    { destruct W as (W1 & W2 & W3 & W4).
      assert (P : forall q, (exists r, d = q ++ r /\ r <> []) -> forall c, kind_at s ([] ++ q) <> Some (KFile c)) by (intros q (r & E & _) c; exact (W3 q r c E)).
      destruct (mkdir_parents_spec d [] s W1 W2 P N) as (I1 & I2 & I3 & I4 & I5 & I6).
      revert C1. unfold s1, check_dir. rewrite pbind_eq. cbn [preads fst snd app]. rewrite exists_kind, N. cbn [andb]. rewrite pbind_eq. unfold mkdir_parents. rewrite I1. cbn [pret fst snd]. intros _.
      rewrite app_nil_r, I3. destruct (exists_last I4) as (l & x & ->). rewrite last_last. apply in_or_app. right. left. reflexivity. }
    assert (Still : forall who0 now0 m0 data0, write who0 now0 false d m0 data0 s1 = ([], (s1, Err WriteError))).
    { intros. exact (c65_refuses mser zser inter who0 now0 s1 d m0 data0 KDir R1). }
    split; [|split].
    - unfold crash_states, write_levels. rewrite pbind_eq. fold s1. rewrite C1. cbn [fst snd]. right. apply in_or_app. left. exact M.
    - intros r E. unfold read_levels, read_levels_md in E. rewrite exists_kind, R1 in E. cbn [negb bind] in E. unfold read_file in E.
      pose proof (R2 META_FILE) as K. assert (K0 : kind_at s (d ++ [META_FILE]) = None).
      { destruct (kind_at s (d ++ [META_FILE])) as [k|] eqn:K1; [|reflexivity]. apply kind_prefix_dir in K1; [congruence|discriminate]. }
      rewrite K0 in K. unfold kind_at in K. destruct (look s1 (d ++ [META_FILE])) as [[c|es]|]; [discriminate K|discriminate K|]. discriminate E.
    - intros s'' H. assert (E : s'' = s1).
      { induction H as [|p s2 s3 H IH (w & n & m0 & d0 & ->) I]; [reflexivity|]. subst s2. unfold crash_states in I. rewrite Still in I. destruct I as [I|[]]. symmetry. exact I. }
      split; [exact E|]. subst s''. intros. unfold result. rewrite Still. reflexivity.
  Qed.
End Stuck.
