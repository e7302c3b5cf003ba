(** The writers of resistics, several at a time. *)
From Coq Require Import String Ascii NArith.
From Verif Require Import Spec.Project.
From Verif Require Import Base.Prelude Base.PyString Base.FileSys Base.ListUtil Spec.Persist Model.Project Model.Persist Model.Parallel Spec.Parallel
  Proofs.FileSys Proofs.PersistFs Proofs.Persist Proofs.ProjectNames Proofs.Parallel.
Open Scope list_scope.

Section Levels.
  Context {B A : Type}.
  Variables (mser : pmeta B -> string) (zser : list (string * A) -> string) (inter : string -> list string).
  Let proc (b : wjob B A) : io := par_write_levels mser zser inter (w_who b) (w_now b) (w_ov b) (w_dir b) (w_meta b) (w_data b).
  Let seq (s : node) (b : wjob B A) : node := final (write_levels mser zser inter (w_who b) (w_now b) (w_ov b) (w_dir b) (w_meta b) (w_data b)) s.
  Let out (b : wjob B A) : list (string * string) :=
    [("data.npz"%string, zser (archive (w_data b))); ("metadata.json"%string, mser (written (w_who b) (w_now b) (w_meta b)))].
  Let pj (b : wjob B A) : pjob := mkPJob (w_dir b) LEVEL_FILES (out b) (proc b).
  Let good (s : node) (b : wjob B A) : Prop :=
    levels_distinct (w_data b) /\ writable s (w_dir b) LEVEL_FILES /\ (w_ov b = true \/ kind_at s (w_dir b) = None).

  Lemma proc_ok s b : good s b -> ok (rely (w_dir b)) (guar (w_dir b) LEVEL_FILES) (done_ok (w_dir b) (out b)) (proc b) s.
  Proof.
    intros (L & W & O). unfold proc, par_write_levels, out. rewrite (str_keys_archive _ L). cbv zeta.
    exact (writer_ok (w_dir b) [(NPZ_FILE, (inter (zser (archive (w_data b))), zser (archive (w_data b))));
      (META_FILE, (inter (mser (written (w_who b) (w_now b) (w_meta b))), mser (written (w_who b) (w_now b) (w_meta b))))] (w_ov b) s
      ltac:(repeat constructor; cbn; intuition discriminate) W O).
  Qed.
  Lemma seq_stored s b : good s b -> stored s (w_dir b) (out b) (seq s b).
  Proof.
    intros (L & W & O). unfold seq, out. rewrite <- (str_keys_archive _ L).
    exact (proj1 (proj2 (two_files_spec (w_ov b) s (w_dir b) NPZ_FILE _ _ META_FILE _ _ ltac:(discriminate) W O))).
  Qed.

  Lemma levels_pool jobs s sched pool s' : apart (map w_dir jobs) -> (forall b, In b jobs -> good s b) ->
    run_schedule sched (map proc jobs) s = (pool, s') ->
    (forall i b r, nth_error jobs i = Some b -> ended pool i r -> r = Ok tt /\ holds s' (w_dir b) (out b)) /\
    (forall q, elsewhere (map w_dir jobs) LEVEL_FILES q -> kind_at s' q = kind_at s q) /\
    (all_ended pool -> forall q, kind_at s' q = kind_at (fold_left seq jobs s) q).
  Proof.
    intros HA HG HR.
    destruct (pool_jobs (map pj jobs) sched s pool s') as (C & L & K).
    - rewrite map_map. exact HA.
    - intros b Hb. apply in_map_iff in Hb. destruct Hb as (b0 & <- & Hb). apply proc_ok, HG, Hb.
    - rewrite map_map. exact HR.
    - rewrite map_length in L.
      assert (K' : forall i b r, nth_error jobs i = Some b -> ended pool i r -> done_ok (w_dir b) (out b) r s').
      { intros i b r Hi Hr. apply (K i (pj b) r); [|exact Hr]. rewrite nth_error_map, Hi. reflexivity. }
      split; [|split].
      + intros i b r Hi Hr. destruct (K' i b r Hi Hr) as (R1 & _ & R3). split; assumption.
      + intros q Hq. apply (changed_elsewhere (map pj jobs) s); [exact C|]. intros b Hb. apply in_map_iff in Hb. destruct Hb as (b0 & <- & Hb).
        exact (Hq _ (in_map w_dir _ _ Hb)).
      + intros AE q.
        assert (F : forall b, In b jobs -> kind_at s' (w_dir b) = Some KDir /\ holds s' (w_dir b) (out b)).
        { intros b Hb. apply In_nth_error in Hb. destruct Hb as [i Hi]. destruct (nth_error pool i) as [t|] eqn:Et.
          - destruct (AE i t Et) as [r ->]. destruct (K' i b r Hi Et) as (_ & R). exact R.
          - apply nth_error_None in Et. assert (i < List.length jobs)%nat by (apply nth_error_Some; congruence). lia. }
        destruct (seq_done (J := wjob B A) w_dir out (fun b s => levels_distinct (w_data b) /\ (w_ov b = true \/ kind_at s (w_dir b) = None)) (fun b s => seq s b)) with (jobs := jobs) (s := s) as [S1 S2].
        * intros b s1 s2 [M1 M2] E. split; [exact M1|]. rewrite E. exact M2.
        * intros b s1 W [M1 M2]. apply seq_stored. split; [exact M1|]. split; [exact W|exact M2].
        * exact HA.
        * intros b Hb. destruct (HG b Hb) as (G1 & G2 & G3). split; [exact G2|]. split; assumption.
        * cbv zeta in S1, S2. set (s2 := fold_left (fun s b => seq s b) jobs s) in *. change (fold_left seq jobs s) with s2.
          destruct (all_done (map pj jobs) s s' q C) as [(b & f & c & Hb & Hi & -> & E)|[((b & r & Hb & Eq) & E)|[N E]]].
          -- intros b Hb. apply in_map_iff in Hb. destruct Hb as (b0 & <- & _). reflexivity.
          -- intros b Hb. apply in_map_iff in Hb. destruct Hb as (b0 & <- & Hb). exact (F b0 Hb).
          -- rewrite E. apply in_map_iff in Hb. destruct Hb as (b0 & <- & Hb). symmetry. apply (proj2 (S1 b0 Hb)). exact Hi.
          -- rewrite E. apply in_map_iff in Hb. destruct Hb as (b0 & <- & Hb). cbn [pj pj_dir] in Eq. destruct (S1 b0 Hb) as [D _]. symmetry.
             destruct r as [|x r]; [rewrite app_nil_r in Eq; rewrite <- Eq; exact D|]. rewrite Eq in D.
             exact (kind_prefix_dir s2 q (x :: r) KDir D ltac:(discriminate)).
          -- rewrite E. symmetry. apply S2. intros b Hb. apply (N (pj b)), in_map, Hb.
  Qed.
  (** readers of other directories see what was there before *)
  Lemma levels_readers (mparse : string -> res (pmeta B)) (zparse : string -> res (list (string * A))) jobs s sched pool s' who e :
    apart (map w_dir jobs) -> (forall b, In b jobs -> good s b) -> run_schedule sched (map proc jobs) s = (pool, s') ->
    (forall b, In b jobs -> forall r, w_dir b <> e ++ r /\ e <> w_dir b ++ r) ->
    read_levels mparse zparse who e s' = read_levels mparse zparse who e s.
  Proof.
    intros HA HG HR HE. destruct (levels_pool jobs s sched pool s' HA HG HR) as (_ & U & _).
    assert (U' : forall x, kind_at s' (e ++ x) = kind_at s (e ++ x)).
    { intros x. apply U. intros d Hd. apply in_map_iff in Hd. destruct Hd as (b & <- & Hb). split.
      - intros r E. rewrite <- app_assoc in E. exact (proj1 (HE b Hb _) E).
      - intros f _ E. destruct x as [|x0 x _] using rev_ind.
        + rewrite app_nil_r in E. exact (proj2 (HE b Hb _) E).
        + rewrite app_assoc in E. apply app_inj_tail in E. destruct E as [E _]. exact (proj1 (HE b Hb x) (eq_sym E)). }
    unfold read_levels, read_levels_md. rewrite !exists_kind, !read_file_kind.
    pose proof (U' []) as U0. rewrite app_nil_r in U0. rewrite U0, !U'. reflexivity.
  Qed.
End Levels.

(** ** saving solutions *)
Definition sproc (b : sjob) : io := par_save_solution (s_dir b) (s_name b) (s_inter b) (s_text b).
Lemma solutions_apart jobs s sched pool s' : apart (map s_dir jobs) -> (forall b, In b jobs -> writable s (s_dir b) [s_name b]) ->
  run_schedule sched (map sproc jobs) s = (pool, s') ->
  (forall i b r, nth_error jobs i = Some b -> ended pool i r -> r = Ok tt /\ kind_at s' (s_dir b ++ [s_name b]) = Some (KFile (s_text b))).
Proof.
  intros HA HG HR. set (pj b := mkPJob (s_dir b) [s_name b] [(s_name b, s_text b)] (sproc b)).
  destruct (pool_jobs (map pj jobs) sched s pool s') as (C & L & K).
  - rewrite map_map. exact HA.
  - intros b Hb. apply in_map_iff in Hb. destruct Hb as (b0 & <- & Hb). apply saver_ok, HG, Hb.
  - rewrite map_map. exact HR.
  - intros i b r Hi Hr. destruct (K i (pj b) r) as (R1 & _ & R3); [rewrite nth_error_map, Hi; reflexivity|exact Hr|].
    split; [exact R1|]. apply R3. left. reflexivity.
Qed.

(** in a directory that is there *)
Section Same.
  Variables (d : path) (name : string).
  Definition rely2 (s s' : node) : Prop := (forall p, kind_at s p = Some KDir -> kind_at s' p = Some KDir) /\ kind_at s' (d ++ [name]) = kind_at s (d ++ [name]).
  Definition guar2 (s s' : node) : Prop :=
    forall p, kind_at s' p = kind_at s p \/ (p = d ++ [name] /\ kind_at s p <> Some KDir /\ exists c, kind_at s' p = Some (KFile c)).
  Definition there (s : node) : Prop := kind_at s d = Some KDir /\ kind_at s (d ++ [name]) <> Some KDir.
  Lemma rely2_there s s' : there s -> rely2 s s' -> there s'.
  Proof. intros [H1 H2] [R1 R2]. split; [apply R1, H1|rewrite R2; exact H2]. Qed.
  Lemma put_there s c : there s -> guar2 s (put s (d ++ [name]) (File c)) /\ there (put s (d ++ [name]) (File c)) /\
    kind_at (put s (d ++ [name]) (File c)) (d ++ [name]) = Some (KFile c).
  Proof.
    intros [H1 H2]. pose proof (kind_put_here s d name c) as K.
    assert (K0 : kind_at (put s (d ++ [name]) (File c)) (d ++ [name]) = Some (KFile c)).
    { rewrite K by assumption. destruct (path_dec (d ++ [name]) (d ++ [name])); [reflexivity|congruence]. }
    split; [|split; [split|exact K0]].
    - intros p. rewrite K by assumption. destruct (path_dec p (d ++ [name])) as [->|N]; [|left; reflexivity]. right.
      split; [reflexivity|]. split; [exact H2|exists c; reflexivity].
    - rewrite K by assumption. destruct (path_dec d (d ++ [name])) as [E|N]; [exfalso; exact (below_neq _ _ E)|exact H1].
    - rewrite K0. discriminate.
  Qed.
  Let Q c := fun (r : res unit) s => r = Ok tt /\ kind_at s (d ++ [name]) = Some (KFile c).
  Lemma contents2_ok c cs k : forall s, there s ->
    (forall s', there s' -> (cs = [] -> kind_at s' (d ++ [name]) = kind_at s (d ++ [name])) -> (cs <> [] -> kind_at s' (d ++ [name]) = Some (KFile (last cs ""%string))) -> ok rely2 guar2 (Q c) k s') ->
    ok rely2 guar2 (Q c) (put_contents (d ++ [name]) cs k) s.
  Proof.
    induction cs as [|c0 cs IH]; intros s Hs Hk; cbn [put_contents]; [apply Hk; [exact Hs|reflexivity|congruence]|].
    apply ok_act. intros s' H. cbn [fst snd]. destruct (put_there s' c0 (rely2_there _ _ Hs H)) as (G1 & T1 & K1). split; [exact G1|].
    apply IH; [exact T1|]. intros s2 T2 E1 E2. apply Hk; [exact T2|discriminate|]. intros _. destruct cs as [|c2 cs].
    - rewrite (E1 eq_refl). exact K1.
    - cbn [last] in *. apply E2. discriminate.
  Qed.
  Lemma save2_ok inter c s : there s -> ok rely2 guar2 (Q c) (par_save_solution d name inter c) s.
  Proof.
    intros Hs. unfold par_save_solution. cbv zeta. apply ok_act. intros s1 H1. pose proof (rely2_there _ _ Hs H1) as Hs1. cbn [fst snd].
    split; [intros p; left; reflexivity|]. rewrite exists_kind, (proj1 Hs1). cbn [par_write_files]. unfold par_write_file. apply ok_act. intros s2 H2.
    pose proof (rely2_there _ _ Hs1 H2) as [T1 T2]. pose proof T1 as T1'. apply kind_dir in T1'. destruct T1' as [es E]. rewrite removelast_last, E.
    assert (X : forall (X : node * io) (f : list (string * node) -> node * io), match look s2 (d ++ [name]) with Some (Dir l) => f l | _ => X end = X).
    { intros X f. unfold kind_at in T2. destruct (look s2 (d ++ [name])) as [[c'|es']|]; [reflexivity|exfalso; apply T2; reflexivity|reflexivity]. }
    set (P := (put s2 (d ++ [name]) (File ""%string), put_contents (d ++ [name]) (inter ++ [c]) (Ret (Ok tt)))).
    match goal with |- guar2 _ (fst ?M) /\ _ => replace M with P by (symmetry; unfold kind_at in T2; destruct (look s2 (d ++ [name])) as [[c'|es']|]; [reflexivity|exfalso; apply T2; reflexivity|reflexivity]) end.
    unfold P. cbn [fst snd]. destruct (put_there s2 ""%string (conj T1 T2)) as (G1 & T3 & _). split; [exact G1|].
    apply contents2_ok; [exact T3|]. intros s3 _ _ E3. apply ok_ret. intros s4 H4. split; [reflexivity|].
    rewrite (proj2 H4), E3 by (destruct inter; discriminate). rewrite last_last. reflexivity.
  Qed.
End Same.
Lemma solutions_same d jobs s sched pool s' : kind_at s d = Some KDir -> NoDup (map s_name jobs) ->
  (forall b, In b jobs -> s_dir b = d /\ kind_at s (d ++ [s_name b]) <> Some KDir) ->
  run_schedule sched (map sproc jobs) s = (pool, s') ->
  (forall i b r, nth_error jobs i = Some b -> ended pool i r -> r = Ok tt /\ kind_at s' (d ++ [s_name b]) = Some (KFile (s_text b))) /\
  (forall q, (forall b, In b jobs -> q <> d ++ [s_name b]) -> kind_at s' q = kind_at s q).
Proof.
  intros Hd Hu HG HR. set (dm := mkSJob [] ""%string [] ""%string). set (N i := s_name (nth i jobs dm)). set (T i := s_text (nth i jobs dm)).
  pose proof (pool_ok (List.length jobs) (fun i => rely2 d (N i)) (fun i => guar2 d (N i)) (fun i r s => r = Ok tt /\ kind_at s (d ++ [N i]) = Some (KFile (T i)))
    (fun s1 => forall q, (forall b, In b jobs -> q <> d ++ [s_name b]) -> kind_at s1 q = kind_at s q)) as P.
  assert (nth_of : forall i b, nth_error jobs i = Some b -> nth i jobs dm = b) by (intros i b Hi; apply nth_error_nth, Hi).
  specialize (P (fun i s1 => conj (fun p H => H) eq_refl)).
  assert (P0 : forall i s1 s2 s3, rely2 d (N i) s1 s2 -> rely2 d (N i) s2 s3 -> rely2 d (N i) s1 s3).
  { intros i s1 s2 s3 [A1 A2] [B1 B2]. split; [intros p H; apply B1, A1, H|congruence]. }
  assert (P1 : forall i j s1 s2, (i < List.length jobs)%nat -> (j < List.length jobs)%nat -> i <> j -> guar2 d (N i) s1 s2 -> rely2 d (N j) s1 s2).
  { intros i j s1 s2 Hi Hj Nij G. split.
    - intros p Hp. destruct (G p) as [E|(_ & E & _)]; congruence.
    - destruct (G (d ++ [N j])) as [E|(E & _)]; [exact E|]. exfalso. apply below_inj in E. apply Nij.
      assert (nth_error (map s_name jobs) i = Some (N i)) by (unfold N; rewrite nth_error_map, (nth_error_nth' jobs dm Hi); reflexivity).
      assert (nth_error (map s_name jobs) j = Some (N j)) by (unfold N; rewrite nth_error_map, (nth_error_nth' jobs dm Hj); reflexivity).
      eapply NoDup_nth_error; [exact Hu|rewrite map_length; exact Hi|congruence]. }
  assert (P2 : forall i s1 s2, (i < List.length jobs)%nat -> (forall q, (forall b, In b jobs -> q <> d ++ [s_name b]) -> kind_at s1 q = kind_at s q) ->
     guar2 d (N i) s1 s2 -> (forall q, (forall b, In b jobs -> q <> d ++ [s_name b]) -> kind_at s2 q = kind_at s q)).
  { intros i s1 s2 Hi HI G q Hq. destruct (G q) as [E|(E & _)]; [rewrite E; apply HI, Hq|]. exfalso. apply (Hq (nth i jobs dm)); [apply nth_In, Hi|exact E]. }
  specialize (P P0 P1 P2 sched (map sproc jobs) s (map_length _ _)).
  assert (P3 : forall i t, nth_error (map sproc jobs) i = Some t ->
     ok (rely2 d (N i)) (guar2 d (N i)) (fun r s => r = Ok tt /\ kind_at s (d ++ [N i]) = Some (KFile (T i))) t s).
  { intros i t Hi. rewrite nth_error_map in Hi. destruct (nth_error jobs i) as [b|] eqn:Eb; [|discriminate]. cbn in Hi.
    unfold N, T. rewrite (nth_of _ _ Eb). replace t with (sproc b) by congruence. destruct (HG b (nth_error_In _ _ Eb)) as [G1 G2].
    unfold sproc. rewrite G1. apply save2_ok. split; assumption. }
  specialize (P P3 (fun q _ => eq_refl)). rewrite HR in P. destruct P as (L & HI & K). split; [|exact HI].
  intros i b r Hb Hr. specialize (K i _ Hr). unfold N, T in K. rewrite (nth_of _ _ Hb) in K. inversion K as [r0 s1 K1|]; subst.
  apply K1. split; [intros p H; exact H|reflexivity].
Qed.
(** in a new directory, two at a time *)
Lemma solutions_clash s d n1 i1 c1 n2 i2 c2 : d <> [] -> kind_at s d = None -> kind_at s (removelast d) = Some KDir -> n1 <> n2 ->
  exists sched pool s', run_schedule sched [par_save_solution d n1 i1 c1; par_save_solution d n2 i2 c2] s = (pool, s') /\
    all_ended pool /\ ended pool 0 (Ok tt) /\ ended pool 1 (Err OSError) /\
    kind_at s' (d ++ [n1]) = Some (KFile c1) /\ kind_at s' (d ++ [n2]) = None.
Proof.
  intros Hd Hn Hu HN.
  assert (Hr : exists x up, rev d = x :: up). { destruct (rev d) as [|x up] eqn:E; [exfalso; apply Hd; rewrite <- (rev_involutive d), E; reflexivity|]. exists x, up. reflexivity. }
  destruct Hr as (x & up & Er). assert (Hrd : rev (x :: up) = d) by (rewrite <- Er; apply rev_involutive).
  assert (He : exists_ s d = false) by (rewrite exists_kind, Hn; reflexivity).
  set (s1 := put s d (Dir [])).
  assert (K1 : forall q, kind_at s1 q = if path_dec q d then Some KDir else kind_at s q).
  { intros q. unfold s1. rewrite (kind_put' s d (Dir []) q Hd Hu); [reflexivity|left; reflexivity|]. rewrite Hn. discriminate. }
  assert (Kd : kind_at s1 d = Some KDir) by (rewrite K1; destruct (path_dec d d); congruence).
  assert (Kf : forall f, kind_at s1 (d ++ [f]) = None).
  { intros f. rewrite K1. destruct (path_dec (d ++ [f]) d) as [E|_]; [exfalso; exact (below_neq d f (eq_sym E))|]. apply kind_below, Hn. }
  set (w1 := par_write_files d [(n1, (i1, c1))] Ret).
  set (pool0 := [par_save_solution d n1 i1 c1; par_save_solution d n2 i2 c2]).
  assert (S1 : run_schedule [0; 1; 0; 1]%nat pool0 s = ([w1; Ret (Err OSError)], s1)).
  { unfold pool0. cbn [run_schedule nth_error]. unfold par_save_solution at 1. cbv zeta. rewrite He. cbn [set_proc nth_error].
    unfold par_save_solution at 1. cbv zeta. rewrite He. cbn [set_proc nth_error]. rewrite Er. cbn [mkdir_all]. rewrite Hrd.
    rewrite (os_mkdir_none s d Hn Hu). fold s1. cbn [set_proc nth_error]. rewrite (os_mkdir_exists s1 d Kd). reflexivity. }
  assert (S2 : exists k, run_schedule (repeat 0%nat k) [w1; Ret (Err OSError)] s1 = ([Ret (Ok tt); Ret (Err OSError)], put s1 (d ++ [n1]) (File c1)) \/
      exists s2, run_schedule (repeat 0%nat k) [w1; Ret (Err OSError)] s1 = ([Ret (Ok tt); Ret (Err OSError)], s2) /\ kind_at s2 (d ++ [n1]) = Some (KFile c1) /\ kind_at s2 (d ++ [n2]) = None).
  { destruct (finish_one w1 0 [w1; Ret (Err OSError)] s1 eq_refl) as (k & r & s2 & E). cbn [set_proc] in E. exists k. right. exists s2.
    (* run the first process alone as a pool of saving jobs in an existing directory *)
    assert (P := pool_ok 2 (fun i => match i with O => rely2 d n1 | _ => fun _ _ => True end) (fun i => match i with O => guar2 d n1 | _ => fun a b => a = b end)
      (fun i r s => match i with O => r = Ok tt /\ kind_at s (d ++ [n1]) = Some (KFile c1) | _ => True end)
      (fun s' => kind_at s' (d ++ [n2]) = None)).
    specialize (P ltac:(intros [|i] s0; [split; [intros p H; exact H|reflexivity]|exact I])).
    specialize (P ltac:(intros [|i] a b c; [intros [A1 A2] [B1 B2]; split; [intros p H; apply B1, A1, H|congruence]|intros; exact I])).
    specialize (P ltac:(intros [|i] [|j] a b; intros; try (exfalso; lia); try exact I; subst; split; [intros p Hp; exact Hp|reflexivity])).
    specialize (P ltac:(intros [|i] a b _ HI HG; [destruct (HG (d ++ [n2])) as [E1|(E1 & _)]; [congruence|exfalso; apply below_inj in E1; congruence]|subst; exact HI])).
    specialize (P (repeat 0%nat k) [w1; Ret (Err OSError)] s1 eq_refl).
    assert (P3 : forall i t, nth_error [w1; Ret (Err OSError)] i = Some t ->
       ok (match i with O => rely2 d n1 | _ => fun _ _ => True end) (match i with O => guar2 d n1 | _ => fun a b => a = b end)
         (fun r s => match i with O => r = Ok tt /\ kind_at s (d ++ [n1]) = Some (KFile c1) | _ => True end) t s1).
    { intros i t Ht. destruct i as [|[|i]]; [ | | exfalso; cbn in Ht; destruct i; discriminate Ht].
      - change (Some w1 = Some t) in Ht. assert (Et : w1 = t) by congruence. rewrite <- Et. clear Ht Et t. pose proof (save2_ok d n1 i1 c1 s1) as SV. unfold there in SV.
        assert (Kn : kind_at s1 (d ++ [n1]) <> Some KDir) by (rewrite Kf; discriminate). specialize (SV (conj Kd Kn)). inversion SV as [|f s0 SV']; subst.
        destruct (SV' s1 (conj (fun p H => H) eq_refl)) as [_ SV2]. cbn [fst snd] in SV2. rewrite exists_kind, Kd in SV2. exact SV2.
      - change (Some (Ret (Err OSError)) = Some t) in Ht. assert (Et : Ret (Err OSError) = t) by congruence. rewrite <- Et. apply ok_ret. intros; exact I. }
    specialize (P P3 (Kf n2)). rewrite E in P. destruct P as (_ & I2 & K2). specialize (K2 O _ eq_refl). inversion K2 as [r0 s0 K3|]; subst.
    destruct (K3 s2 (conj (fun p H => H) eq_refl)) as [-> F]. split; [exact E|]. split; [exact F|exact I2]. }
  destruct S2 as [k [S2|(s2 & S2 & F1 & F2)]].
  - exists ([0; 1; 0; 1]%nat ++ repeat 0%nat k), [Ret (Ok tt); Ret (Err OSError)], (put s1 (d ++ [n1]) (File c1)).
    rewrite run_app, S1, S2. split; [reflexivity|]. split; [intros [|[|[|]]] t Ht; cbn in Ht; try discriminate; inversion Ht; eexists; reflexivity|].
    split; [reflexivity|]. split; [reflexivity|]. rewrite !kind_put_here by (try exact Kd; rewrite Kf; discriminate).
    destruct (path_dec (d ++ [n1]) (d ++ [n1])); [|congruence]. split; [reflexivity|].
    destruct (path_dec (d ++ [n2]) (d ++ [n1])) as [E|_]; [apply below_inj in E; congruence|apply Kf].
  - exists ([0; 1; 0; 1]%nat ++ repeat 0%nat k), [Ret (Ok tt); Ret (Err OSError)], s2.
    rewrite run_app, S1, S2. split; [reflexivity|]. split; [intros [|[|[|]]] t Ht; cbn in Ht; try discriminate; inversion Ht; eexists; reflexivity|].
    split; [reflexivity|]. split; [reflexivity|]. split; assumption.
Qed.

(** ** the directories of different measurements *)
Lemma evals_apart p (ms : list (string * (string * string))) :
  (forall site meas config, In (site, (meas, config)) ms -> component site /\ component meas /\ component config) -> NoDup ms ->
  apart (map (fun m => get_meas_evals_path p (fst m) (fst (snd m)) (snd (snd m))) ms).
Proof.
  intros Hc Hu i j di dj N Hi Hj r E. rewrite nth_error_map in Hi, Hj.
  destruct (nth_error ms i) as [[s1 [m1 c1]]|] eqn:Ei; [|discriminate]. destruct (nth_error ms j) as [[s2 [m2 c2]]|] eqn:Ej; [|discriminate].
  cbn [option_map fst snd] in Hi, Hj. injection Hi as <-. injection Hj as <-.
  destruct (Hc _ _ _ (nth_error_In _ _ Ei)) as (A1 & A2 & A3). destruct (Hc _ _ _ (nth_error_In _ _ Ej)) as (B1 & B2 & B3).
  unfold get_meas_evals_path in E. rewrite !(pjoin_component _ _ A1), !(pjoin_component _ _ A2), !(pjoin_component _ _ A3) in E.
  rewrite !(pjoin_component _ _ B1), !(pjoin_component _ _ B2), !(pjoin_component _ _ B3) in E.
  assert (Hr : r = []).
  { apply (f_equal (@List.length _)) in E. rewrite !app_length in E. cbn in E. destruct r; [reflexivity|cbn in E; lia]. }
  rewrite Hr, app_nil_r in E. apply app_inj_tail in E. destruct E as [E E1]. apply app_inj_tail in E. destruct E as [E E2].
  apply app_inj_tail in E. destruct E as [E E3]. apply N. eapply NoDup_nth_error; [exact Hu|apply nth_error_Some; congruence|congruence].
Qed.
