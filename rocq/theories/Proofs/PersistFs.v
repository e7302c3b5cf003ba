(** Writing two files to a directory: the states a crash may leave, and the final state. *)
From Coq Require Import String Ascii.
From Verif Require Import Base.Prelude Base.FileSys Proofs.FileSys Model.Persist Spec.Persist.
Open Scope list_scope.

Definition two_files (overwrite : bool) (d : path) (f1 : string) (i1 : list string) (c1 : string) (f2 : string) (i2 : list string) (c2 : string) : prog unit :=
  ok <~ check_dir overwrite d ;;
  if negb (ok : bool) then pfail WriteError
  else _ <~ write_file (d ++ [f1]) i1 c1 ;; write_file (d ++ [f2]) i2 c2.

Lemma kind_below s d x : kind_at s d = None -> kind_at s (d ++ x) = None.
Proof. unfold kind_at. rewrite look_app. destruct (look s d); [discriminate|reflexivity]. Qed.

(** the state when the files are about to be written *)
Definition ready (s : node) (d : path) (s1 : node) : Prop :=
  kind_at s1 d = Some KDir /\ (forall f, kind_at s1 (d ++ [f]) = kind_at s (d ++ [f])) /\
  (forall q, (forall r, d <> q ++ r) -> kind_at s1 q = kind_at s q).
Lemma no_prefix_below (d : path) f r : d <> (d ++ [f]) ++ r.
Proof. intros H. apply (f_equal (@length _)) in H. rewrite !app_length in H. cbn in H. lia. Qed.
Lemma kind_prefix_dir s p q k : kind_at s (p ++ q) = Some k -> q <> [] -> kind_at s p = Some KDir.
Proof.
  unfold kind_at. rewrite look_app. destruct (look s p) as [[c|es]|]; intros H Hq; [|reflexivity|discriminate].
  destruct q; [congruence|]. discriminate.
Qed.
Lemma check_dir_refuse s d k : kind_at s d = Some k -> check_dir false d s = ([], (s, Ok false)).
Proof. intros H. unfold check_dir. rewrite pbind_eq. cbn [preads fst snd]. rewrite exists_kind, H. reflexivity. Qed.
Lemma check_dir_ok overwrite s d files : writable s d files -> (overwrite = true \/ kind_at s d = None) ->
  snd (snd (check_dir overwrite d s)) = Ok true /\ ready s d (fst (snd (check_dir overwrite d s))) /\
  forall s', In s' (s :: fst (check_dir overwrite d s)) ->
    (forall f, kind_at s' (d ++ [f]) = kind_at s (d ++ [f])) /\ (kind_at s d <> None -> s' = s).
Proof.
  intros (Hne & Hroot & Hno & Hf) Hov. unfold check_dir. rewrite pbind_eq. cbn [preads fst snd]. rewrite exists_kind.
  destruct (kind_at s d) as [k|] eqn:K.
  - assert (overwrite = true) as -> by (destruct Hov; [assumption|discriminate]). cbn [andb negb]. rewrite pbind_eq. cbn [pret fst snd app].
    split; [reflexivity|]. split.
    + split; [|split; reflexivity]. destruct k as [c|]; [|exact K]. exfalso. exact (Hno d [] c (eq_sym (app_nil_r d)) K).
    + intros s' [<-|[]]. split; [reflexivity|]. intros _. reflexivity.
  - cbn [andb]. rewrite pbind_eq. unfold mkdir_parents.
    assert (P : forall q, (exists r, d = q ++ r /\ r <> []) -> forall c, kind_at s ([] ++ q) <> Some (KFile c)).
    { intros q (r & E & _) c. exact (Hno q r c E). }
    destruct (mkdir_parents_spec d [] s Hne Hroot P K) as (I1 & I2 & I3 & I4 & I5 & I6).
    rewrite I1. cbn [pret fst snd app]. rewrite app_nil_r.
    assert (Fr : forall s', In s' (fst (mkdir_parents_from [] d s)) -> (forall f, kind_at s' (d ++ [f]) = kind_at s (d ++ [f])) /\
      forall q, (forall r, d <> q ++ r) -> kind_at s' q = kind_at s q).
    { intros s' Hs'. assert (G : forall q, (forall r, d <> q ++ r) -> kind_at s' q = kind_at s q).
      { intros q Hq. destruct (I6 s' Hs' q) as [E|(_ & _ & a & b & E & _ & Eq)]; [exact E|]. exfalso. apply (Hq b). cbn in Eq. rewrite Eq. exact E. }
      split; [|exact G]. intros f. apply G. apply no_prefix_below. }
    split; [reflexivity|]. split.
    + rewrite I3. assert (Hin : In (last (fst (mkdir_parents_from [] d s)) s) (fst (mkdir_parents_from [] d s))).
      { destruct (exists_last I4) as (l & x & ->). rewrite last_last. apply in_or_app. right. left. reflexivity. }
      split; [rewrite <- I3; exact I2|]. exact (Fr _ Hin).
    + intros s' [<-|Hs'].
      * split; [reflexivity|]. intros H. congruence.
      * split; [exact (proj1 (Fr s' Hs'))|]. congruence.
Qed.

Lemma write_here s d f inter c : kind_at s d = Some KDir -> kind_at s (d ++ [f]) <> Some KDir ->
  write_file (d ++ [f]) inter c s = (map (fun c => put s (d ++ [f]) (File c)) (""%string :: inter ++ [c]), (put s (d ++ [f]) (File c), Ok tt)).
Proof.
  intros Hd Hk. apply write_file_ok; [destruct d; discriminate|rewrite removelast_last; exact Hd|exact Hk].
Qed.
Lemma kind_put_here s d f c q : kind_at s d = Some KDir -> kind_at s (d ++ [f]) <> Some KDir ->
  kind_at (put s (d ++ [f]) (File c)) q = if path_dec q (d ++ [f]) then Some (KFile c) else kind_at s q.
Proof.
  intros Hd Hk. apply kind_dir in Hd. destruct Hd as [es Hd]. rewrite (kind_put s d es f (File c) q Hd); [reflexivity|right; exists c; reflexivity|exact Hk].
Qed.

Lemma below_neq (d : path) f : d <> d ++ [f].
Proof. intros H. apply (f_equal (@length _)) in H. rewrite app_length in H. cbn in H. lia. Qed.
Lemma below_inj (d : path) f g : d ++ [f] = d ++ [g] -> f = g.
Proof. intros H. apply app_inv_head in H. congruence. Qed.

(** what a crash may leave *)
Inductive left_by (s : node) (d : path) (f1 : string) (i1 : list string) (c1 : string) (f2 : string) (i2 : list string) (c2 : string) (s' : node) : Prop :=
| left_before : kind_at s' (d ++ [f1]) = kind_at s (d ++ [f1]) -> kind_at s' (d ++ [f2]) = kind_at s (d ++ [f2]) ->
    (kind_at s d <> None -> s' = s) -> left_by s d f1 i1 c1 f2 i2 c2 s'
| left_first c : In c (""%string :: i1) -> kind_at s' (d ++ [f1]) = Some (KFile c) -> kind_at s' (d ++ [f2]) = kind_at s (d ++ [f2]) ->
    kind_at s' d = Some KDir -> left_by s d f1 i1 c1 f2 i2 c2 s'
| left_between : kind_at s' (d ++ [f1]) = Some (KFile c1) -> kind_at s' (d ++ [f2]) = kind_at s (d ++ [f2]) ->
    kind_at s' d = Some KDir -> left_by s d f1 i1 c1 f2 i2 c2 s'
| left_second c : In c (""%string :: i2) -> kind_at s' (d ++ [f1]) = Some (KFile c1) -> kind_at s' (d ++ [f2]) = Some (KFile c) ->
    kind_at s' d = Some KDir -> left_by s d f1 i1 c1 f2 i2 c2 s'
| left_done : kind_at s' (d ++ [f1]) = Some (KFile c1) -> kind_at s' (d ++ [f2]) = Some (KFile c2) ->
    kind_at s' d = Some KDir -> left_by s d f1 i1 c1 f2 i2 c2 s'.

Lemma two_files_spec ov s d f1 i1 c1 f2 i2 c2 : f1 <> f2 -> writable s d [f1; f2] -> (ov = true \/ kind_at s d = None) ->
  result (two_files ov d f1 i1 c1 f2 i2 c2) s = Ok tt /\
  stored s d [(f1, c1); (f2, c2)] (final (two_files ov d f1 i1 c1 f2 i2 c2) s) /\
  (forall s', In s' (crash_states (two_files ov d f1 i1 c1 f2 i2 c2) s) -> left_by s d f1 i1 c1 f2 i2 c2 s') /\
  (exists s', In s' (crash_states (two_files ov d f1 i1 c1 f2 i2 c2) s) /\ kind_at s' d = Some KDir /\
     kind_at s' (d ++ [f1]) = Some (KFile c1) /\ kind_at s' (d ++ [f2]) = kind_at s (d ++ [f2])).
Proof.
  intros N W Hov. destruct (check_dir_ok ov s d [f1; f2] W Hov) as (C1 & (R1 & R2 & R3) & C2).
  destruct W as (Hne & Hroot & Hno & Hf).
  set (s1 := fst (snd (check_dir ov d s))) in *.
  assert (K1 : kind_at s1 (d ++ [f1]) <> Some KDir) by (rewrite R2; apply Hf; left; reflexivity).
  set (s2 := put s1 (d ++ [f1]) (File c1)).
  assert (P1 : forall c q, kind_at (put s1 (d ++ [f1]) (File c)) q = if path_dec q (d ++ [f1]) then Some (KFile c) else kind_at s1 q)
    by (intros c q; exact (kind_put_here s1 d f1 c q R1 K1)).
  assert (N12 : d ++ [f2] <> d ++ [f1]) by (intros E; apply below_inj in E; congruence).
  assert (Q1 : forall c, kind_at (put s1 (d ++ [f1]) (File c)) d = Some KDir /\ kind_at (put s1 (d ++ [f1]) (File c)) (d ++ [f1]) = Some (KFile c) /\
     kind_at (put s1 (d ++ [f1]) (File c)) (d ++ [f2]) = kind_at s (d ++ [f2])).
  { intros c. rewrite !P1. destruct (path_dec d (d ++ [f1])) as [E|_]; [exfalso; exact (below_neq _ _ E)|].
    destruct (path_dec (d ++ [f1]) (d ++ [f1])) as [_|E]; [|congruence]. destruct (path_dec (d ++ [f2]) (d ++ [f1])) as [E|_]; [congruence|].
    split; [exact R1|]. split; [reflexivity|apply R2]. }
  destruct (Q1 c1) as (D2 & F21 & F22). fold s2 in D2, F21, F22.
  assert (K2 : kind_at s2 (d ++ [f2]) <> Some KDir) by (rewrite F22; apply Hf; right; left; reflexivity).
  assert (P2 : forall c q, kind_at (put s2 (d ++ [f2]) (File c)) q = if path_dec q (d ++ [f2]) then Some (KFile c) else kind_at s2 q)
    by (intros c q; exact (kind_put_here s2 d f2 c q D2 K2)).
  assert (Q2 : forall c, kind_at (put s2 (d ++ [f2]) (File c)) d = Some KDir /\ kind_at (put s2 (d ++ [f2]) (File c)) (d ++ [f1]) = Some (KFile c1) /\
     kind_at (put s2 (d ++ [f2]) (File c)) (d ++ [f2]) = Some (KFile c)).
  { intros c. rewrite !P2. destruct (path_dec d (d ++ [f2])) as [E|_]; [exfalso; exact (below_neq _ _ E)|].
    destruct (path_dec (d ++ [f2]) (d ++ [f2])) as [_|E]; [|congruence]. destruct (path_dec (d ++ [f1]) (d ++ [f2])) as [E|_]; [congruence|].
    split; [exact D2|]. split; [exact F21|reflexivity]. }
  assert (E : two_files ov d f1 i1 c1 f2 i2 c2 s =
    (fst (check_dir ov d s) ++ map (fun c => put s1 (d ++ [f1]) (File c)) (""%string :: i1 ++ [c1]) ++ map (fun c => put s2 (d ++ [f2]) (File c)) (""%string :: i2 ++ [c2]),
     (put s2 (d ++ [f2]) (File c2), Ok tt))).
  { unfold two_files. rewrite pbind_eq, C1. cbn [negb]. fold s1. rewrite pbind_eq. rewrite (write_here s1 d f1 i1 c1 R1 K1). cbn [fst snd].
    fold s2. rewrite (write_here s2 d f2 i2 c2 D2 K2). reflexivity. }
  unfold result, final, crash_states. rewrite E. cbn [fst snd]. split; [reflexivity|]. split; [|split].
  - split; [|split].
    + intros f c [H|[H|[]]]; injection H as <- <-; [apply (proj1 (proj2 (Q2 c2)))|apply (proj2 (proj2 (Q2 c2)))].
    + intros q r Hq. destruct r as [|x r].
      * rewrite app_nil_r in Hq. subst q. apply Q2.
      * destruct (Q2 c2) as (Q2a & _). apply (kind_prefix_dir _ q (x :: r) KDir); [rewrite <- Hq; exact Q2a|discriminate].
    + intros q H1 H2. rewrite P2. destruct (path_dec q (d ++ [f2])) as [Hq|_]; [exfalso; exact (H1 f2 c2 (or_intror (or_introl eq_refl)) Hq)|].
      unfold s2. rewrite P1. destruct (path_dec q (d ++ [f1])) as [Hq|_]; [exfalso; exact (H1 f1 c1 (or_introl eq_refl) Hq)|]. apply R3. exact H2.
  - intros s' [Hs'|Hs'].
    { apply left_before; subst s'; reflexivity. }
    apply in_app_or in Hs'. destruct Hs' as [Hs'|Hs'].
    { destruct (C2 s' (or_intror Hs')) as [Ha Hb]. apply left_before; [apply Ha|apply Ha|exact Hb]. }
    apply in_app_or in Hs'. destruct Hs' as [Hs'|Hs']; apply in_map_iff in Hs'; destruct Hs' as (c & <- & Hc).
    + destruct (Q1 c) as (A1 & A2 & A3). rewrite app_comm_cons in Hc. apply in_app_or in Hc. destruct Hc as [Hc|[<-|[]]].
      * apply left_first with c; assumption.
      * apply left_between; assumption.
    + destruct (Q2 c) as (A1 & A2 & A3). rewrite app_comm_cons in Hc. apply in_app_or in Hc. destruct Hc as [Hc|[<-|[]]].
      * apply left_second with c; assumption.
      * apply left_done; assumption.
  - exists s2. split; [|split; [exact D2|split; [exact F21|exact F22]]]. right. apply in_or_app. right. apply in_or_app. left.
    apply in_map_iff. exists c1. split; [reflexivity|]. rewrite app_comm_cons. apply in_or_app. right. left. reflexivity.
Qed.
Lemma two_files_refuse s d f1 i1 c1 f2 i2 c2 k : kind_at s d = Some k ->
  two_files false d f1 i1 c1 f2 i2 c2 s = ([], (s, Err WriteError)).
Proof. intros H. unfold two_files. rewrite pbind_eq, (check_dir_refuse s d k H). reflexivity. Qed.
