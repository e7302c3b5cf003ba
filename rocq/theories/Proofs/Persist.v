(** C55, C65: level data on disk. *)
From Coq Require Import String Ascii NArith.
From Verif Require Import Base.Prelude Base.Dec Base.FileSys Proofs.FileSys Model.Time Model.Persist Spec.Persist Proofs.PersistFs.
Open Scope list_scope.
Open Scope Z_scope.

Lemma dec_head n : exists c t, dec n = String c t /\ c <> "-"%char.
Proof.
  pose proof (undec_dec n) as H. destruct (dec n) as [|c t]; [discriminate|]. exists c, t. split; [reflexivity|].
  intros ->. cbn in H. discriminate.
Qed.
Lemma z_int_str z : z_int (z_str z) = Ok z.
Proof.
  unfold z_int, z_str. destruct z as [|p|p].
  - reflexivity.
  - destruct (dec_head (Z.to_N (Zpos p))) as (c & t & E & Hc). rewrite E.
    assert (G : (match String c t with String "-"%char u => (true, u) | _ => (false, String c t) end) = (false, String c t)).
    { destruct c as [b0 b1 b2 b3 b4 b5 b6 b7]. destruct b0, b1, b2, b3, b4, b5, b6, b7; try reflexivity. exfalso. apply Hc. reflexivity. }
    rewrite G, <- E, undec_dec. reflexivity.
  - rewrite undec_dec. reflexivity.
Qed.
Lemma z_str_inj a b : z_str a = z_str b -> a = b.
Proof. intros H. pose proof (z_int_str a) as K. rewrite H, z_int_str in K. congruence. Qed.

Section Keys.
  Context {A : Type}.
  Implicit Types data acc : list (Z * A).
  Lemma str_keys_spec data : forall pre, NoDup (map fst (pre ++ data)) ->
    str_keys data (map (fun kv => (z_str (fst kv), snd kv)) pre) = map (fun kv => (z_str (fst kv), snd kv)) (pre ++ data).
  Proof.
    induction data as [|[x y] data IH]; intros pre N; cbn [str_keys]; [rewrite app_nil_r; reflexivity|].
    rewrite set_assoc_new.
    - assert (E : map (fun kv => (z_str (fst kv), snd kv)) pre ++ [(z_str x, y)] = map (fun kv => (z_str (fst kv), snd kv)) (pre ++ [(x, y)])) by (rewrite map_app; reflexivity).
      rewrite E, IH.
      + rewrite <- app_assoc. reflexivity.
      + rewrite <- app_assoc. exact N.
    - apply assoc_none. rewrite map_map. cbn [fst]. intros H. apply in_map_iff in H. destruct H as ([x' y'] & E & H). cbn [fst] in E. apply z_str_inj in E. subst x'.
      rewrite map_app in N. cbn [map fst] in N. apply NoDup_remove_2 in N. apply N. apply in_or_app. left. apply in_map_iff. exists (x, y'). split; [reflexivity|exact H].
  Qed.
  Lemma zset_new k v acc : ~ In k (map fst acc) -> zset k v acc = acc ++ [(k, v)].
  Proof.
    induction acc as [|[x w] acc IH]; cbn; [reflexivity|]. intros H. destruct (Z.eqb_spec x k) as [->|E]; [exfalso; apply H; left; reflexivity|].
    rewrite IH; [reflexivity|]. intros K. apply H. right. exact K.
  Qed.
  Lemma int_keys_spec data : forall pre, NoDup (map fst (pre ++ data)) ->
    int_keys (map (fun kv => (z_str (fst kv), snd kv)) data) pre = Ok (pre ++ data).
  Proof.
    induction data as [|[x y] data IH]; intros pre N; cbn [int_keys map fst snd]; [rewrite app_nil_r; reflexivity|].
    rewrite z_int_str. cbn [bind]. rewrite zset_new.
    - rewrite IH.
      + rewrite <- app_assoc. reflexivity.
      + rewrite <- app_assoc. exact N.
    - rewrite map_app in N. cbn [map fst] in N. apply NoDup_remove_2 in N. intros H. apply N. apply in_or_app. left. exact H.
  Qed.
  Lemma keys_round data : NoDup (map fst data) -> int_keys (str_keys data []) [] = Ok data.
  Proof.
    intros N. pose proof (str_keys_spec data [] N) as E. cbn [map app] in E. rewrite E. exact (int_keys_spec data [] N).
  Qed.
  Lemma str_keys_archive data : levels_distinct data -> str_keys data [] = archive data.
  Proof. intros N. exact (str_keys_spec data [] N). Qed.
End Keys.

Section Levels.
  Context {B A : Type}.
  Variable mser : pmeta B -> string.
  Variable mparse : string -> res (pmeta B).
  Variable zser : list (string * A) -> string.
  Variable zparse : string -> res (list (string * A)).
  Variable inter : string -> list string.
  Notation write := (write_levels mser zser inter).
  Notation read := (read_levels mparse zparse).
  Notation read_md := (read_levels_md mparse).

  Lemma write_two who now ov d m data :
    write who now ov d m data = two_files ov d NPZ_FILE (inter (zser (str_keys data []))) (zser (str_keys data []))
      META_FILE (inter (mser (written who now m))) (mser (written who now m)).
  Proof. reflexivity. Qed.
  Lemma read_kinds who d s : read who d s =
    match kind_at s d with
    | None => Err ReadError
    | Some _ => match kind_at s (d ++ [META_FILE]) with
                | Some (KFile c) => m <- mparse c ;;
                    match kind_at s (d ++ [NPZ_FILE]) with
                    | Some (KFile z) => arc <- zparse z ;; data <- int_keys arc [] ;; Ok (seen who m, data)
                    | Some KDir => Err OSError
                    | None => Err FileNotFoundError
                    end
                | Some KDir => Err OSError
                | None => Err FileNotFoundError
                end
    end.
  Proof.
    unfold read_levels, read_levels_md. rewrite exists_kind. destruct (kind_at s d); cbn [negb bind]; [|reflexivity].
    rewrite !read_file_kind. destruct (kind_at s (d ++ [META_FILE])) as [[c|]|]; cbn [bind]; [|reflexivity|reflexivity].
    destruct (mparse c); cbn [bind]; [|reflexivity]. destruct (kind_at s (d ++ [NPZ_FILE])) as [[z|]|]; reflexivity.
  Qed.
  Lemma read_md_kinds d s : read_md d s =
    match kind_at s d with
    | None => Err ReadError
    | Some _ => match kind_at s (d ++ [META_FILE]) with
                | Some (KFile c) => mparse c
                | Some KDir => Err OSError
                | None => Err FileNotFoundError
                end
    end.
  Proof.
    unfold read_levels_md. rewrite exists_kind. destruct (kind_at s d); cbn [negb bind]; [|reflexivity].
    rewrite !read_file_kind. destruct (kind_at s (d ++ [META_FILE])) as [[c|]|]; reflexivity.
  Qed.

  Definition contents who now m (data : list (Z * A)) : list (string * string) :=
    [(NPZ_FILE, zser (str_keys data [])); (META_FILE, mser (written who now m))].

  Lemma npz_meta : NPZ_FILE <> META_FILE.
  Proof. discriminate. Qed.

  Lemma c65_round_trip who who' now ov s d m data :
    writable s d [NPZ_FILE; META_FILE] -> (ov = true \/ kind_at s d = None) -> levels_distinct data ->
    mparse (mser (written who now m)) = Ok (written who now m) ->
    zparse (zser (str_keys data [])) = Ok (str_keys data []) ->
    let s' := final (write who now ov d m data) s in
    result (write who now ov d m data) s = Ok tt /\
    read who' d s' = Ok (mkPMeta (pm_body m) (pm_hist m ++ [who; who']) (Some now), data) /\
    read_md d s' = Ok (mkPMeta (pm_body m) (pm_hist m ++ [who]) (Some now)) /\
    stored s d (contents who now m data) s'.
  Proof.
    intros W Hov Hd Hm Hz s'. subst s'. rewrite write_two.
    destruct (two_files_spec ov s d NPZ_FILE (inter (zser (str_keys data []))) (zser (str_keys data [])) META_FILE (inter (mser (written who now m)))
      (mser (written who now m)) npz_meta W Hov) as (R & St & _ & _).
    set (s' := final _ _) in *. destruct St as (S1 & S2 & S3).
    assert (Kd : kind_at s' d = Some KDir) by (apply (S2 d []); symmetry; apply app_nil_r).
    assert (Kz := S1 NPZ_FILE _ (or_introl eq_refl)). assert (Km := S1 META_FILE _ (or_intror (or_introl eq_refl))).
    split; [exact R|]. split; [|split].
    - rewrite read_kinds, Kd, Km, Kz, Hm. cbn [bind]. rewrite Hz. cbn [bind]. rewrite (keys_round data Hd). cbn [bind].
      unfold seen, written. cbn [pm_body pm_hist pm_info]. rewrite <- app_assoc. reflexivity.
    - rewrite read_md_kinds, Kd, Km. exact Hm.
    - split; [exact S1|]. split; [exact S2|exact S3].
  Qed.
  Lemma c65_refuses who now s d m data k : kind_at s d = Some k ->
    write who now false d m data s = ([], (s, Err WriteError)).
  Proof. intros H. rewrite write_two. exact (two_files_refuse s d _ _ _ _ _ _ k H). Qed.

  (** ** C55 *)
  Lemma c55_crash who who' now ov s d m data s' r :
    writable s d [NPZ_FILE; META_FILE] -> (ov = true \/ kind_at s d = None) -> levels_distinct data ->
    faithful mser mparse inter (written who now m) -> faithful zser zparse inter (str_keys data []) ->
    In s' (crash_states (write who now ov d m data) s) -> read who' d s' = Ok r ->
    r = (seen who' (written who now m), data) \/
    read who' d s = Ok r \/
    (exists old, read_md d s = Ok old /\ r = (seen who' old, data)).
  Proof.
    intros W Hov Hd [Hm Hm'] [Hz Hz'] Hs' Hr. rewrite write_two in Hs'.
    destruct (two_files_spec ov s d NPZ_FILE (inter (zser (str_keys data []))) (zser (str_keys data [])) META_FILE (inter (mser (written who now m)))
      (mser (written who now m)) npz_meta W Hov) as (_ & _ & C & _).
    specialize (C s' Hs'). rewrite read_kinds in Hr.
    destruct C as [K1 K2 K3|c Hc K1 K2 K3|K1 K2 K3|c Hc K1 K2 K3|K1 K2 K3].
    - right. left. destruct (kind_at s' d) as [k|]; [|discriminate]. rewrite K1, K2 in Hr. rewrite read_kinds.
      destruct (kind_at s d) as [k0|] eqn:Kd; [exact Hr|]. rewrite (kind_below s d [META_FILE] Kd) in Hr. discriminate.
    - exfalso. rewrite K3, K1, K2 in Hr. destruct (kind_at s (d ++ [META_FILE])) as [[t|]|]; [|discriminate|discriminate].
      destruct (mparse t); cbn [bind] in Hr; [|discriminate]. specialize (Hz' c Hc). destruct (zparse c) as [a0|]; [|discriminate]. exact (Hz' a0 eq_refl).
    - right. right. rewrite K3, K1, K2 in Hr. rewrite read_md_kinds. destruct (kind_at s (d ++ [META_FILE])) as [[t|]|] eqn:Km; [|discriminate|discriminate].
      destruct (mparse t) as [old|] eqn:Ho; cbn [bind] in Hr; [|discriminate]. rewrite Hz in Hr. cbn [bind] in Hr. rewrite (keys_round data Hd) in Hr. cbn [bind] in Hr.
      exists old. split; [|congruence]. destruct (kind_at s d) as [k|] eqn:Kd; [first [exact Ho|reflexivity]|]. rewrite (kind_below s d [META_FILE] Kd) in Km. discriminate.
    - exfalso. rewrite K3, K1, K2 in Hr. specialize (Hm' c Hc). destruct (mparse c) as [m0|]; [|discriminate]. exact (Hm' m0 eq_refl).
    - left. rewrite K3, K1, K2, Hm in Hr. cbn [bind] in Hr. rewrite Hz in Hr. cbn [bind] in Hr. rewrite (keys_round data Hd) in Hr. cbn [bind] in Hr. congruence.
  Qed.
  Lemma c55_fresh who who' now ov s d m data s' r :
    writable s d [NPZ_FILE; META_FILE] -> (ov = true \/ kind_at s d = None) -> levels_distinct data ->
    faithful mser mparse inter (written who now m) -> faithful zser zparse inter (str_keys data []) ->
    (forall old, read_md d s <> Ok old) ->
    In s' (crash_states (write who now ov d m data) s) -> read who' d s' = Ok r ->
    r = (seen who' (written who now m), data).
  Proof.
    intros W Hov Hd Hm Hz Hn Hs' Hr. destruct (c55_crash who who' now ov s d m data s' r W Hov Hd Hm Hz Hs' Hr) as [E|[E|(old & E & _)]].
    - exact E.
    - exfalso. unfold read_levels in E. destruct (read_md d s) as [m0|] eqn:Em; [exact (Hn m0 eq_refl)|discriminate].
    - exfalso. exact (Hn old E).
  Qed.
  Lemma c55_mixture who who' now s d m data old :
    writable s d [NPZ_FILE; META_FILE] -> levels_distinct data ->
    zparse (zser (str_keys data [])) = Ok (str_keys data []) -> read_md d s = Ok old ->
    exists s', In s' (crash_states (write who now true d m data) s) /\ read who' d s' = Ok (seen who' old, data).
  Proof.
    intros W Hd Hz Ho. rewrite write_two.
    destruct (two_files_spec true s d NPZ_FILE (inter (zser (str_keys data []))) (zser (str_keys data [])) META_FILE (inter (mser (written who now m)))
      (mser (written who now m)) npz_meta W (or_introl eq_refl)) as (_ & _ & _ & s' & Hs' & K1 & K2 & K3).
    exists s'. split; [exact Hs'|]. rewrite read_kinds, K1, K2, K3. rewrite read_md_kinds in Ho.
    destruct (kind_at s d); [|discriminate]. destruct (kind_at s (d ++ [META_FILE])) as [[t|]|]; [|discriminate|discriminate].
    rewrite Ho. cbn [bind]. rewrite Hz. cbn [bind]. rewrite (keys_round data Hd). reflexivity.
  Qed.
End Levels.
