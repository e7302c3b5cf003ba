(** C15, C18-C20, C24 *)
From Coq Require Import String.
From Verif Require Import Base.Prelude Base.Rounding Base.ListUtil Base.Interp Model.Sampling Model.Time
  Spec.Sampling Spec.Time Proofs.Sampling Proofs.SamplingFloat Proofs.Period Proofs.TimeMeta Proofs.TimeProc
  Proofs.Factors Proofs.TimeData.
Open Scope Q_scope.

(** ** C15 *)
Lemma ceil_div_eq n f : (1 <= f)%Z -> ceil_div n f = ((n + f - 1) / f)%Z.
Proof.
  intros Hf. unfold ceil_div. apply qceil_unique.
  - pose proof (Z.div_mod (n + f - 1) f ltac:(lia)) as D. pose proof (Z.mod_pos_bound (n + f - 1) f ltac:(lia)) as M.
    assert (F : 0 < inject_Z f) by (change 0 with (inject_Z 0); rewrite <- inject_Z_lt; lia).
    apply Qlt_shift_div_l; [exact F|].
    assert (L : (((n + f - 1) / f - 1) * f < n)%Z) by lia.
    rewrite inject_Z_lt in L. rewrite inject_Z_mult in L. unfold Z.sub in L at 1. rewrite inject_Z_plus in L.
    change (inject_Z (- (1))) with (-(1)) in L. lra.
  - pose proof (Z.div_mod (n + f - 1) f ltac:(lia)) as D. pose proof (Z.mod_pos_bound (n + f - 1) f ltac:(lia)) as M.
    assert (F : 0 < inject_Z f) by (change 0 with (inject_Z 0); rewrite <- inject_Z_lt; lia).
    apply Qle_shift_div_r; [exact F|]. rewrite <- inject_Z_mult, <- inject_Z_le. lia.
Qed.

Lemma decimate_spec rnd orc f maxf td td' : good_oracles orc -> (1 <= f)%Z -> (2 <= maxf)%Z ->
  consistent rnd td -> decimate rnd orc f maxf td = Ok td' ->
  n_samples (meta td') = ceil_div (n_samples (meta td)) f /\
  length (rows td') = length (rows td) /\
  (forall r, In r (rows td') -> Z.of_nat (length r) = ceil_div (n_samples (meta td)) f) /\
  fs (meta td') = rnd (fs (meta td) / inject_Z f) /\
  first_time (meta td') = first_time (meta td) /\ chans (meta td') = chans (meta td) /\
  last_time (meta td') == stamp (first_time (meta td)) (period rnd (fs (meta td'))) (ceil_div (n_samples (meta td)) f - 1).
Proof.
  intros GO Hf Hm C H. unfold decimate in H. inv_bind H. injection H as <-.
  destruct (factors_ok_good orc GO _ _ Hf Hm) as [F1 F2]. pose proof C as (NE & _ & _ & Cn & _).
  pose proof (decimate_steps_shape orc _ _ _ _ GO F2 Cn B) as R. rewrite F1 in R. rewrite <- ceil_div_eq in R by exact Hf.
  destruct (rows_ok_nonempty _ _ _ R) as [_ W]; [destruct (rows td); [congruence|cbn; lia]|]. destruct R as [R1 R2].
  cbn. rewrite W. repeat split; auto. unfold stamp, period. ring.
Qed.

Lemma decimate_last_exact orc f maxf td td' : good_oracles orc -> (1 <= f)%Z -> (2 <= maxf)%Z ->
  consistent exact td -> 0 < fs (meta td) -> (1 <= n_samples (meta td))%Z ->
  (sub_micro_ns (1 / fs (meta td)) == 0 \/ 1 # 10000 <= sub_micro_ns (1 / fs (meta td))) ->
  decimate exact orc f maxf td = Ok td' ->
  last_time (meta td') <= last_time (meta td).
Proof.
  intros GO Hf Hm C Hfs Hn Hp H.
  destruct (decimate_spec exact orc f maxf td td' GO Hf Hm C H) as (_ & _ & _ & F & _ & _ & L).
  rewrite L. destruct C as (_ & _ & _ & _ & CL). rewrite CL. rewrite F. unfold stamp.
  set (n := n_samples (meta td)) in *.
  assert (P1 : period exact (fs (meta td)) == 1 / fs (meta td)) by (apply period_exact; exact Hp).
  assert (FZ : 0 < inject_Z f) by (change 0 with (inject_Z 0); rewrite <- inject_Z_lt; lia).
  assert (P2 : period exact (fs (meta td) / inject_Z f) <= inject_Z f * (1 / fs (meta td))).
  { unfold period. destruct (to_timedelta_exact_err (exact (1 / (fs (meta td) / inject_Z f)))) as [E _].
    assert (E2 : exact (1 / (fs (meta td) / inject_Z f)) == inject_Z f * (1 / fs (meta td))).
    { unfold exact. field. lra. }
    rewrite <- E2. lra. }
  set (d := 1 / fs (meta td)) in *. assert (D : 0 < d) by (apply Qlt_shift_div_l; lra).
  set (pf := period exact (fs (meta td) / inject_Z f)) in *. rewrite P1.
  rewrite ceil_div_eq by exact Hf.
  set (k := ((n + f - 1) / f - 1)%Z).
  assert (K0 : (0 <= k)%Z) by (unfold k; pose proof (ceil_ge_1 n f Hn Hf); lia).
  assert (K1 : (k * f <= n - 1)%Z).
  { unfold k. pose proof (Z.div_mod (n + f - 1) f ltac:(lia)). pose proof (Z.mod_pos_bound (n + f - 1) f ltac:(lia)). lia. }
  rewrite inject_Z_le in K0, K1. rewrite inject_Z_mult in K1. change (inject_Z 0) with 0 in K0.
  assert (A : inject_Z k * pf <= inject_Z k * (inject_Z f * d)).
  { rewrite !(Qmult_comm (inject_Z k)). apply Qmult_le_compat_r; assumption. }
  assert (Bq : inject_Z k * inject_Z f * d <= inject_Z (n - 1) * d) by (apply Qmult_le_compat_r; lra).
  change (period exact (exact (fs (meta td) / inject_Z f))) with pf. lra.
Qed.

Lemma resample_spec rnd orc nf td td' : good_oracles orc -> consistent rnd td ->
  resample rnd orc nf td = Ok td' ->
  let r := Qred (o_limit_denominator orc (rnd (nf / fs (meta td)))) in
  n_samples (meta td') = ceil_div (n_samples (meta td) * Qnum r) (Zpos (Qden r)) /\
  length (rows td') = length (rows td) /\
  (forall row, In row (rows td') -> Z.of_nat (length row) = n_samples (meta td')) /\
  fs (meta td') = nf /\ first_time (meta td') = first_time (meta td) /\ chans (meta td') = chans (meta td) /\
  last_time (meta td') == stamp (first_time (meta td)) (period rnd nf) (n_samples (meta td') - 1).
Proof.
  intros GO C H r. unfold resample in H. fold r in H. inv_bind H. injection H as <-. pose proof C as (NE & _ & _ & Cn & _).
  assert (R' : rows_ok (ceil_div (n_samples (meta td) * Qnum r) (Zpos (Qden r))) (length (rows td)) a).
  { rewrite ceil_div_eq by lia. eapply rows_ok_mapM; [exact Cn| |exact B]. intros x y E L.
    destruct (go_resample _ GO _ _ _ _ E) as (_ & _ & E2). rewrite E2, L. reflexivity. }
  destruct (rows_ok_nonempty _ _ _ R') as [_ W]; [destruct (rows td); [congruence|cbn; lia]|]. destruct R' as [R1 R2].
  cbn. rewrite W. repeat split; auto. unfold stamp, period. ring.
Qed.

(** ** C18 *)
Lemma upd_nth_nth {A} i (x : A) l j : nth_error (upd_nth i x l) j =
  if Nat.eqb i j then (if Nat.ltb i (length l) then Some x else None) else nth_error l j.
Proof. apply nth_error_upd. Qed.

Lemma fill_arg_spec all cs d acc acc' : NoDup all -> NoDup cs -> (forall c, In c cs -> In c all) ->
  fill_arg all cs d acc = Ok acc' ->
  length acc' = length acc /\
  forall i c, nth_error all i = Some c ->
    nth_error acc' i = match lookup c d with
                       | Some v => if chan_in c cs then Some v else nth_error acc i
                       | None => nth_error acc i end.
Proof.
  intros NA. revert acc. induction cs as [|c0 t IH]; intros acc Nd Hin H; cbn [fill_arg] in H.
  - injection H as <-. split; [reflexivity|]. intros i c _. destruct (lookup c d); reflexivity.
  - inversion Nd as [|? ? Nc Nt]; subst.
    assert (Hin' : forall c, In c t -> In c all) by (intros; apply Hin; right; assumption).
    destruct (lookup c0 d) as [v|] eqn:El.
    + destruct (chan_index all c0) as [j|] eqn:Ej; [|discriminate].
      destruct (Nat.ltb_spec j (length acc)) as [Lj|]; [|discriminate].
      destruct (IH _ Nt Hin' H) as [L S]. rewrite upd_nth_length in L. split; [exact L|].
      intros i c Hi. rewrite (S i c Hi). cbn [chan_in existsb].
      destruct (String.eqb_spec c c0) as [->|NE].
      * rewrite El. pose proof (chan_index_nodup _ _ _ NA Hi) as X. assert (i = j) by congruence. subst.
        cbn. destruct (chan_in c0 t) eqn:Ec; [apply chan_in_iff in Ec; contradiction|].
        apply nth_error_upd_eq. exact Lj.
      * cbn [orb]. change (existsb (String.eqb c) t) with (chan_in c t).
        assert (j <> i) by (intros ->; apply chan_index_nth in Ej; congruence).
        rewrite nth_error_upd_neq by assumption. reflexivity.
    + destruct (IH _ Nt Hin' H) as [L S]. split; [exact L|]. intros i c Hi. rewrite (S i c Hi). cbn [chan_in existsb].
      destruct (String.eqb_spec c c0) as [->|NE]; [rewrite El; reflexivity|]. reflexivity.
Qed.

Lemma fill_arg_ok all cs d acc : (forall c, In c cs -> In c all) -> length acc = length all ->
  exists acc', fill_arg all cs d acc = Ok acc'.
Proof.
  revert acc. induction cs as [|c t IH]; intros acc Hin L; cbn [fill_arg]; [eauto|].
  assert (Hin' : forall c, In c t -> In c all) by (intros; apply Hin; right; assumption).
  destruct (lookup c d) as [v|]; [|apply IH; assumption].
  destruct (chan_index_in all c (Hin c (or_introl eq_refl))) as (j & Ej & Nj). rewrite Ej.
  assert (j < length acc)%nat by (rewrite L; apply nth_error_Some; congruence).
  apply Nat.ltb_lt in H. rewrite H. apply IH; [assumption|]. rewrite upd_nth_length. exact L.
Qed.

Lemma rowwise_nth op d vs d' i r v : rowwise op d vs = Ok d' ->
  nth_error d i = Some r -> nth_error vs i = Some v ->
  nth_error d' i = Some (map (fun x => op x (Some v)) r).
Proof.
  unfold rowwise. destruct (Nat.eqb_spec (length d) (length vs)); [|discriminate]. intros H. injection H as <-.
  clear e. revert vs i. induction d as [|r0 d IH]; intros [|v0 vs] i A B; destruct i; try discriminate; cbn in *.
  - injection A as ->. injection B as ->. reflexivity.
  - apply IH; assumption.
Qed.


Section AddMult.
  Variable drnd : Q -> Q.
  Variable td : tdata.
  Variable a : addarg.
  Let m := meta td.
  Hypothesis NA : NoDup (chans m).
  Hypothesis HN : n_chans m = Z.of_nat (length (chans m)).
  Hypothesis HL : length (rows td) = length (chans m).

  Lemma arg_nth (z : Q) (comb : Q -> Q -> Q) (g : res (list Q)) :
    (forall v, a = AScalar v -> comb z v = v) ->
    g = (let zz := repeat z (Z.to_nat (n_chans m)) in
         match a with AScalar v => Ok (map (fun x => comb x v) zz) | ADict d => fill_arg (chans m) (chans m) d zz end) ->
    exists vs, g = Ok vs /\ length vs = length (chans m) /\
      forall i c, nth_error (chans m) i = Some c -> nth_error vs i = Some (amount a z c).
  Proof.
    intros Hc ->. cbv zeta. rewrite HN, Nat2Z.id.
    destruct a as [v|d].
    - eexists. split; [reflexivity|]. rewrite map_length, repeat_length. split; [reflexivity|].
      intros i c Hi. rewrite nth_error_map, nth_error_repeat by (apply nth_error_Some; congruence).
      cbn. f_equal. apply Hc. reflexivity.
    - destruct (fill_arg_ok (chans m) (chans m) d (repeat z (length (chans m)))) as [vs E]; [auto|apply repeat_length|].
      exists vs. split; [exact E|]. destruct (fill_arg_spec _ _ _ _ _ NA NA (fun c h => h) E) as [L S].
      rewrite repeat_length in L. split; [exact L|]. intros i c Hi. rewrite (S i c Hi). cbn.
      destruct (lookup c d); [|apply nth_error_repeat; apply nth_error_Some; congruence].
      rewrite (proj2 (chan_in_iff c (chans m))); [reflexivity|eapply nth_error_In; exact Hi].
  Qed.

  Lemma rowwise_total op vs : length vs = length (chans m) -> exists d, rowwise op (rows td) vs = Ok d /\ length d = length (rows td).
  Proof.
    intros E. unfold rowwise. rewrite HL, E, Nat.eqb_refl. eexists. split; [reflexivity|].
    rewrite map_length, combine_length. lia.
  Qed.

  Lemma add_spec : (forall v, a = AScalar v -> drnd (0 + v) = v) ->
    exists td', add drnd a td = Ok td' /\ chans (meta td') = chans m /\ length (rows td') = length (rows td) /\
    forall c r, row_of td c r -> row_of td' c (map (fun x => match x with Some y => Some (drnd (y + amount a 0 c)) | None => None end) r).
  Proof.
    intros HS. destruct (arg_nth 0 (fun x v => drnd (x + v)) (get_add drnd td a) HS) as (vs & E & L & S); [destruct a; reflexivity|].
    unfold add. rewrite E. cbn [bind]. destruct (rowwise_total (cadd drnd) vs L) as (d & Ed & Ld). rewrite Ed. cbn [bind].
    eexists. split; [reflexivity|]. split; [reflexivity|]. split; [exact Ld|].
    intros c r (i & A & B). exists i. split; [exact A|]. cbn. rewrite (rowwise_nth _ _ _ _ _ _ _ Ed B (S i c A)).
    reflexivity.
  Qed.
  Lemma mult_spec : (forall v, a = AScalar v -> drnd (1 * v) = v) ->
    exists td', multiply drnd a td = Ok td' /\ chans (meta td') = chans m /\ length (rows td') = length (rows td) /\
    forall c r, row_of td c r -> row_of td' c (map (fun x => match x with Some y => Some (drnd (y * amount a 1 c)) | None => None end) r).
  Proof.
    intros HS. destruct (arg_nth 1 (fun x v => drnd (x * v)) (get_mult drnd td a) HS) as (vs & E & L & S); [destruct a; reflexivity|].
    unfold multiply. rewrite E. cbn [bind]. destruct (rowwise_total (cmul drnd) vs L) as (d & Ed & Ld). rewrite Ed. cbn [bind].
    eexists. split; [reflexivity|]. split; [reflexivity|]. split; [exact Ld|].
    intros c r (i & A & B). exists i. split; [exact A|]. cbn. rewrite (rowwise_nth _ _ _ _ _ _ _ Ed B (S i c A)).
    reflexivity.
  Qed.
End AddMult.

Lemma Qplus_0_r_eq x : x + 0 = x.
Proof. destruct x as [n d]. unfold Qplus. cbn. rewrite Z.mul_1_r, Pos.mul_1_r, Z.add_0_r. reflexivity. Qed.
Lemma Qmult_1_r_eq x : x * 1 = x.
Proof. destruct x as [n d]. unfold Qmult. cbn. rewrite Z.mul_1_r, Pos.mul_1_r. reflexivity. Qed.
Lemma Qplus_0_l_eq x : 0 + x = x.
Proof. destruct x as [n d]. unfold Qplus. cbn. rewrite Z.mul_1_r. reflexivity. Qed.
Lemma Qmult_1_l_eq x : 1 * x = x.
Proof. destruct x as [n d]. unfold Qmult. cbn [Qnum Qden]. rewrite Z.mul_1_l. reflexivity. Qed.

Lemma map_cell_id (f : Q -> Q) (r : list cell) : (forall y, In (Some y) r -> f y = y) ->
  map (fun x => match x with Some y => Some (f y) | None => None end) r = r.
Proof.
  intros H. induction r as [|[y|] t IH]; cbn; [reflexivity| |].
  - rewrite (H y (or_introl eq_refl)). f_equal. apply IH. intros; apply H; right; assumption.
  - f_equal. apply IH. intros; apply H; right; assumption.
Qed.

(** rows are determined by channel name when names are distinct *)
Lemma row_of_unique td c r r' : NoDup (chans (meta td)) -> row_of td c r -> row_of td c r' -> r = r'.
Proof.
  intros N (i & A & B) (j & A' & B').
  assert (i = j) by (apply (proj1 (NoDup_nth_error _) N); [apply nth_error_Some; congruence|congruence]).
  subst. congruence.
Qed.

Lemma add_unnamed drnd td d td' c r : NoDup (chans (meta td)) ->
  n_chans (meta td) = Z.of_nat (length (chans (meta td))) -> length (rows td) = length (chans (meta td)) ->
  add drnd (ADict d) td = Ok td' -> lookup c d = None -> row_of td c r ->
  (forall y, In (Some y) r -> drnd y = y) -> row_of td' c r.
Proof.
  intros NA HN HL H El Hr Hd. destruct (add_spec drnd td (ADict d) NA HN HL) as (td2 & E & _ & _ & S); [discriminate|].
  rewrite H in E. injection E as <-. specialize (S c r Hr). cbn in S. rewrite El in S.
  rewrite map_cell_id in S; [exact S|]. intros y Hy. rewrite Qplus_0_r_eq. apply Hd, Hy.
Qed.
Lemma mult_unnamed drnd td d td' c r : NoDup (chans (meta td)) ->
  n_chans (meta td) = Z.of_nat (length (chans (meta td))) -> length (rows td) = length (chans (meta td)) ->
  multiply drnd (ADict d) td = Ok td' -> lookup c d = None -> row_of td c r ->
  (forall y, In (Some y) r -> drnd y = y) -> row_of td' c r.
Proof.
  intros NA HN HL H El Hr Hd. destruct (mult_spec drnd td (ADict d) NA HN HL) as (td2 & E & _ & _ & S); [discriminate|].
  rewrite H in E. injection E as <-. specialize (S c r Hr). cbn in S. rewrite El in S.
  rewrite map_cell_id in S; [exact S|]. intros y Hy. rewrite Qmult_1_r_eq. apply Hd, Hy.
Qed.

Lemma lookup_neg c d : lookup c (map (fun kv => (fst kv, - snd kv)) d) = option_map Qopp (lookup c d).
Proof.
  induction d as [|[k v] t IH]; cbn; [reflexivity|]. destruct (String.eqb k c); [reflexivity|exact IH].
Qed.
Lemma amount_neg a c : amount (neg_arg a) 0 c == - amount a 0 c.
Proof.
  destruct a as [v|d]; cbn; [reflexivity|]. rewrite lookup_neg. destruct (lookup c d); cbn; reflexivity.
Qed.

Lemma add_restore td a : NoDup (chans (meta td)) ->
  n_chans (meta td) = Z.of_nat (length (chans (meta td))) -> length (rows td) = length (chans (meta td)) ->
  exists td1 td2, add exact a td = Ok td1 /\ add exact (neg_arg a) td1 = Ok td2 /\
    forall c r, row_of td c r -> exists r', row_of td2 c r' /\ Forall2 ceq r' r.
Proof.
  intros NA HN HL. destruct (add_spec exact td a NA HN HL) as (td1 & E1 & C1 & L1 & S1); [intros; apply Qplus_0_l_eq|].
  assert (M : n_chans (meta td1) = n_chans (meta td)).
  { unfold add in E1. inv_bind E1. inv_bind E1. injection E1 as <-. reflexivity. }
  destruct (add_spec exact td1 (neg_arg a)) as (td2 & E2 & C2 & L2 & S2).
  { rewrite C1. exact NA. } { rewrite M, C1. exact HN. } { rewrite L1, C1. exact HL. } { intros; apply Qplus_0_l_eq. }
  exists td1, td2. split; [exact E1|]. split; [exact E2|].
  intros c r Hr. eexists. split; [apply S2, S1, Hr|]. rewrite map_map.
  clear - r. induction r as [|[y|] t IH]; cbn; constructor; auto; cbn; [|exact I].
  unfold exact. rewrite amount_neg. ring.
Qed.

(** ** C19 *)
Lemma lookup_in {A} c (d : list (chan * A)) v : lookup c d = Some v -> In (c, v) d.
Proof.
  induction d as [|[k w] t IH]; cbn; [discriminate|]. destruct (String.eqb_spec k c) as [->|]; intros H.
  - injection H as ->. left; reflexivity.
  - right. apply IH, H.
Qed.

Lemma apply_rows_spec td fncs d d' : NoDup (chans (meta td)) -> NoDup (map fst fncs) ->
  length (rows td) = length (chans (meta td)) -> length d = length (rows td) ->
  apply_rows td fncs d = Ok d' ->
  length d' = length d /\
  forall i c r, nth_error (chans (meta td)) i = Some c -> nth_error (rows td) i = Some r ->
    nth_error d' i = match lookup c fncs with Some f => Some (f r) | None => nth_error d i end.
Proof.
  intros NA. revert d. induction fncs as [|[c0 f0] t IH]; intros d Nf HL Hd H; cbn [apply_rows] in H.
  - injection H as <-. split; [reflexivity|]. intros; reflexivity.
  - cbn in Nf. inversion Nf as [|? ? N0 Nt]; subst.
    assert (NotIn : lookup c0 t = None).
    { destruct (lookup c0 t) as [f|] eqn:E; [|reflexivity]. exfalso. apply N0. apply lookup_in in E.
      change c0 with (fst (c0, f)). apply in_map. exact E. }
    destruct (chan_in c0 (chans (meta td))) eqn:EC.
    + inv_bind H. rename a into r0. unfold get_chan in B. rewrite EC in B.
      destruct (chan_index _ c0) as [j|] eqn:Ej; [|discriminate].
      destruct (nth_error (rows td) j) as [r'|] eqn:Er; [|discriminate]. injection B as ->.
      destruct (Nat.eqb _ _); [|discriminate].
      destruct (IH _ Nt HL ltac:(rewrite upd_nth_length; exact Hd) H) as [L S]. rewrite upd_nth_length in L. split; [exact L|].
      intros i c r Hi Hr. rewrite (S i c r Hi Hr). cbn [lookup].
      destruct (String.eqb_spec c0 c) as [<-|NE].
      * rewrite NotIn. pose proof (chan_index_nodup _ _ _ NA Hi) as X. assert (i = j) by congruence. subst.
        rewrite nth_error_upd_eq by (rewrite Hd; apply nth_error_Some; congruence). congruence.
      * destruct (lookup c t); [reflexivity|]. apply nth_error_upd_neq. intros ->. apply chan_index_nth in Ej. congruence.
    + destruct (IH _ Nt HL Hd H) as [L S]. split; [exact L|]. intros i c r Hi Hr. rewrite (S i c r Hi Hr). cbn [lookup].
      destruct (String.eqb_spec c0 c) as [<-|NE]; [|reflexivity].
      exfalso. apply nth_error_In, chan_in_iff in Hi. congruence.
Qed.

Lemma apply_function_named orc fncs td td' c r f : NoDup (chans (meta td)) -> NoDup (map fst fncs) ->
  length (rows td) = length (chans (meta td)) ->
  apply_function orc fncs td = Ok td' -> row_of td c r -> lookup c fncs = Some f -> row_of td' c (f r).
Proof.
  intros NA Nf HL H (i & Hi & Hr) El. unfold apply_function in H. inv_bind H. injection H as <-.
  destruct (apply_rows_spec td fncs (np_empty orc (rows td)) a NA Nf HL) as [_ S].
  { unfold np_empty. rewrite map_length, seq_length. reflexivity. } { exact B. }
  exists i. split; [exact Hi|]. cbn. rewrite (S i c r Hi Hr), El. reflexivity.
Qed.

(** a channel that is not named holds whatever np.empty returned *)
Lemma apply_function_unnamed orc fncs td td' c r i : NoDup (chans (meta td)) -> NoDup (map fst fncs) ->
  length (rows td) = length (chans (meta td)) ->
  apply_function orc fncs td = Ok td' -> nth_error (chans (meta td)) i = Some c -> nth_error (rows td) i = Some r ->
  lookup c fncs = None ->
  nth_error (rows td') i = Some (map (fun j => o_garbage orc i j) (seq 0 (length r))).
Proof.
  intros NA Nf HL H Hi Hr El. unfold apply_function in H. inv_bind H. injection H as <-.
  destruct (apply_rows_spec td fncs (np_empty orc (rows td)) a NA Nf HL) as [_ S].
  { unfold np_empty. rewrite map_length, seq_length. reflexivity. } { exact B. }
  cbn. rewrite (S i c r Hi Hr), El. unfold np_empty. rewrite nth_error_map.
  assert (Li : (i < length (rows td))%nat) by (apply nth_error_Some; congruence).
  assert (E : nth_error (seq 0 (length (rows td))) i = Some i).
  { rewrite (nth_error_nth' _ 0%nat) by (rewrite seq_length; exact Li). rewrite seq_nth by exact Li. reflexivity. }
  rewrite E. cbn. rewrite (nth_error_nth _ _ [] Hr). reflexivity.
Qed.

(** ** C20 *)
Lemma count_below_arange n k th : (0 <= k)%Z -> (k < n)%Z -> 0 < th -> th <= 1 ->
  forall s, (0 <= s <= k + 1)%Z ->
  count_below (map (fun k => exact (inject_Z k)) (map Z.of_nat (seq (Z.to_nat s) (Z.to_nat (n - s))))) (inject_Z k + th) = Z.to_nat (k + 1 - s).
Proof.
  intros Hk Hn T0 T1 s Hs. remember (Z.to_nat (n - s)) as c eqn:Ec. revert s Hs Ec. induction c as [|c IH]; intros s Hs Ec.
  - cbn. lia.
  - cbn [seq map count_below]. unfold exact at 1. rewrite Z2Nat.id by lia.
    destruct (Qltb (inject_Z s) (inject_Z k + th)) eqn:E.
    + apply Qltb_true in E. assert (s <= k)%Z.
      { assert (inject_Z s < inject_Z (k + 1)) as L by (rewrite inject_Z_plus; change (inject_Z 1) with 1; lra).
        rewrite <- inject_Z_lt in L. lia. }
      replace (S (Z.to_nat s)) with (Z.to_nat (s + 1)) by lia. rewrite IH by lia. lia.
    + apply Qltb_false in E. assert (k < s)%Z.
      { rewrite inject_Z_lt. lra. }
      lia.
Qed.

Lemma count_below_comp xs x y : x == y -> count_below xs x = count_below xs y.
Proof. intros E. induction xs as [|a t IH]; cbn; [reflexivity|]. rewrite (Qltb_comp a a (Qeq_refl a) x y E), IH. reflexivity. Qed.

Lemma interp1d_arange n (r : list cell) k th a b : (0 <= k)%Z -> (k + 1 < n)%Z -> 0 < th -> th <= 1 ->
  nth_error r (Z.to_nat k) = Some (Some a) -> nth_error r (Z.to_nat (k + 1)) = Some (Some b) ->
  exists v, interp1d exact (map (fun k => exact (inject_Z k)) (arange n)) r (exact (exact (inject_Z k) + exact th)) = Some v /\
    v == a + (b - a) * th.
Proof.
  intros Hk Hn T0 T1 Ha Hb. unfold interp1d.
  assert (CB : count_below (map (fun k => exact (inject_Z k)) (arange n)) (exact (exact (inject_Z k) + exact th)) = Z.to_nat (k + 1)).
  { unfold exact at 2 3 4. pose proof (count_below_arange n k th Hk ltac:(lia) T0 T1 0%Z ltac:(lia)) as C.
    rewrite Z.sub_0_r in C. unfold arange. rewrite Z.sub_0_r in C. exact C. }
  rewrite CB. rewrite map_length, arange_length.
  replace (Nat.max 1 (Nat.min (Z.to_nat (k + 1)) (Z.to_nat n - 1))) with (Z.to_nat (k + 1)) by lia.
  replace (Z.to_nat (k + 1) - 1)%nat with (Z.to_nat k) by lia.
  rewrite !nth_error_map, !arange_nth by lia. cbn [option_map]. rewrite Ha, Hb, !Z2Nat.id by lia.
  eexists. split; [reflexivity|]. unfold exact. rewrite inject_Z_plus. change (inject_Z 1) with 1. field.
  intro C. lra.
Qed.

Lemma shift_spec s td td' : 0 < fs (meta td) -> 0 < s -> consistent exact td ->
  shift_timestamps exact exact s td = Ok td' ->
  s < 1 / fs (meta td) /\
  n_samples (meta td') = (n_samples (meta td) - 1)%Z /\ fs (meta td') = fs (meta td) /\
  (exists d, to_timedelta exact s = d /\ first_time (meta td') == first_time (meta td) + d) /\
  length (rows td') = length (rows td) /\
  forall i r r', nth_error (rows td) i = Some r -> nth_error (rows td') i = Some r' ->
    Z.of_nat (length r') = (n_samples (meta td) - 1)%Z /\
    forall k a b, nth_error r k = Some (Some a) -> nth_error r (S k) = Some (Some b) ->
      exists v, nth_error r' k = Some (Some v) /\ v == a + (b - a) * (s * fs (meta td)).
Proof.
  intros Hfs Hs C H. unfold shift_timestamps, dt in H. destruct (Qle_bool (exact (1 / fs (meta td))) s) eqn:E; [discriminate|].
  apply Qle_bool_false in E. unfold exact in E at 1.
  destruct (Z.ltb_spec (n_samples (meta td)) 2) as [|Hn]; [discriminate|]. injection H as <-.
  split; [exact E|]. cbn [meta new_time_data with_history adjust_time_metadata n_samples fs first_time rows].
  split; [reflexivity|]. split; [reflexivity|]. split; [eexists; split; reflexivity|]. split; [apply map_length|].
  intros i r r' Hi Hi'. rewrite nth_error_map, Hi in Hi'. cbn [option_map] in Hi'. injection Hi' as <-.
  split; [rewrite !map_length, arange_length; lia|]. intros k a b Ha Hb.
  destruct C as (_ & _ & _ & Cn & _). specialize (Cn r (nth_error_In _ _ Hi)).
  assert (K : (S k < length r)%nat) by (apply nth_error_Some; congruence).
  assert (TH : exact (s / exact (1 / fs (meta td))) == s * fs (meta td)) by (unfold exact; field; lra).
  set (th := exact (s / exact (1 / fs (meta td)))) in *.
  assert (T0 : 0 < th) by (rewrite TH; nra).
  assert (T1 : th <= 1).
  { rewrite TH. assert (s * fs (meta td) <= 1 / fs (meta td) * fs (meta td)) by (apply Qmult_le_compat_r; lra).
    assert (1 / fs (meta td) * fs (meta td) == 1) by (field; lra). lra. }
  rewrite nth_error_map, nth_error_map, arange_nth by lia. cbn [option_map].
  destruct (interp1d_arange (n_samples (meta td)) r (Z.of_nat k) th a b) as (v & E1 & E2); try lia; try assumption.
  { rewrite Nat2Z.id. exact Ha. } { replace (Z.to_nat (Z.of_nat k + 1)) with (S k) by lia. exact Hb. }
  exists v. split; [f_equal; exact E1|]. rewrite E2, TH. reflexivity.
Qed.
Lemma shift_reject rnd drnd s td : rnd (1 / fs (meta td)) <= s -> shift_timestamps rnd drnd s td = Err ProcessRunError.
Proof.
  intros H. unfold shift_timestamps, dt. apply Qle_bool_iff in H. rewrite H. reflexivity.
Qed.

(** ** C24 *)
Lemma norm_cutoff {rnd} (G : good_rnd rnd) c ny : 0 < ny -> 0 <= c -> c <= ny -> 0 <= rnd (c / ny) /\ rnd (c / ny) <= 1.
Proof.
  intros Hn Hc Hl. split.
  - apply (gr_nonneg G). apply Qle_shift_div_l; lra.
  - assert (R1 : rnd 1 == 1) by (exact (gr_int G 1 ltac:(lia))).
    apply Qle_trans with (rnd 1); [|rewrite R1; apply Qle_refl]. apply (gr_mono _ G). apply Qle_shift_div_r; lra.
Qed.
Lemma nyquist_pos {rnd} (G : good_rnd rnd) m : 0 < fs m -> 0 < nyquist rnd m.
Proof. intros H. unfold nyquist. apply (rnd_pos G). change (fs m / 2) with (fs m * (1#2)). lra. Qed.

Lemma lowpass_valid {rnd} (G : good_rnd rnd) c m l : 0 < fs m -> 0 <= c ->
  lowpass_cutoffs rnd c m = Ok l -> exists w, l = [w] /\ 0 <= w /\ w <= 1.
Proof.
  intros Hf Hc H. unfold lowpass_cutoffs in H. destruct (Qltb (nyquist rnd m) c) eqn:E; [discriminate|].
  apply Qltb_false in E. injection H as <-. eexists. split; [reflexivity|].
  apply (norm_cutoff G); [apply (nyquist_pos G)| |]; assumption.
Qed.
Lemma bandpass_valid {rnd} (G : good_rnd rnd) lo hi m l : 0 < fs m -> 0 <= lo ->
  bandpass_cutoffs rnd lo hi m = Ok l -> exists w1 w2, l = [w1; w2] /\ 0 <= w1 /\ w1 <= w2 /\ w2 <= 1.
Proof.
  intros Hf Hc H. unfold bandpass_cutoffs in H. destruct (Qltb hi lo) eqn:E0; [discriminate|].
  destruct (Qltb (nyquist rnd m) hi) eqn:E; [discriminate|]. apply Qltb_false in E, E0. injection H as <-.
  pose proof (nyquist_pos G m Hf) as NP.
  eexists _, _. split; [reflexivity|].
  split; [apply (norm_cutoff G); lra|]. split; [|apply (norm_cutoff G); lra].
  apply (gr_mono _ G). apply Qle_shift_div_l; [exact NP|].
  assert (X : lo / nyquist rnd m * nyquist rnd m == lo) by (field; lra). rewrite X. exact E0.
Qed.
Lemma cutoff_reject rnd c lo hi m :
  (nyquist rnd m < c -> lowpass_cutoffs rnd c m = Err ProcessRunError /\ highpass_cutoffs rnd c m = Err ProcessRunError /\
      forall b, notch_cutoffs rnd c b m = Err ProcessRunError) /\
  (hi < lo \/ nyquist rnd m < hi -> bandpass_cutoffs rnd lo hi m = Err ProcessRunError).
Proof.
  split.
  - intros H. apply Qltb_true in H. unfold lowpass_cutoffs, highpass_cutoffs, notch_cutoffs. rewrite H. auto.
  - intros H. unfold bandpass_cutoffs. destruct (Qltb hi lo) eqn:E0; [reflexivity|].
    destruct (Qltb (nyquist rnd m) hi) eqn:E; [reflexivity|]. apply Qltb_false in E, E0. lra.
Qed.
(** Notch is fine when the whole band lies below the Nyquist frequency and the
    Nyquist frequency is at least 1 Hz (see the refutation for the other cases) *)
Lemma notch_valid_exact f band m l : 0 < fs m -> 0 < band -> 1 <= nyquist exact m ->
  0 <= f - band / 2 -> f + band / 2 <= nyquist exact m ->
  notch_cutoffs exact f (Some band) m = Ok l -> exists w1 w2, l = [w1; w2] /\ 0 <= w1 /\ w1 <= w2 /\ w2 <= 1.
Proof.
  intros Hf Hb H1 H0 H2 H. unfold notch_cutoffs in H. destruct (Qltb (nyquist exact m) f) eqn:E; [discriminate|].
  injection H as <-. set (ny := nyquist exact m) in *. unfold exact.
  change (band / 2) with (band * (1#2)) in *.
  assert (W2 : (f + band * (1 # 2)) / ny <= 1) by (apply Qle_shift_div_r; lra).
  assert (W1 : 0 <= (f - band * (1 # 2)) / ny) by (apply Qle_shift_div_l; lra).
  assert (W : (f - band * (1 # 2)) / ny <= (f + band * (1 # 2)) / ny).
  { apply Qle_shift_div_l; [lra|]. assert (X : (f - band * (1 # 2)) / ny * ny == f - band * (1 # 2)) by (field; lra). rewrite X. lra. }
  assert (Ef : Qltb ny ((f + band * (1 # 2)) / ny) = false) by (apply Qltb_false; lra). rewrite Ef.
  eexists _, _. split; [reflexivity|]. auto.
Qed.
