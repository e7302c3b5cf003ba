(** C28: the Decimator *)
From Coq Require Import String.
From Coq Require Qcanon.
From Verif Require Import Base.Prelude Base.Rounding Base.ListUtil Model.Sampling Model.Time Model.Decimate
  Spec.Sampling Spec.Time Spec.Decimate Proofs.EvalFreqs Proofs.TimeMeta Proofs.TimeProc Proofs.Factors Proofs.TimeData2
  Proofs.DecFactors Proofs.DecParams.
Open Scope Q_scope.

(** ** limit_denominator finds 1/f *)
Lemma frac_apart p q f : ~ (p # q) == (1 # f) ->
  1 / (inject_Z (Zpos q) * inject_Z (Zpos f)) <= Qabs ((p # q) - (1 # f)).
Proof.
  intros H.
  assert (E : (p # q) - (1 # f) == inject_Z (p * Zpos f - Zpos q) / (inject_Z (Zpos q) * inject_Z (Zpos f))).
  { unfold Qeq, Qminus, Qdiv, Qinv, Qmult, Qplus, inject_Z. cbn. rewrite ?Pos.mul_1_r. lia. }
  assert (N : (p * Zpos f - Zpos q <> 0)%Z).
  { intros Z0. apply H. unfold Qeq. cbn. lia. }
  rewrite E. 
  assert (P : 0 < inject_Z (Zpos q) * inject_Z (Zpos f)) by reflexivity.
  set (d := inject_Z (Zpos q) * inject_Z (Zpos f)) in *.
  assert (A : Qabs (inject_Z (p * Zpos f - Zpos q) / d) == Qabs (inject_Z (p * Zpos f - Zpos q)) / d).
  { unfold Qdiv. rewrite Qabs_Qmult. rewrite (Qabs_pos (/ d)); [reflexivity|]. apply Qlt_le_weak, Qinv_lt_0_compat. exact P. }
  rewrite A. apply Qle_shift_div_l; [exact P|].
  assert (B : 1 / d * d == 1) by (field; lra). rewrite B.
  change (Qabs (inject_Z (p * Zpos f - Zpos q))) with (inject_Z (Z.abs (p * Zpos f - Zpos q))).
  change 1 with (inject_Z 1). apply (proj1 (inject_Z_le _ _)). lia.
Qed.

Lemma Qred_1_f f : Qred (1 # f) = 1 # f.
Proof. apply Qcanon.Qred_iff. apply Z.gcd_1_l. Qed.

Lemma limit_den rnd D f fs r : good_rnd rnd -> (D <= 2 ^ 49)%Z -> (Zpos f <= D)%Z -> 0 < fs ->
  best_approx D (rnd (rnd (fs / inject_Z (Zpos f)) / fs)) r -> Qred r = 1 # f.
Proof.
  intros G HD Hf Hfs [B1 B2].
  set (x := rnd (rnd (fs / inject_Z (Zpos f)) / fs)) in *.
  assert (F0 : 0 < inject_Z (Zpos f)) by reflexivity.
  assert (Q0 : 0 < fs / inject_Z (Zpos f)) by (apply Qlt_shift_div_l; lra).
  destruct (rnd_pos_bounds rnd _ G (Qlt_le_weak _ _ Q0)) as [A1 A2].
  set (y := rnd (fs / inject_Z (Zpos f))) in *.
  set (g := 1 / inject_Z (Zpos f)) in *.
  assert (Eg : fs / inject_Z (Zpos f) == fs * g) by (unfold g; field; lra). rewrite Eg in A1, A2.
  assert (G0 : 0 < g) by (unfold g; apply Qlt_shift_div_l; lra).
  assert (Y1 : g * (1 - u) <= y / fs).
  { apply Qle_shift_div_l; [exact Hfs|]. lra. }
  assert (Y2 : y / fs <= g * (1 + u)).
  { apply Qle_shift_div_r; [exact Hfs|]. lra. }
  assert (Y0 : 0 <= y / fs) by lra.
  destruct (rnd_pos_bounds rnd _ G Y0) as [X1 X2]. fold x in X1, X2.
  assert (EX : Qabs ((1 # f) - x) <= g * (3 * u)).
  { assert (Eg2 : (1 # f) == g) by (unfold g; rewrite (Qmake_Qdiv 1 f); reflexivity).
    rewrite Eg2. apply (proj2 (Qabs_Qle_condition _ _)). split; lra. }
  pose proof (B2 1%Z f Hf) as C.
  assert (K : Qabs (Qred r - (1 # f)) <= g * (6 * u)).
  { assert (E : Qred r - (1 # f) == (r - x) - ((1 # f) - x)) by (rewrite Qred_correct; ring).
    rewrite E. apply Qle_trans with (Qabs (r - x) + Qabs ((1 # f) - x)).
    - unfold Qminus at 1. apply Qle_trans with (Qabs (r - x) + Qabs (- ((1#f) - x))); [apply Qabs_triangle|].
      rewrite Qabs_opp. lra.
    - lra. }
  rewrite <- (Qred_1_f f). rewrite <- (Qcanon.Qred_involutive r).
  apply Qred_complete.
  destruct (Qeq_dec (Qred r) (1 # f)) as [E|N]; [exact E|]. exfalso.
  destruct (Qred r) as [p q] eqn:ER. cbn [Qden] in B1.
  pose proof (frac_apart p q f N) as L.
  assert (Q1 : inject_Z (Zpos q) <= inject_Z (2 ^ 49)) by (apply (proj1 (inject_Z_le _ _)); lia).
  assert (Qq : 0 < inject_Z (Zpos q)) by reflexivity.
  assert (EL : 1 / (inject_Z (Zpos q) * inject_Z (Zpos f)) == g * (1 / inject_Z (Zpos q))) by (unfold g; field; split; lra).
  rewrite EL in L.
  assert (M : 1 / inject_Z (2 ^ 49) <= 1 / inject_Z (Zpos q)).
  { apply Qle_shift_div_l; [exact Qq|]. apply Qle_trans with (1 / inject_Z (2 ^ 49) * inject_Z (2 ^ 49)).
    - rewrite !(Qmult_comm (1 / inject_Z (2 ^ 49))). apply Qmult_le_compat_r; [exact Q1|]. discriminate.
    - discriminate. }
  change (1 / inject_Z (2 ^ 49)) with (1 # 562949953421312) in M.
  set (h := 1 / inject_Z (Zpos q)) in *.
  assert (g * (1 # 562949953421312) <= g * h) by (rewrite !(Qmult_comm g); apply Qmult_le_compat_r; lra).
  lra.
Qed.

Lemma ceil_div_1 n : ceil_div n 1 = n.
Proof. rewrite ceil_div_eq by lia. rewrite Z.div_1_r. lia. Qed.
Lemma ceil_div_div n a b : (1 <= a)%Z -> (1 <= b)%Z -> ceil_div (ceil_div n a) b = ceil_div n (a * b).
Proof. intros Ha Hb. rewrite !ceil_div_eq by nia. apply ceil_ceil; assumption. Qed.

Section Run.
  Variable rnd : Q -> Q.
  Hypothesis G : good_rnd rnd.
  Variable orc : oracles.
  Hypothesis GO : good_oracles orc.
  Variable D : Z.
  Hypothesis HD : (D <= 2 ^ 49)%Z.
  Hypothesis HL : forall x, best_approx D x (o_limit_denominator orc x).

  Lemma dec_step_spec b maxf td f td' : (3 <= maxf)%Z -> usable rnd td -> (1 <= f)%Z -> (b = true -> f <= D)%Z ->
    dec_step rnd orc b maxf td f = Ok td' ->
    usable rnd td' /\ n_samples (meta td') = ceil_div (n_samples (meta td)) f /\
    first_time (meta td') = first_time (meta td) /\ chans (meta td') = chans (meta td) /\
    length (rows td') = length (rows td) /\
    fs (meta td') = (if (f =? 1)%Z then fs (meta td) else rnd (fs (meta td) / inject_Z f)).
  Proof.
    intros Hm (C & Hfs & Hn) Hf HbD H. unfold dec_step in H.
    destruct (Z.eqb_spec f 1) as [->|N1].
    { injection H as <-. split; [split; auto|]. rewrite ceil_div_1. repeat split. }
    assert (FZ : 0 < inject_Z f) by (change 0 with (inject_Z 0); apply (proj1 (inject_Z_lt _ _)); lia).
    assert (F1 : 0 < rnd (fs (meta td) / inject_Z f)) by (apply (rnd_pos G); apply Qlt_shift_div_l; lra).
    destruct b.
    - destruct (Z.eqb_spec f 0); [lia|].
      destruct (resample_spec rnd orc _ td td' GO C H) as (R1 & R2 & R3 & R4 & R5 & R6 & R7).
      assert (EF : exists q, f = Zpos q) by (destruct f; try lia; eauto). destruct EF as [q ->].
      rewrite (limit_den rnd D q (fs (meta td)) _ G HD (HbD eq_refl) Hfs (HL _)) in R1. cbn [Qnum Qden] in R1.
      rewrite Z.mul_1_r in R1. 
      assert (Cn : consistent rnd td').
      { unfold resample in H. inv_bind H. injection H as <-. apply adjust_consistent; [exact C|]. split; [exact R2|].
        intros r Hr. cbn in R3. exact (R3 r Hr). }
      split; [split; [exact Cn|split; [rewrite R4; exact F1|rewrite R1, ceil_div_eq by lia; apply ceil_ge_1; lia]]|].
      auto 10.
    - destruct (Z.ltb_spec f 1); [lia|].
      destruct (decimate_spec rnd orc f maxf td td' GO Hf ltac:(lia) C H) as (R1 & R2 & R3 & R4 & R5 & R6 & R7).
      assert (Cn : consistent rnd td').
      { unfold decimate in H. inv_bind H. injection H as <-. apply adjust_consistent; [exact C|]. split; [exact R2|].
        intros r Hr. cbn in R1, R3. rewrite R1. exact (R3 r Hr). }
      split; [split; [exact Cn|split; [rewrite R4; exact F1|rewrite R1, ceil_div_eq by lia; apply ceil_ge_1; lia]]|].
      auto 10.
  Qed.

  Lemma dec_loop_spec b maxf ms : (3 <= maxf)%Z -> forall incs i0 td d l,
    usable rnd td -> Forall (fun f => (1 <= f)%Z /\ (b = true -> f <= D)%Z) incs ->
    dec_loop rnd orc b maxf ms incs i0 td = Ok (d, l) ->
    length d = length l /\ (length l <= length incs)%nat /\
    (forall j, (j < length l)%nat -> exists tdj,
       nth_error d j = Some ((i0 + Z.of_nat j)%Z, rows tdj) /\ nth_error l j = Some (level_of tdj) /\ usable rnd tdj /\
       n_samples (meta tdj) = ceil_div (n_samples (meta td)) (prodZ (firstn (S j) incs)) /\
       (ms <= n_samples (meta tdj))%Z /\
       first_time (meta tdj) = first_time (meta td) /\ chans (meta tdj) = chans (meta td) /\
       length (rows tdj) = length (rows td) /\
       fs (meta tdj) = div_chain rnd (fs (meta td)) (firstn (S j) incs)) /\
    ((length l < length incs)%nat ->
       (ceil_div (n_samples (meta td)) (prodZ (firstn (S (length l)) incs)) < ms)%Z).
  Proof.
    intros Hm. induction incs as [|f t IH]; intros i0 td d l U HF H; cbn [dec_loop] in H.
    - injection H as <- <-. cbn [length]. split; [reflexivity|]. split; [lia|]. split; intros; lia.
    - inversion HF as [|? ? [F1 F2] HF']; subst. inv_bind H.
      destruct (dec_step_spec b maxf td f a Hm U F1 F2 B) as (S1 & S2 & S3 & S4 & S5 & S6).
      destruct (Z.ltb_spec (n_samples (meta a)) ms) as [L|L].
      + injection H as <- <-. cbn [length]. split; [reflexivity|]. split; [lia|]. split; [intros; lia|].
        intros _. cbn [firstn prodZ]. rewrite Z.mul_1_r. rewrite <- S2. exact L.
      + destruct (dec_loop rnd orc b maxf ms t (i0 + 1) a) as [[d' l']|e] eqn:E; cbv beta iota delta [bind] in H; [|discriminate].
        injection H as <- <-.
        destruct (IH _ _ _ _ S1 HF' E) as (I1 & I2 & I3 & I4).
        assert (PP : forall k, (1 <= prodZ (firstn k t))%Z).
        { intros k. apply prodZ_pos. intros x Hx. rewrite Forall_forall in HF'. apply HF'. rewrite <- (firstn_skipn k t). apply in_or_app. left. exact Hx. }
        cbn [length]. split; [lia|]. split; [lia|]. split.
        * intros [|j] Hj.
          -- exists a. cbn [nth_error]. rewrite Z.add_0_r. cbn [firstn prodZ div_chain]. rewrite Z.mul_1_r.
             split; [reflexivity|]. split; [reflexivity|]. auto 10.
          -- destruct (I3 j ltac:(lia)) as (tdj & J1 & J2 & J3 & J4 & J5 & J6 & J7 & J8 & J9).
             exists tdj. cbn [nth_error]. replace (i0 + Z.of_nat (S j))%Z with (i0 + 1 + Z.of_nat j)%Z by lia.
             split; [exact J1|]. split; [exact J2|]. split; [exact J3|].
             rewrite firstn_cons. cbn [prodZ div_chain]. rewrite <- ceil_div_div by (try exact F1; apply PP). rewrite <- S2, <- S6.
             split; [exact J4|]. split; [exact J5|]. rewrite J6, J7, J8. auto.
        * intros Hl. rewrite firstn_cons. cbn [prodZ]. rewrite <- ceil_div_div by (try exact F1; apply PP). rewrite <- S2.
          apply I4. lia.
  Qed.
End Run.

(** exact value of the sampling frequency *)
Lemma prodZ_posF l : Forall (fun f => (1 <= f)%Z) l -> (1 <= prodZ l)%Z.
Proof. intros H. apply prodZ_pos. apply Forall_forall. exact H. Qed.
Lemma div_chain_exact fs l : Forall (fun f => (1 <= f)%Z) l -> div_chain exact fs l == fs / inject_Z (prodZ l).
Proof.
  revert fs. induction l as [|f t IH]; intros fs H; [cbn; field|].
  inversion H as [|? ? H1 H2]; subst. cbn [div_chain prodZ]. rewrite IH by exact H2.
  pose proof (prodZ_posF t H2) as P.
  assert (A : 0 < inject_Z f) by (change 0 with (inject_Z 0); apply (proj1 (inject_Z_lt _ _)); lia).
  assert (B : 0 < inject_Z (prodZ t)) by (change 0 with (inject_Z 0); apply (proj1 (inject_Z_lt _ _)); lia).
  rewrite inject_Z_mult. destruct (Z.eqb_spec f 1) as [->|].
  - change (inject_Z 1) with 1. field. lra.
  - unfold exact. field. split; lra.
Qed.
Lemma div_chain_two rnd fs l : good_rnd rnd -> is_float fs -> Forall (fun f => exists k : nat, f = (2 ^ Z.of_nat k)%Z) l ->
  div_chain rnd fs l == fs / inject_Z (prodZ l).
Proof.
  intros G. revert fs. induction l as [|f t IH]; intros fs FF H; [cbn; field|].
  inversion H as [|? ? [k Hk] H2]; subst. cbn [div_chain prodZ].
  assert (P : (1 <= prodZ t)%Z).
  { apply prodZ_posF. apply Forall_forall. intros x Hx. rewrite Forall_forall in H2. destruct (H2 x Hx) as [j ->].
    apply (Z.pow_le_mono_r 2 0 (Z.of_nat j)); lia. }
  assert (B : 0 < inject_Z (prodZ t)) by (change 0 with (inject_Z 0); apply (proj1 (inject_Z_lt _ _)); lia).
  assert (P2 : inject_Z (2 ^ Z.of_nat k) == pow2 (Z.of_nat k)) by (symmetry; apply pow2_Z; lia).
  pose proof (pow2_pos (Z.of_nat k)) as PP.
  assert (E : fs / inject_Z (2 ^ Z.of_nat k) == fs * pow2 (- Z.of_nat k)). { rewrite P2. unfold Qdiv. rewrite pow2_inv. reflexivity. }
  set (fs' := if (2 ^ Z.of_nat k =? 1)%Z then fs else rnd (fs / inject_Z (2 ^ Z.of_nat k))).
  assert (E' : fs' == fs / inject_Z (2 ^ Z.of_nat k)).
  { unfold fs'. destruct (Z.eqb_spec (2 ^ Z.of_nat k) 1) as [->|]; [change (inject_Z 1) with 1; field|].
    rewrite (gr_comp _ G _ _ E), E. apply is_float_rnd; [exact G|]. apply is_float_scale. exact FF. }
  rewrite (IH fs').
  - rewrite E'. rewrite inject_Z_mult, P2. field. split; lra.
  - apply (is_float_comp (fs * pow2 (- Z.of_nat k))); [rewrite E', E; reflexivity|]. apply is_float_scale. exact FF.
  - exact H2.
Qed.

(** what a level of the decimated data is *)
Lemma find_level {A} (d : list (Z * A)) j x : (forall i k y, nth_error d i = Some (k, y) -> k = Z.of_nat i) ->
  nth_error d j = Some (Z.of_nat j, x) -> find (fun kv => Z.eqb (fst kv) (Z.of_nat j)) d = Some (Z.of_nat j, x).
Proof.
  intros Hk Hj.
  assert (K : forall l i0 m, (forall i k y, nth_error l i = Some (k, y) -> k = (Z.of_nat i0 + Z.of_nat i)%Z) ->
     nth_error l m = Some (Z.of_nat (i0 + m), x) -> find (fun kv : Z * A => Z.eqb (fst kv) (Z.of_nat (i0 + m))) l = Some (Z.of_nat (i0 + m), x)).
  { induction l as [|[k y] t IH]; intros i0 m Hl Hm; [destruct m; discriminate|].
    cbn [find fst]. pose proof (Hl 0%nat k y eq_refl) as K0. destruct m as [|m].
    - cbn in Hm. injection Hm as -> ->. rewrite Z.eqb_refl. reflexivity.
    - destruct (Z.eqb_spec k (Z.of_nat (i0 + S m))) as [E|_]; [lia|].
      replace (i0 + S m)%nat with (S i0 + m)%nat in * by lia. apply IH; [|exact Hm].
      intros i k' y' Hi. rewrite (Hl (S i) k' y' Hi). lia. }
  apply (K d 0%nat j); [|exact Hj]. intros i k y Hi. rewrite (Hk i k y Hi). lia.
Qed.

Lemma decimator_spec : forall rnd orc D b maxf p td dd, good_rnd rnd -> good_oracles orc -> (D <= 2 ^ 49)%Z ->
  (forall x, best_approx D x (o_limit_denominator orc x)) -> (3 <= maxf)%Z -> usable rnd td ->
  length (dp_increments p) = Z.to_nat (dp_n_levels p) ->
  Forall (fun f => (1 <= f)%Z /\ (b = true -> f <= D)%Z) (dp_increments p) ->
  decimator_run rnd orc b maxf p td = Ok dd ->
  let total := fun j => prodZ (firstn (S j) (dp_increments p)) in
  (1 <= dd_n_levels dd <= dp_n_levels p)%Z /\
  length (dd_data dd) = Z.to_nat (dd_n_levels dd) /\ length (dd_levels_md dd) = Z.to_nat (dd_n_levels dd) /\
  dd_fs dd = map lm_fs (dd_levels_md dd) /\
  dd_chans dd = chans (meta td) /\ dd_first dd = first_time (meta td) /\ dd_last dd = last_time (meta td) /\
  (forall j, (j < Z.to_nat (dd_n_levels dd))%nat -> exists md x,
     nth_error (dd_levels_md dd) j = Some md /\ get_level dd (Z.of_nat j) = Ok x /\
     length x = length (chans (meta td)) /\ (forall r, In r x -> Z.of_nat (length r) = lm_n_samples md) /\
     lm_n_samples md = ceil_div (n_samples (meta td)) (total j) /\ (dp_min_samples p <= lm_n_samples md)%Z /\
     lm_first md = first_time (meta td) /\
     lm_last md == stamp (lm_first md) (period rnd (lm_fs md)) (lm_n_samples md - 1) /\
     lm_fs md = div_chain rnd (fs (meta td)) (firstn (S j) (dp_increments p))) /\
  ((dd_n_levels dd < dp_n_levels p)%Z ->
     (ceil_div (n_samples (meta td)) (total (Z.to_nat (dd_n_levels dd))) < dp_min_samples p)%Z) /\
  (forall j, (j < 0 \/ dd_n_levels dd <= j)%Z -> exists e, get_level dd j = Err e).
Proof.
  intros rnd orc D b maxf p td dd G GO HD HL Hm U Ln HF H total.
  unfold decimator_run in H. rewrite <- Ln, firstn_all in H.
  destruct (dec_loop rnd orc b maxf (dp_min_samples p) (dp_increments p) 0 td) as [[d l]|e] eqn:E; cbv beta iota delta [bind] in H; [|discriminate].
  destruct (dec_loop_spec rnd G orc GO D HD HL b maxf _ Hm _ _ _ _ _ U HF E) as (A1 & A2 & A3 & A4).
  assert (KK : forall i k y, nth_error d i = Some (k, y) -> k = Z.of_nat i).
  { intros i k y Hi. assert (Li : (i < length l)%nat) by (rewrite <- A1; apply nth_error_Some; congruence).
    destruct (A3 i Li) as (tdj & J1 & _). rewrite Hi in J1. injection J1 as -> _. lia. }
  assert (ND : d <> []) by (destruct d; [discriminate H|discriminate]).
  assert (Hdd : dd = mkDecData (map lm_fs l) (chans (meta td)) (Z.of_nat (length l)) (first_time (meta td)) (last_time (meta td))
           (info (meta td)) l (history (meta td) ++ [COther "Decimator"%string]) d).
  { destruct d; [congruence|]. injection H as <-. reflexivity. }
  clear H. subst dd. cbn [dd_n_levels dd_data dd_levels_md dd_fs dd_chans dd_first dd_last].
  rewrite Nat2Z.id. rewrite Ln in A2. assert (1 <= length l)%nat by (rewrite <- A1; destruct d; [congruence|cbn; lia]).
  split; [lia|]. split; [exact A1|]. split; [reflexivity|]. split; [reflexivity|]. split; [reflexivity|].
  split; [reflexivity|]. split; [reflexivity|]. split; [|split].
  - intros j Hj. destruct (A3 j Hj) as (tdj & J1 & J2 & J3 & J4 & J5 & J6 & J7 & J8 & J9).
    exists (level_of tdj), (rows tdj). split; [exact J2|]. split.
    + unfold get_level. cbn [dd_n_levels dd_data]. destruct (Z.geb_spec (Z.of_nat j) (Z.of_nat (length l))); [lia|].
      rewrite (find_level d j (rows tdj)); [reflexivity|exact KK|]. rewrite Z.add_0_l in J1. exact J1.
    + destruct J3 as ((C1 & C2 & C3 & C4 & C5) & C6 & C7). cbn [lm_n_samples lm_first lm_last lm_fs level_of].
      split; [rewrite C2, J7; reflexivity|]. split; [exact C4|]. split; [exact J4|]. split; [exact J5|].
      split; [exact J6|]. split; [exact C5|exact J9].
  - intros Hl. apply A4. lia.
  - intros j Hj. unfold get_level. cbn [dd_n_levels dd_data].
    destruct (Z.geb_spec j (Z.of_nat (length l))); [eauto|]. destruct Hj as [Hj|]; [|lia].
    destruct (find (fun kv => Z.eqb (fst kv) j) d) as [[k y]|] eqn:Ef; [|eauto]. exfalso.
    apply find_some in Ef. destruct Ef as [I1 I2]. cbn in I2. apply Z.eqb_eq in I2. apply In_nth_error in I1.
    destruct I1 as [i Hi]. pose proof (KK i k y Hi). lia.
Qed.

(** with too few samples on level 0 nothing is returned: KeyError *)
Lemma decimator_short : forall rnd orc b maxf p td f rest, good_rnd rnd -> 
  dp_increments p = f :: rest -> (1 <= dp_n_levels p)%Z -> f = 1%Z -> (n_samples (meta td) < dp_min_samples p)%Z ->
  decimator_run rnd orc b maxf p td = Err KeyError.
Proof.
  intros rnd orc b maxf p td f rest G E Hn -> Hl. unfold decimator_run. rewrite E.
  destruct (Z.to_nat (dp_n_levels p)) as [|k] eqn:Ek; [lia|]. rewrite firstn_cons. cbn [dec_loop dec_step Z.eqb Pos.eqb].
  cbv beta iota delta [bind]. apply Z.ltb_lt in Hl. unfold dec_step. cbn [Z.eqb Pos.eqb]. rewrite Hl. reflexivity.
Qed.
