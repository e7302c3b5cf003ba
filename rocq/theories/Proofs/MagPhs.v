(** Proofs for property C105. *)
From Coq Require Import String.
From Verif Require Import Base.Prelude Base.ListUtil Base.NdArray Base.Cplx Model.Sampling Model.Time Model.Decimate Model.Window Model.Spectra
  Model.MagPhs Spec.MagPhs.
Open Scope list_scope. Open Scope Q_scope.

Lemma abs_le x b : - b <= x -> x <= b -> Qabs x <= b.
Proof. intros H1 H2. apply Qabs_Qle_condition. split; assumption. Qed.
Lemma abs_inv x b : Qabs x <= b -> - b <= x /\ x <= b.
Proof. intros H. apply Qabs_Qle_condition in H. exact H. Qed.

Lemma float_mod_spec x t : 0 < t -> 0 <= float_mod x t /\ float_mod x t < t.
Proof.
  intros T. unfold float_mod. destruct (qfloor_spec (x / t)) as [A B]. set (k := inject_Z (qfloor (x / t))) in *. clearbody k.
  assert (E : x == t * (x / t)) by (field; lra).
  assert (M1 : t * k <= t * (x / t)) by (apply Qmult_le_l; assumption). assert (M2 : t * (x / t) < t * (k + 1)) by (apply Qmult_lt_l; assumption). lra.
Qed.
Lemma correction_spec t dd : 0 < t -> (exists n, unwrap_correction t dd == inject_Z n * t) /\ Qabs (dd + unwrap_correction t dd) <= t / 2 /\ (Qabs dd <= t / 2 -> unwrap_correction t dd == 0).
Proof.
  intros T. assert (H2 : t / 2 == t * (1 # 2)) by (unfold Qdiv; reflexivity). unfold unwrap_correction.
  destruct (float_mod_spec (dd - - (t / 2)) t T) as [A B]. set (m := float_mod (dd - - (t / 2)) t) in *.
  assert (EM : m == dd - - (t / 2) - t * inject_Z (qfloor ((dd - - (t / 2)) / t))) by reflexivity. set (k := qfloor ((dd - - (t / 2)) / t)) in *. clearbody m k.
  assert (NK : inject_Z (- k) == - inject_Z k) by (rewrite inject_Z_opp; reflexivity).
  assert (NK1 : inject_Z (- k + 1) == - inject_Z k + 1) by (rewrite inject_Z_plus, NK; reflexivity).
  destruct (Qle_bool (t / 2) (Qabs dd)) eqn:E.
  2: { assert (L : Qabs dd < t / 2) by (apply Qnot_le_lt; intros F; apply Qle_bool_iff in F; congruence). split; [exists 0%Z; change (inject_Z 0) with 0; lra|].
       split; [|intros _; reflexivity]. assert (L2 : Qabs dd <= t / 2) by lra. apply abs_inv in L2. apply abs_le; lra. }
  apply Qle_bool_iff in E.
  destruct (Qeq_bool (m + - (t / 2)) (- (t / 2)) && negb (Qle_bool dd 0)) eqn:S.
  - apply andb_prop in S. destruct S as [S1 S2]. apply Qeq_bool_iff in S1. apply negb_true_iff in S2. assert (P : 0 < dd) by (apply Qnot_le_lt; intros F; apply Qle_bool_iff in F; congruence).
    split; [exists (- k + 1)%Z; rewrite NK1; lra|]. split; [apply abs_le; lra|]. intros L. rewrite Qabs_pos in E, L by lra. lra.
  - split; [exists (- k)%Z; rewrite NK; lra|]. split; [apply abs_le; lra|]. intros L. assert (EQ : Qabs dd == t / 2) by lra.
    destruct (Qlt_le_dec 0 dd) as [P|P].
    + rewrite Qabs_pos in EQ by lra. exfalso. assert (k = 1)%Z.
      { assert (K0 : 0 <= t * (1 - inject_Z k)) by lra. assert (K1 : t * (1 - inject_Z k) < t) by lra.
        assert (K2 : 0 <= 1 - inject_Z k) by (apply (proj1 (Qmult_le_l 0 (1 - inject_Z k) t T)); lra). assert (K3 : 1 - inject_Z k < 1) by (apply (proj1 (Qmult_lt_l (1 - inject_Z k) 1 t T)); lra).
        assert (k <= 1)%Z by (rewrite Zle_Qle; change (inject_Z 1) with 1; lra). assert (0 < k)%Z by (rewrite Zlt_Qlt; change (inject_Z 0) with 0; lra). lia. }
      subst k. change (inject_Z 1) with 1 in *. assert (Z0 : Qeq_bool (m + - (t / 2)) (- (t / 2)) = true) by (apply Qeq_bool_iff; lra).
      rewrite Z0 in S. cbn [andb] in S. apply negb_false_iff in S. apply Qle_bool_iff in S. lra.
    + assert (AD : Qabs dd == - dd) by (rewrite Qabs_neg by lra; reflexivity). assert (k = 0)%Z.
      { assert (K0 : 0 <= t * (- inject_Z k)) by lra. assert (K1 : t * (- inject_Z k) < t) by lra.
        assert (K2 : 0 <= - inject_Z k) by (apply (proj1 (Qmult_le_l 0 (- inject_Z k) t T)); lra). assert (K3 : - inject_Z k < 1) by (apply (proj1 (Qmult_lt_l (- inject_Z k) 1 t T)); lra).
        assert (k <= 0)%Z by (rewrite Zle_Qle; change (inject_Z 0) with 0; lra). assert (-1 < k)%Z by (rewrite Zlt_Qlt; change (inject_Z (-1)) with (-1); lra). lia. }
      subst k. change (inject_Z 0) with 0 in *. lra.
Qed.

Lemma from_nth t l : 0 < t -> forall acc prev i a b, nth_error (prev + acc :: unwrap_from t acc prev l) i = Some a -> nth_error (prev + acc :: unwrap_from t acc prev l) (S i) = Some b -> Qabs (b - a) <= t / 2.
Proof.
  intros T. induction l as [|y r IH]; intros acc prev i a b A B; [destruct i; discriminate B|].
  cbn [unwrap_from] in A, B. destruct i as [|i].
  - cbn [nth_error] in A, B. injection A as <-. injection B as <-. destruct (correction_spec t (y - prev) T) as (_ & H & _).
    assert (E : y + (acc + unwrap_correction t (y - prev)) - (prev + acc) == y - prev + unwrap_correction t (y - prev)) by ring. setoid_rewrite E. exact H.
  - exact (IH _ _ i a b A B).
Qed.
Lemma from_turns t l : 0 < t -> forall acc prev, (exists n, acc == inject_Z n * t) -> Forall2 (fun a b => exists n : Z, b == a + inject_Z n * t) l (unwrap_from t acc prev l).
Proof.
  intros T. induction l as [|y r IH]; intros acc prev [n H]; cbn [unwrap_from]; [constructor|]. destruct (correction_spec t (y - prev) T) as ([k K] & _ & _).
  assert (X : acc + unwrap_correction t (y - prev) == inject_Z (n + k) * t) by (rewrite inject_Z_plus, H, K; ring).
  constructor; [exists (n + k)%Z; rewrite X; reflexivity|]. apply IH. exists (n + k)%Z. exact X.
Qed.
Lemma unwrap_turns t p : 0 < t -> same_up_to_turns t p (np_unwrap t p).
Proof.
  intros T. destruct p as [|x r]; [split; [constructor|discriminate]|]. split.
  - constructor; [exists 0%Z; change (inject_Z 0) with 0; ring|]. apply from_turns; [exact T|]. exists 0%Z. change (inject_Z 0) with 0. ring.
  - cbn. intros a b A B. injection A as <-. injection B as <-. reflexivity.
Qed.
Lemma unwrap_steps t p : 0 < t -> small_steps t (np_unwrap t p).
Proof.
  intros T. destruct p as [|x r]; [intros [|i] a b A; discriminate A|]. intros i a b A B. cbn [np_unwrap] in A, B. destruct i as [|i].
  - cbn [nth_error] in A. injection A as <-. pose proof (from_nth t r T 0 x 0 (x + 0) b eq_refl B) as H. assert (E : b - (x + 0) == b - x) by ring. rewrite E in H. exact H.
  - exact (from_nth t r T 0 x (S i) a b A B).
Qed.
Lemma unwrap_id t p : 0 < t -> small_steps t p -> Forall2 Qeq (np_unwrap t p) p.
Proof.
  intros T H. destruct p as [|x r]; [constructor|]. constructor; [reflexivity|].
  assert (X : forall acc, acc == 0 -> Forall2 Qeq (unwrap_from t acc x r) r); [|apply X; reflexivity]. clear - T H. revert x H. induction r as [|y r IH]; intros x H acc E; cbn [unwrap_from]; [constructor|].
  destruct (correction_spec t (y - x) T) as (_ & _ & K). pose proof (K (H 0%nat x y eq_refl eq_refl)) as Z0.
  constructor; [rewrite E, Z0; ring|]. apply IH; [intros i a b A B; exact (H (S i) a b A B)|]. rewrite E, Z0. ring.
Qed.
Lemma unique_curve t p u v : 0 < t -> same_up_to_turns t p u -> same_up_to_turns t p v -> small_steps t u -> smaller_steps t v -> Forall2 Qeq u v.
Proof.
  intros T [U1 U2] [V1 V2] SU SV.
  assert (NTH : forall i b d, nth_error u i = Some b -> nth_error v i = Some d -> exists n : Z, b - d == inject_Z n * t).
  { revert U1 V1. clear. intros U1. revert v. induction U1 as [|a b p u [n Hn] U1 IH]; intros v V1 i x y X Y; [destruct i; discriminate X|]. inversion V1 as [|a' d p' v' [m Hm] V1' E1 E2]; subst.
    destruct i as [|i]; [|exact (IH _ V1' i x y X Y)]. cbn in X, Y. injection X as <-. injection Y as <-. exists (n - m)%Z. unfold Z.sub. rewrite inject_Z_plus, inject_Z_opp, Hn, Hm. ring. }
  assert (LE : length u = length v). { clear - U1 V1. assert (G : forall (P : Q -> Q -> Prop) l m, Forall2 P l m -> length m = length l) by (intros P l m F; induction F; cbn; congruence). rewrite (G _ _ _ U1), (G _ _ _ V1). reflexivity. }
  assert (P0 : forall i b d, nth_error u i = Some b -> nth_error v i = Some d -> b == d).
  { induction i as [|i IH]; intros b d B D.
    - destruct p as [|a p]; [inversion U1; subst; discriminate B|]. rewrite (U2 a b eq_refl B), (V2 a d eq_refl D). reflexivity.
    - destruct (nth_error u i) as [b0|] eqn:B0. 2: { apply nth_error_None in B0. assert (S i < length u)%nat by (apply nth_error_Some; congruence). lia. }
      destruct (nth_error v i) as [d0|] eqn:D0. 2: { apply nth_error_None in D0. assert (S i < length v)%nat by (apply nth_error_Some; congruence). lia. }
      pose proof (IH b0 d0 eq_refl eq_refl) as E. pose proof (SU i b0 b B0 B) as A1. pose proof (SV i d0 d D0 D) as A2. destruct (NTH (S i) b d B D) as [n N].
      assert (H2 : t / 2 == t * (1 # 2)) by (unfold Qdiv; reflexivity). apply abs_inv in A1. assert (A3 : Qabs (d - d0) <= t / 2) by lra. apply abs_inv in A3. destruct A1 as [A1 A1'], A3 as [A3 A3'].
      pose proof (Qle_Qabs (d - d0)) as A4. pose proof (Qle_Qabs (- (d - d0))) as A5. rewrite Qabs_opp in A5.
      assert (M1 : - t < inject_Z n * t) by lra. assert (M2 : inject_Z n * t < t) by lra.
      assert (n = 0)%Z.
      { assert (K1 : t * (-1) < t * inject_Z n) by lra. assert (K2 : t * inject_Z n < t * 1) by lra. apply (proj1 (Qmult_lt_l _ _ t T)) in K1. apply (proj1 (Qmult_lt_l _ _ t T)) in K2.
        assert (-1 < n)%Z by (rewrite Zlt_Qlt; exact K1). assert (n < 1)%Z by (rewrite Zlt_Qlt; exact K2). lia. }
      subst n. change (inject_Z 0) with 0 in N. lra. }
  clear - P0 LE. revert v P0 LE. induction u as [|b u IH]; intros [|d v] P0 LE; try discriminate LE; constructor; [exact (P0 0%nat b d eq_refl eq_refl)|].
  apply IH; [intros i x y X Y; exact (P0 (S i) x y X Y)|]. now injection LE.
Qed.
(** the arrays returned *)
Lemma mag_phs_vec absolute angle turn d level unwrap mag phs : get_mag_phs absolute angle turn d level unwrap = Ok (mag, phs) ->
  exists x, sd_at d level = Ok x /\ forall idx,
    (forall w, nd_vec mag idx = Some w -> exists v, nd_vec x idx = Some v) /\
    (forall w, nd_vec phs idx = Some w -> exists v, nd_vec x idx = Some v) /\
    (forall v, nd_vec x idx = Some v -> nd_vec mag idx = Some (map absolute v) /\ nd_vec phs idx = Some (if unwrap then np_unwrap turn (map angle v) else map angle v)).
Proof.
  unfold get_mag_phs. destruct (sd_at d level) as [x|] eqn:X; cbn [bind]; [|discriminate]. destruct (nd_last (fun v => Ok (map absolute v)) x) as [m|] eqn:M; cbn [bind]; [|discriminate].
  destruct (nd_last (fun v => Ok (map angle v)) x) as [q|] eqn:P; cbn [bind]; [|discriminate]. intros H. exists x. split; [reflexivity|]. intros idx. destruct unwrap.
  - destruct (nd_last (fun v => Ok (np_unwrap turn v)) q) as [q'|] eqn:P'; cbn [bind] in H; [|discriminate]. injection H as <- <-. split; [|split].
    + intros w W. destruct (nd_last_vec_r _ idx _ _ _ M W) as (v & _ & V). exists v. exact V.
    + intros w W. destruct (nd_last_vec_r _ idx _ _ _ P' W) as (v & _ & V). destruct (nd_last_vec_r _ idx _ _ _ P V) as (v' & _ & V'). exists v'. exact V'.
    + intros v V. destruct (nd_last_vec _ idx _ _ _ M V) as (w & W1 & W2). injection W1 as <-. destruct (nd_last_vec _ idx _ _ _ P V) as (w' & W3 & W4). injection W3 as <-.
      destruct (nd_last_vec _ idx _ _ _ P' W4) as (w' & W5 & W6). injection W5 as <-. split; assumption.
  - injection H as <- <-. split; [|split].
    + intros w W. destruct (nd_last_vec_r _ idx _ _ _ M W) as (v & _ & V). exists v. exact V.
    + intros w W. destruct (nd_last_vec_r _ idx _ _ _ P W) as (v & _ & V). exists v. exact V.
    + intros v V. destruct (nd_last_vec _ idx _ _ _ M V) as (w & W1 & W2). injection W1 as <-. destruct (nd_last_vec _ idx _ _ _ P V) as (w' & W3 & W4). injection W3 as <-. split; assumption.
Qed.
Lemma nd_last_ax {A B} (f : list A -> res (list B)) (l : list (nd A)) : scalars l = None -> nd_last f (Ax l) = (r <- mapM (nd_last f) l ;; Ok (Ax r)).
Proof.
  intros H. cbn [nd_last]. rewrite H. f_equal. clear H. induction l as [|x t IH]; [reflexivity|]. cbn [mapM]. destruct (nd_last f x); cbn [bind]; [|reflexivity]. rewrite IH. reflexivity.
Qed.
Lemma mapM_each {A B C} (f : B -> res C) (h : A -> B) (k : A -> C) l : (forall x, f (h x) = Ok (k x)) -> mapM f (map h l) = Ok (map k l).
Proof. intros H. induction l as [|x t IH]; [reflexivity|]. cbn [map mapM]. rewrite H. cbn [bind]. rewrite IH. reflexivity. Qed.
Section Last.
  Context {A B : Type} (g : list A -> list B) (G0 : g [] = []).
  Lemma last1 (v : list A) : nd_last (fun v => Ok (g v)) (nd1 v) = Ok (nd1 (g v)).
  Proof. unfold nd1. cbn [nd_last]. rewrite scalars_map. reflexivity. Qed.
  Lemma last2 (y : list (list A)) : nd_last (fun v => Ok (g v)) (nd2 y) = Ok (nd2 (map g y)).
  Proof.
    unfold nd2. destruct y as [|r t]; [cbn; rewrite G0; reflexivity|]. rewrite nd_last_ax by reflexivity. rewrite (mapM_each _ nd1 (fun v => nd1 (g v))) by exact last1. cbn [bind]. rewrite map_map. reflexivity.
  Qed.
  Lemma last3 (x : list (list (list A))) : nd_last (fun v => Ok (g v)) (nd3 x) = Ok (nd3 (map (map g) x)).
  Proof.
    unfold nd3. destruct x as [|r t]; [cbn; rewrite G0; reflexivity|]. rewrite nd_last_ax by reflexivity. rewrite (mapM_each _ nd2 (fun v => nd2 (map g v))) by exact last2. cbn [bind]. rewrite map_map. reflexivity.
  Qed.
End Last.
Lemma mag_phs_total absolute angle turn d level unwrap x : sd_at d level = Ok (nd3 x) ->
  exists phs, get_mag_phs absolute angle turn d level unwrap = Ok (nd3 (map (map (map absolute)) x), phs) .
Proof.
  intros H. unfold get_mag_phs. rewrite H. cbn [bind]. rewrite (last3 (map absolute) eq_refl), (last3 (map angle) eq_refl). cbn [bind].
  destruct unwrap; [|eexists; reflexivity]. rewrite (last3 (np_unwrap turn) eq_refl). eexists. reflexivity.
Qed.
Lemma polar absolute angle cis turn (v : list cq) p : (forall z, In z v -> ceq z (cscale (absolute z) (cis (angle z)))) ->
  (forall a b (n : Z), b == a + inject_Z n * turn -> ceq (cis b) (cis a)) -> same_up_to_turns turn (map angle v) p ->
  Forall2 ceq v (map (fun mp => cscale (fst mp) (cis (snd mp))) (combine (map absolute v) p)).
Proof.
  intros C P [T _]. revert p C T. induction v as [|z v IH]; intros p C T; cbn [map] in T; inversion T as [|a b l p' [n N] T']; subst; cbn [map combine fst snd]; constructor.
  - destruct (C z (or_introl eq_refl)) as [C1 C2]. destruct (P _ _ _ N) as [P1 P2]. split; cbn [re im cscale] in *; [setoid_rewrite P1|setoid_rewrite P2]; assumption.
  - apply IH; [|assumption]. intros z' Z'. apply C. right. exact Z'.
Qed.
