From Coq Require Import String Sorted.
From Verif Require Import Base.Prelude Base.Rounding Base.B32 Base.ListUtil Base.Cplx Model.Sampling Model.Time Model.Decimate Model.Display Spec.Display
  Proofs.Sampling.
Open Scope list_scope. Open Scope Q_scope.

Lemma trunc_int x k : x == inject_Z k -> qtrunc x = k.
Proof.
  intros H. unfold qtrunc. destruct (Qltb x 0) eqn:E.
  - assert (X : - x == inject_Z (- k)) by (rewrite H, inject_Z_opp; reflexivity). rewrite (qfloor_comp _ _ X), qfloor_Z. lia.
  - rewrite (qfloor_comp _ _ H). apply qfloor_Z.
Qed.
Lemma nth_map_lt {A B} (f : A -> B) l p d d' : (p < length l)%nat -> nth p (map f l) d' = f (nth p l d).
Proof. revert p. induction l as [|x t IH]; intros [|p] H; cbn in *; try lia; [reflexivity|apply IH; lia]. Qed.
Lemma arange_nth_d n p : (p < Z.to_nat n)%nat -> nth p (arange n) 0%Z = Z.of_nat p.
Proof. intros H. apply nth_error_nth. apply arange_nth. exact H. Qed.

Lemma lttb_spec lttbc ycast data k : picks_points lttbc -> (3 <= k < Z.of_nat (length data))%Z ->
  exists ps, chosen (length data) (Z.to_nat k) ps /\
    apply_lttb b32 lttbc ycast data (Some k) = Ok (map (fun p => qtrunc (b32 (inject_Z (Z.of_nat p)))) ps, map (fun p => ycast (b32 (nth p data 0))) ps).
Proof.
  intros P Hk. unfold apply_lttb, lttb_downsample. assert (L : length (arange (Z.of_nat (length data))) = length data) by (rewrite arange_length; lia).
  rewrite L, Nat.eqb_refl. cbn [negb]. assert (E : (k >=? Z.of_nat (length data))%Z = false) by lia. rewrite E.
  destruct (P (map (fun i => b32 (inject_Z i)) (arange (Z.of_nat (length data)))) (map b32 data) k) as (ps & C & R).
  - rewrite !map_length, L. reflexivity.
  - rewrite map_length, L. exact Hk.
  - rewrite map_length, L in C. exists ps. split; [exact C|]. rewrite R. cbn [bind]. f_equal. destruct C as (_ & _ & _ & _ & C).
    f_equal; rewrite map_map; apply map_ext_in; intros p Hp; specialize (C p Hp).
    + rewrite (nth_map_lt _ _ _ 0%Z) by (rewrite L; exact C). rewrite arange_nth_d by lia. reflexivity.
    + rewrite (nth_map_lt _ _ _ 0) by exact C. reflexivity.
Qed.
Lemma lttb_small lttbc ycast data k : picks_points lttbc -> (Z.of_nat (length data) <= 2 ^ 24)%Z -> (3 <= k)%Z ->
  (forall y, In y data -> ycast (b32 y) = y) ->
  exists ps, chosen (length data) (Nat.min (Z.to_nat k) (length data)) ps /\
    apply_lttb b32 lttbc ycast data (Some k) = Ok (map Z.of_nat ps, map (fun p => nth p data 0) ps) \/
    data = [] /\ apply_lttb b32 lttbc ycast data (Some k) = Ok ([], []).
Proof.
  intros P N K Y. destruct (Z.lt_ge_cases k (Z.of_nat (length data))) as [L|L].
  - destruct (lttb_spec lttbc ycast data k P ltac:(lia)) as (ps & C & R). exists ps. left. replace (Nat.min (Z.to_nat k) (length data)) with (Z.to_nat k) by lia.
    split; [exact C|]. rewrite R. f_equal. destruct C as (_ & _ & _ & _ & C). f_equal; apply map_ext_in; intros p Hp; specialize (C p Hp).
    + apply trunc_int, b32_int. lia.
    + apply Y. apply nth_In. exact C.
  - destruct data as [|y0 data]; [exists []; right; split; [reflexivity|]; unfold apply_lttb, lttb_downsample; cbn; destruct (k >=? 0)%Z eqn:E; [reflexivity|cbn in L; lia]|].
    set (d := y0 :: data) in *. exists (seq 0 (length d)). left. split.
    + replace (Nat.min (Z.to_nat k) (length d)) with (length d) by lia. split.
      * clear. generalize 0%nat. induction (length d) as [|n IH]; intros b; cbn; constructor; [apply IH|]. apply Forall_forall. intros x Hx. apply in_seq in Hx. lia.
      * split; [apply seq_length|]. split; [exists (seq 1 (length data)); reflexivity|]. split.
        -- exists (seq 0 (length d - 1)). replace (length d) with (length d - 1 + 1)%nat at 1 by (cbn; lia). rewrite seq_app. reflexivity.
        -- intros p Hp. apply in_seq in Hp. lia.
    + unfold apply_lttb, lttb_downsample. rewrite arange_length, Nat2Z.id, Nat.eqb_refl. cbn [negb].
      assert (E : (k >=? Z.of_nat (length d))%Z = true) by lia. rewrite E. f_equal. f_equal.
      * unfold arange. rewrite Nat2Z.id. reflexivity.
      * symmetry. apply nth_error_ext'. intros i. rewrite nth_error_map. destruct (Nat.lt_ge_cases i (length d)) as [I|I].
        -- rewrite (nth_error_nth' _ 0%nat) by (rewrite seq_length; exact I). rewrite seq_nth by exact I. cbn [option_map plus]. symmetry. apply nth_error_nth'. exact I.
        -- rewrite (proj2 (nth_error_None _ _)) by (rewrite seq_length; exact I). symmetry. apply nth_error_None. exact I.
Qed.
Lemma lttb_large lttbc ycast data k : picks_points lttbc -> Z.of_nat (length data) = 16777218%Z -> (3 <= k < Z.of_nat (length data))%Z ->
  exists idx vals, apply_lttb b32 lttbc ycast data (Some k) = Ok (idx ++ [16777216%Z], vals ++ [ycast (b32 (nth (length data - 1) data 0))]).
Proof.
  intros P N K. destruct (lttb_spec lttbc ycast data k P K) as (ps & (_ & _ & _ & (init & E) & _) & R). rewrite R, E, !map_app. cbn [map].
  eexists _, _. f_equal. f_equal. f_equal. f_equal. replace (Z.of_nat (length data - 1)) with 16777217%Z by lia. vm_compute. reflexivity.
Qed.

(** ** phases *)
Lemma qmod_range x m : 0 < m -> 0 <= qmod x m /\ qmod x m < m.
Proof.
  intros M. unfold qmod. destruct (qfloor_spec (x / m)) as [A B]. assert (X : x == x / m * m) by (field; lra).
  set (q := inject_Z (qfloor (x / m))) in *. set (y := x / m) in *. rewrite X. split; nra.
Qed.
Lemma qmod_unique x y m k : 0 < m -> x == y + m * inject_Z k -> 0 <= y -> y < m -> qmod x m == y.
Proof.
  intros M E Y0 Y1. unfold qmod. assert (F : qfloor (x / m) = k).
  { apply qfloor_unique.
    - apply Qle_shift_div_l; [exact M|]. rewrite E. lra.
    - apply Qlt_shift_div_r; [exact M|]. rewrite E. lra. }
  rewrite F, E. ring.
Qed.
Lemma qmod_eq x y m : x == y -> qmod x m == qmod y m.
Proof. intros E. unfold qmod. assert (D : x / m == y / m) by (rewrite E; reflexivity). rewrite (qfloor_comp _ _ D), E. reflexivity. Qed.
Lemma qmod_same x y : same_angle x y -> qmod x 360 == qmod y 360.
Proof.
  intros [k E]. destruct (qmod_range y 360 ltac:(lra)) as [A B]. apply (qmod_unique x (qmod y 360) 360 (qfloor (y / 360) + k)); [lra| |exact A|exact B].
  rewrite E, inject_Z_plus. unfold qmod. ring.
Qed.
Lemma correction_turns dd : exists k, unwrap_correction dd == 360 * inject_Z k.
Proof.
  unfold unwrap_correction. destruct (Qltb (Qabs dd) 180); [exists 0%Z; reflexivity|].
  assert (G : qmod (dd + 180) 360 - 180 - dd == 360 * inject_Z (- qfloor ((dd + 180) / 360))).
  { unfold qmod. rewrite inject_Z_opp. ring. }
  destruct (Qeq_bool (qmod (dd + 180) 360 - 180) (-(180))) eqn:E; cbn [andb]; [destruct (Qltb 0 dd)|]; [|eexists; exact G|eexists; exact G].
  apply Qeq_bool_iff in E. exists (1 - qfloor ((dd + 180) / 360))%Z.
  assert (X : 180 - dd == qmod (dd + 180) 360 - 180 - dd + 360) by (rewrite E; ring). rewrite X, G.
  unfold Z.sub. rewrite inject_Z_plus. change (inject_Z 1) with 1. ring.
Qed.
Lemma correction_jump dd : Qabs (dd + unwrap_correction dd) <= 180.
Proof.
  unfold unwrap_correction. destruct (Qltb (Qabs dd) 180) eqn:S.
  - apply Qltb_true in S. assert (E : dd + 0 == dd) by ring. rewrite E. lra.
  - destruct (qmod_range (dd + 180) 360 ltac:(lra)) as [A B].
    destruct (Qeq_bool (qmod (dd + 180) 360 - 180) (-(180)) && Qltb 0 dd).
    + assert (E : dd + (180 - dd) == 180) by ring. rewrite E. vm_compute. discriminate.
    + apply Qabs_Qle_condition. lra.
Qed.

Lemma unwrap_from_spec l : forall prev total T, total == 360 * inject_Z T -> forall i x, nth_error l i = Some x ->
  exists u, nth_error (unwrap_from prev total l) i = Some u /\ same_angle u x.
Proof.
  induction l as [|y l IH]; intros prev total T HT i x H; [destruct i; discriminate|]. cbn [unwrap_from].
  destruct (correction_turns (y - prev)) as [k Hk].
  assert (HT' : total + unwrap_correction (y - prev) == 360 * inject_Z (T + k)) by (rewrite HT, Hk, inject_Z_plus; ring).
  destruct i as [|i]; cbn [nth_error] in *.
  - injection H as <-. eexists. split; [reflexivity|]. exists (T + k)%Z. rewrite HT'. reflexivity.
  - exact (IH y _ (T + k)%Z HT' i x H).
Qed.
Lemma unwrap_length l : length (unwrap l) = length l.
Proof.
  destruct l as [|x l]; [reflexivity|]. cbn [unwrap length]. f_equal. generalize x 0. induction l as [|y l IH]; intros p t; [reflexivity|]. cbn [unwrap_from length]. f_equal. apply IH.
Qed.
Lemma unwrap_spec l i x : nth_error l i = Some x -> exists u, nth_error (unwrap l) i = Some u /\ same_angle u x.
Proof.
  destruct l as [|y l]; [destruct i; discriminate|]. destruct i as [|i]; cbn [nth_error unwrap]; intros H.
  - injection H as <-. exists y. split; [reflexivity|]. exists 0%Z. change (inject_Z 0) with 0. ring.
  - apply (unwrap_from_spec l y 0 0%Z); [reflexivity|exact H].
Qed.
Lemma unwrap_from_jumps l : forall prev total i a b, nth_error ((prev + total) :: unwrap_from prev total l) i = Some a ->
  nth_error ((prev + total) :: unwrap_from prev total l) (S i) = Some b -> Qabs (b - a) <= 180.
Proof.
  induction l as [|y l IH]; intros prev total i a b Ha Hb; [destruct i; discriminate|]. cbn [unwrap_from] in *. destruct i as [|i].
  - cbn [nth_error] in Ha, Hb. injection Ha as <-. injection Hb as <-.
    assert (E : y + (total + unwrap_correction (y - prev)) - (prev + total) == (y - prev) + unwrap_correction (y - prev)) by ring.
    rewrite E. apply correction_jump.
  - cbn [nth_error] in Ha, Hb. exact (IH y (total + unwrap_correction (y - prev)) i a b Ha Hb).
Qed.
Lemma unwrap_jumps l i a b : nth_error (unwrap l) i = Some a -> nth_error (unwrap l) (S i) = Some b -> Qabs (b - a) <= 180.
Proof.
  destruct l as [|x l]; [destruct i; discriminate|]. cbn [unwrap]. intros Ha Hb.
  pose proof (unwrap_from_jumps l x 0) as K. destruct i as [|i].
  - cbn [nth_error] in Ha, Hb. injection Ha as <-. specialize (K 0%nat (x + 0) b eq_refl Hb). assert (E : b - x == b - (x + 0)) by ring. rewrite E. exact K.
  - cbn [nth_error] in Ha, Hb. exact (K (S i) a b Ha Hb).
Qed.

Definition wrapped_key (key : string) : bool := String.eqb key "ExHx" || String.eqb key "ExHy".
Lemma phase_wrapped angle key zs i z : wrapped_key key = true -> nth_error zs i = Some z ->
  exists p, nth_error (get_phase angle key zs) i = Some p /\ p == qmod (angle z) 360 - 180 /\ -(180) <= p /\ p < 180 /\ same_angle p (angle z + 180).
Proof.
  intros K H. unfold get_phase. unfold wrapped_key in K. rewrite K. assert (H' : nth_error (map angle zs) i = Some (angle z)) by (rewrite nth_error_map, H; reflexivity).
  destruct (unwrap_spec _ _ _ H') as (u & Hu & S). exists (qmod u 360 - 180). rewrite nth_error_map, Hu. split; [reflexivity|].
  pose proof (qmod_same _ _ S) as E. destruct (qmod_range (angle z) 360 ltac:(lra)) as [A B]. split; [lra|]. split; [lra|]. split; [lra|].
  exists (- qfloor (angle z / 360) - 1)%Z. rewrite E. unfold qmod, Z.sub. rewrite inject_Z_plus, inject_Z_opp. change (inject_Z (-(1))) with (-(1)). ring.
Qed.
Lemma phase_unwrapped angle key zs : wrapped_key key = false ->
  length (get_phase angle key zs) = length zs /\
  (forall i z, nth_error zs i = Some z -> exists p, nth_error (get_phase angle key zs) i = Some p /\ same_angle p (angle z)) /\
  (forall z, nth_error zs 0 = Some z -> nth_error (get_phase angle key zs) 0 = Some (angle z)) /\
  (forall i a b, nth_error (get_phase angle key zs) i = Some a -> nth_error (get_phase angle key zs) (S i) = Some b -> Qabs (b - a) <= 180).
Proof.
  intros K. unfold get_phase. unfold wrapped_key in K. rewrite K. split; [rewrite unwrap_length, map_length; reflexivity|]. split.
  - intros i z H. apply unwrap_spec. rewrite nth_error_map, H. reflexivity.
  - split; [|exact (unwrap_jumps _)]. intros z H. destruct zs as [|y zs]; [discriminate|]. cbn in *. injection H as ->. reflexivity.
Qed.
Lemma resistivity_spec cabs periods zs : (forall z, In z zs -> cabs z * cabs z == normsq z) -> length periods = length zs ->
  exists r, get_resistivity cabs periods zs = Ok r /\ length r = length zs /\ forall i t z, nth_error periods i = Some t -> nth_error zs i = Some z ->
    exists x, nth_error r i = Some x /\ x == t * normsq z / 5.
Proof.
  intros C L. unfold get_resistivity. rewrite L, Nat.eqb_refl. eexists. split; [reflexivity|]. split; [rewrite map_length, combine_length, L; lia|].
  intros i t z Ht Hz. rewrite nth_error_map. assert (E : nth_error (combine periods zs) i = Some (t, z)).
  { clear -Ht Hz. revert i zs Ht Hz. induction periods as [|p ps IH]; intros [|i] [|y zs] Ht Hz; try discriminate; cbn in *; [congruence|]. apply IH; assumption. }
  rewrite E. eexists. split; [reflexivity|]. cbn [fst snd]. rewrite (C z (nth_error_In _ _ Hz)). field.
Qed.

Lemma lttb_none f32 lttbc ycast data : apply_lttb f32 lttbc ycast data None = Ok (map Z.of_nat (seq 0 (length data)), data).
Proof. unfold apply_lttb, arange. rewrite Nat2Z.id. reflexivity. Qed.
