(** C40 (frequencies), C41, C42 *)
From Coq Require Import String.
From Verif Require Import Base.Prelude Base.Rounding Base.ListUtil Base.Interp Base.NdArray Base.Cplx
  Model.Sampling Model.Time Model.Decimate Model.Window Model.Spectra Spec.Time Spec.Decimate Spec.Spectra
  Proofs.Sampling Proofs.TimeMeta Proofs.EvalFreqs Proofs.DecFactors Proofs.DecParams Proofs.WindowRun Proofs.WindowFinal Proofs.Spectra.
Open Scope Q_scope.

(** ** the grid of the Fourier transform in exact arithmetic *)
Lemma rfft_grid n fs freqs : 0 < fs -> (1 <= n)%Z -> rfft_freqs exact n fs = Ok freqs ->
  length freqs = Z.to_nat (n / 2 + 1) /\
  forall i f, nth_error freqs i = Some f -> f == inject_Z (Z.of_nat i) * (fs / inject_Z n).
Proof.
  intros Hf Hn H. unfold rfft_freqs in H. destruct (Qeq_bool fs 0); [discriminate|].
  set (den := exact (inject_Z n * exact (1 / fs))) in *. destruct (Qeq_bool den 0) eqn:E; [discriminate|]. injection H as <-.
  assert (0 < inject_Z n) by (change 0 with (inject_Z 0); apply (proj1 (inject_Z_lt _ _)); lia).
  split; [rewrite map_length, arange_length; reflexivity|]. intros i f N. rewrite nth_error_map in N.
  destruct (Nat.lt_ge_cases i (Z.to_nat (n / 2 + 1))) as [L|L].
  - rewrite arange_nth in N by exact L. cbn [option_map] in N. assert (E2 : f = exact (inject_Z (Z.of_nat i) * exact (1 / den))) by congruence.
    rewrite E2. unfold den, exact. field. split; lra.
  - assert (nth_error (arange (n / 2 + 1)) i = None) as K by (apply nth_error_None; rewrite arange_length; exact L). rewrite K in N. discriminate.
Qed.
Lemma grid_ascending n fs freqs : 0 < fs -> (1 <= n)%Z -> rfft_freqs exact n fs = Ok freqs -> ascending freqs.
Proof.
  intros Hf Hn H i j x y L Hx Hy. destruct (rfft_grid n fs freqs Hf Hn H) as [_ G].
  rewrite (G _ _ Hx), (G _ _ Hy).
  assert (0 < inject_Z n) by (change 0 with (inject_Z 0); apply (proj1 (inject_Z_lt _ _)); lia).
  assert (P : 0 < fs / inject_Z n) by (apply Qlt_shift_div_l; lra).
  apply Qmult_lt_compat_r; [exact P|]. apply (proj1 (inject_Z_lt _ _)). lia.
Qed.
(** frequencies up to a quarter of the sampling frequency lie inside the grid *)
Lemma grid_covers n fs freqs f : 0 < fs -> (2 <= n)%Z -> rfft_freqs exact n fs = Ok freqs -> 0 <= f -> f <= fs / 4 ->
  exists i a b, nth_error freqs i = Some a /\ nth_error freqs (S i) = Some b /\ a <= f /\ f <= b /\ b - a == fs / inject_Z n.
Proof.
  intros Hf Hn H F0 F1. destruct (rfft_grid n fs freqs Hf ltac:(lia) H) as [L G].
  assert (Pn : 0 < inject_Z n) by (change 0 with (inject_Z 0); apply (proj1 (inject_Z_lt _ _)); lia).
  set (s := fs / inject_Z n) in *. assert (P : 0 < s) by (apply Qlt_shift_div_l; lra).
  assert (Es : s * inject_Z n == fs) by (unfold s; field; lra).
  set (x := f / s). assert (Ex : x * s == f) by (unfold x; field; lra).
  assert (X0 : 0 <= x) by (unfold x; apply Qle_shift_div_l; lra).
  assert (X1 : x <= inject_Z n * (1#4)).
  { unfold x. apply Qle_shift_div_r; [exact P|]. assert (inject_Z n * (1 # 4) * s == fs / 4) by (rewrite <- Es; field). rewrite H0. exact F1. }
  (* i = min (floor x) (n/2 - 1) *)
  assert (D : (2 * (n / 2) <= n /\ n <= 2 * (n / 2) + 1)%Z) by (pose proof (Z.div_mod n 2 ltac:(lia)); pose proof (Z.mod_pos_bound n 2 ltac:(lia)); lia).
  destruct (qfloor_spec x) as [A B].
  assert (Fl0 : (0 <= qfloor x)%Z).
  { assert (inject_Z (-1) < inject_Z (qfloor x)) by (change (inject_Z (-1)) with (-1); lra). apply (proj2 (inject_Z_lt _ _)) in H0. lia. }
  assert (Fl1 : (4 * qfloor x <= n)%Z).
  { apply (proj2 (inject_Z_le _ _)). rewrite inject_Z_mult. change (inject_Z 4) with 4. lra. }
  set (i := Z.to_nat (qfloor x)).
  assert (I1 : (S i < length freqs)%nat) by (rewrite L; unfold i; lia).
  destruct (nth_error freqs i) as [a|] eqn:Ea; [|apply nth_error_None in Ea; lia].
  destruct (nth_error freqs (S i)) as [b|] eqn:Eb; [|apply nth_error_None in Eb; lia].
  exists i, a, b. split; [exact Ea|]. split; [exact Eb|].
  rewrite (G _ _ Ea), (G _ _ Eb). rewrite Nat2Z.inj_succ. unfold Z.succ. rewrite inject_Z_plus. change (inject_Z 1) with 1.
  unfold i. rewrite Z2Nat.id by lia. fold s. set (k := inject_Z (qfloor x)) in *.
  split; [|split; [|ring]]; rewrite <- Ex; apply Qmult_le_compat_r; lra.
Qed.

(** ** Nyquist *)
Lemma level_in p level evals f : level_eval_freqs p level = Ok evals -> In f evals -> (0 <= level < dp_n_levels p)%Z /\
  In f (level_freqs_of (dp_eval_freqs p) (dp_per_level p) level).
Proof.
  unfold level_eval_freqs, check_level. destruct ((level <? 0)%Z || (level >=? dp_n_levels p)%Z) eqn:E; [discriminate|].
  cbn [bind]. intros H Hi. injection H as <-. split; [lia|].
  unfold slice in Hi. replace (dp_per_level p * level + dp_per_level p - dp_per_level p * level)%Z with (dp_per_level p) in Hi by lia.
  exact Hi.
Qed.

Lemma at_level_ok {A} p level (l : list A) x : at_level p level l = Ok x -> (0 <= level < dp_n_levels p)%Z /\ nth_error l (Z.to_nat level) = Some x.
Proof.
  unfold at_level, check_level. destruct ((level <? 0)%Z || (level >=? dp_n_levels p)%Z) eqn:E; [discriminate|]. cbn [bind].
  destruct (nth_error l (Z.to_nat level)); [|discriminate]. intros H. injection H as <-. split; [lia|reflexivity].
Qed.

Lemma small_power div k : (2 <= div)%Z -> (div ^ Z.of_nat k <= 2 ^ 53)%Z -> (k <= 53)%nat.
Proof.
  intros Hd H. destruct (Nat.le_gt_cases k 53) as [|L]; [assumption|]. exfalso.
  assert (2 ^ Z.of_nat k <= div ^ Z.of_nat k)%Z by (apply Z.pow_le_mono_l; lia).
  assert (2 ^ 54 <= 2 ^ Z.of_nat k)%Z by (apply Z.pow_le_mono_r; lia). lia.
Qed.

Lemma default_bound rnd pw fs i : good_rnd rnd -> good_pow2half pw -> 0 < fs -> nth_eval_freq rnd pw fs i <= fs * (3 # 10).
Proof.
  intros G P Hf. destruct (near rnd G pw P fs Hf i) as (F0 & _ & F2). set (f := nth_eval_freq rnd pw fs i) in *.
  assert (P1 : 1 <= pow2 (Z.of_nat i)). { rewrite <- pow2_0. apply pow2_le. lia. }
  destruct (Qlt_le_dec (fs * (3 # 10)) f) as [L|L]; [|exact L]. exfalso.
  assert (S : fs * (3#10) * (fs * (3#10)) <= f * f) by (apply Qmul_le_mono; lra).
  assert (S2 : f * f * 1 <= f * f * pow2 (Z.of_nat i)). { apply Qmult_le_l; [nra|exact P1]. }
  assert (F3 : fs / 4 * (fs / 4) * (1 + (1 # 140737488355328)) == fs * fs * (1#16) * (1 + (1 # 140737488355328))) by field.
  rewrite F3 in F2. set (q := f * f * pow2 (Z.of_nat i)) in *. assert (0 < fs * fs) by nra.
  assert (E : fs * (3#10) * (fs * (3#10)) == fs * fs * (9 # 100)) by ring. rewrite E in S.
  set (z := fs * fs) in *. lra.
Qed.

Lemma c40_nyquist : forall rnd pw fuel c fs p level evals f g k, good_rnd rnd -> good_pow2half pw -> 0 < fs -> is_float fs ->
  (2 <= ds_div_factor c)%Z -> (0 <= ds_per_level c)%Z -> setup_run rnd pw fuel c fs = Ok p ->
  level_eval_freqs p level = Ok evals -> In f evals -> get_fs p level = Ok g -> get_total_factor p level = Ok k -> (k <= 2 ^ 53)%Z ->
  f <= rnd (g / 2).
Proof.
  intros rnd pw fuel c fs p level evals f g k G P Hf FF Hd Hper H He Hi Hg Hk Kb.
  destruct (level_in _ _ _ _ He Hi) as [Hl Hin]. apply at_level_ok in Hg. destruct Hg as [_ Hg]. apply at_level_ok in Hk. destruct Hk as [_ Hk].
  destruct (c27_fs rnd pw fuel c fs p G Hf ltac:(lia) H) as [_ C27]. destruct (C27 _ _ _ Hk Hg Kb) as [C1 _]. 
  destruct (setup_run_inv _ _ _ _ _ _ H) as (freqs & factors & E1 & E2 & _ & _ & ->).
  cbn [dp_eval_freqs dp_per_level dp_n_levels dp_factors dp_dec_fs] in *.
  destruct (setup_factor_at _ _ _ _ _ _ _ _ E2 Hper Hk) as (m & M & D). rewrite Z2Nat.id in M by lia.
  destruct M as [Mi Mm]. pose proof (Mm f Hin) as Fm.
  assert (Gb : forall g', 0 <= g' -> g' * (1 - u) * (1#2) <= rnd (g' / 2)).
  { intros g' Hg'. destruct (rnd_pos_bounds rnd (g' / 2) G) as [B _]; [apply Qle_shift_div_l; lra|].
    assert (g' / 2 * (1 - u) == g' * (1 - u) * (1#2)) by field. lra. }
  unfold decimation_factor in D. destruct (Qltb fs (rnd (m * 4))) eqn:E.
  - (* above the range: factor 1, g = fs *)
    injection D as <-. assert (Gfs : g == fs).
    { unfold dec_fs in Hg. rewrite nth_error_map, Hk in Hg. cbn [option_map] in Hg.
      assert (E3 : g = rnd (fs * rnd (1 / rnd (inject_Z 1)))) by congruence. rewrite E3.
      assert (R1 : rnd (inject_Z 1) == 1) by (apply (gr_int G 1); lia).
      assert (R2 : rnd (1 / rnd (inject_Z 1)) == 1).
      { assert (X : 1 / rnd (inject_Z 1) == inject_Z 1) by (rewrite R1; reflexivity). rewrite (gr_comp _ G _ _ X). exact R1. }
      assert (X : fs * rnd (1 / rnd (inject_Z 1)) == fs) by (rewrite R2; ring). rewrite (gr_comp _ G _ _ X). apply is_float_rnd; assumption. }
    assert (X : g / 2 == fs / 2) by (rewrite Gfs; reflexivity). rewrite (gr_comp _ G _ _ X).
    unfold setup_eval_freqs in E1. destruct (ds_eval_freqs c) as [l|].
    + destruct (negb (Z.of_nat (length l) =? ds_n_levels c * ds_per_level c)%Z); [discriminate|].
      destruct (existsb (fun f0 => Qltb (rnd (fs / 2)) f0) l) eqn:Ex; [discriminate|]. injection E1 as <-.
      destruct (Qlt_le_dec (rnd (fs / 2)) f) as [L|L]; [|exact L]. exfalso.
      assert (existsb (fun f0 => Qltb (rnd (fs / 2)) f0) l = true); [|congruence].
      apply existsb_exists. exists f. split; [|apply Qltb_true; exact L].
      unfold level_freqs_of in Hin.
      assert (FS : forall (A : Type) n (z : list A) x, In x (firstn n z) -> In x z).
      { intros A n. induction n as [|n IH]; intros [|y z] x Hx; cbn in Hx; try contradiction. destruct Hx as [->|Hx]; [left; reflexivity|right; apply IH; exact Hx]. }
      assert (SK : forall (A : Type) n (z : list A) x, In x (skipn n z) -> In x z).
      { intros A n. induction n as [|n IH]; intros [|y z] x Hx; cbn in Hx; auto; try contradiction. right. apply IH. exact Hx. }
      eapply SK. eapply FS. exact Hin.
    + injection E1 as <-. pose proof (Gb fs ltac:(lra)) as Gb'. 
      assert (B : f <= fs * (3 # 10)).
      { unfold level_freqs_of in Hin. assert (In f (get_eval_freqs_size rnd pw fs (ds_n_levels c * ds_per_level c))).
        { rewrite <- (firstn_skipn (Z.to_nat (ds_per_level c * level)) (get_eval_freqs_size _ _ _ _)). apply in_or_app. right.
          rewrite <- (firstn_skipn (Z.to_nat (ds_per_level c)) (skipn _ _)). apply in_or_app. left. exact Hin. }
        unfold get_eval_freqs_size in H0. apply in_map_iff in H0. destruct H0 as (i & <- & _). apply default_bound; assumption. }
      lra.
  - apply Qltb_false in E. destruct (factor_loop_char _ _ _ _ _ _ _ D) as (n & _ & En & C & _). rewrite Z.mul_1_l in En.
    assert (Nk : (n <= 53)%nat) by (apply (small_power (ds_div_factor c)); [exact Hd|lia]).
    assert (T : rnd (m * 4) <= iter_fs rnd (ds_div_factor c) fs n).
    { destruct n as [|n]; [exact E|]. apply C. lia. }
    assert (U : inject_Z (Z.of_nat n) * u <= 54 * u).
    { apply Qmult_le_compat_r; [|lra]. change 54 with (inject_Z 54). apply (proj1 (inject_Z_le _ _)). lia. }
    destruct (iter_err rnd G (ds_div_factor c) Hd fs Hf n ltac:(lra)) as [_ B].
    rewrite <- En in B. pose proof (iter_pos rnd G (ds_div_factor c) Hd fs Hf n) as Ip.
    set (q := fs / inject_Z k) in *. set (it := iter_fs rnd (ds_div_factor c) fs n) in *.
    apply (proj1 (Qabs_Qle_condition _ _)) in C1. destruct C1 as [C1 _].
    destruct (Qlt_le_dec 0 m) as [Pm|Pm].
    + destruct (rnd_pos_bounds rnd (m * 4) G ltac:(lra)) as [R _].
      assert (it * (1 - 54 * u) <= q).
      { apply Qle_trans with (it * (1 - inject_Z (Z.of_nat n) * u)); [|exact B].
        rewrite !(Qmult_comm it). apply Qmult_le_compat_r; lra. }
      pose proof (Gb g) as Gb'. lra.
    + (* not positive: impossible anyway, and the bound is trivial *)
      assert (Q0 : 0 <= q).
      { apply Qle_trans with (it * (1 - inject_Z (Z.of_nat n) * u)); [|exact B]. apply Qmult_le_0_compat; [exact Ip|]. lra. }
      assert (g >= 0) by lra. apply Qle_trans with 0; [lra|]. apply (gr_nonneg G). apply Qle_shift_div_l; lra.
Qed.

(** ** C41 *)
Lemma c41 : forall rnd p n, (1 <= smooth_length rnd p n)%Z /\ Z.odd (smooth_length rnd p n) = true.
Proof.
  intros rnd p n. unfold smooth_length. set (l := qtrunc (rnd (p * inject_Z n))). clearbody l.
  destruct (Z.eqb_spec (l mod 2) 0) as [E|E].
  - assert (O : Z.odd (l + 1) = true). { rewrite Z.odd_add. rewrite Zmod_odd in E. destruct (Z.odd l); [discriminate|reflexivity]. }
    destruct (Z.ltb_spec (l + 1) 1); [split; [lia|reflexivity]|split; [lia|exact O]].
  - assert (O : Z.odd l = true). { rewrite Zmod_odd in E. destruct (Z.odd l); [reflexivity|contradiction E; reflexivity]. }
    destruct (Z.ltb_spec l 1); [split; [lia|reflexivity]|split; [lia|exact O]].
Qed.
(** the odd number just above the truncated product *)
Lemma c41_value : forall rnd p n, 0 <= rnd (p * inject_Z n) ->
  let x := rnd (p * inject_Z n) in let l := smooth_length rnd p n in
  x - 1 < inject_Z l /\ inject_Z l <= x + 1.
Proof.
  intros rnd p n H x l. unfold l, smooth_length. fold x in H |- *. unfold qtrunc.
  destruct (Qltb x 0) eqn:E; [apply Qltb_true in E; lra|]. destruct (qfloor_spec x) as [A B].
  assert (F0 : (0 <= qfloor x)%Z). { assert (inject_Z (-1) < inject_Z (qfloor x)) by (change (inject_Z (-1)) with (-1); lra). apply (proj2 (inject_Z_lt _ _)) in H0. lia. }
  destruct (Z.eqb_spec (qfloor x mod 2) 0) as [M|M].
  - destruct (Z.ltb_spec (qfloor x + 1) 1); [lia|]. rewrite inject_Z_plus. change (inject_Z 1) with 1. lra.
  - destruct (Z.ltb_spec (qfloor x) 1); [|lra]. assert (qfloor x = 0)%Z by lia. rewrite H1 in M. contradiction M. reflexivity.
Qed.

(** ** smoothing of every spectrum *)
Lemma smooth_level name f d d' level x : smooth_run name f d = Ok d' -> (0 <= level < sm_n_levels (sd_md d))%Z ->
  sd_get_level d level = Ok x ->
  exists g y, f level = Ok g /\ sd_get_level d' level = Ok y /\
   (forall idx v, nd_vec x idx = Some v -> nd_vec y idx = Some (g v)) /\
   (forall idx w, nd_vec y idx = Some w -> exists v, nd_vec x idx = Some v /\ w = g v).
Proof.
  intros H Hl Hx. unfold smooth_run in H. apply bind_ok in H. destruct H as (r & Hr & H). apply make_spec_ok in H. subst d'.
  assert (N : nth_error (arange (sm_n_levels (sd_md d))) (Z.to_nat level) = Some level).
  { rewrite arange_nth by lia. f_equal. lia. }
  destruct (mapM_nth _ _ _ _ _ Hr N) as (y & Ny & Hy).
  apply bind_ok in Hy. destruct Hy as (g & Hg & Hy). rewrite Hx in Hy. cbn [bind] in Hy.
  apply bind_ok in Hy. destruct Hy as (z & Hz & Hy). injection Hy as <-.
  assert (F : map fst r = arange (sm_n_levels (sd_md d))).
  { clear - Hr. apply mapM_ok in Hr. induction Hr as [|i y l r' E F IH]; [reflexivity|]. cbn. rewrite IH. f_equal.
    repeat (apply bind_ok in E; destruct E as (? & ? & E)). injection E as <-. reflexivity. }
  destruct (find_key _ _ _ _ F Ny) as [_ K]. rewrite Z2Nat.id in K by lia.
  exists g, z. split; [exact Hg|]. split; [|split].
  - unfold sd_get_level, sd_at. cbn. replace (level >=? sm_n_levels (sd_md d))%Z with false by lia. rewrite K. reflexivity.
  - intros idx v Hv. destruct (nd_last_vec _ _ _ _ _ Hz Hv) as (w & W & V). congruence.
  - intros idx w Hw. destruct (nd_last_vec_r _ _ _ _ _ Hz Hw) as (v & W & V). exists v. split; [exact V|]. congruence.
Qed.
Lemma smooth_keeps name f d d' : smooth_run name f d = Ok d' ->
  sd_md d' = with_spec_history (sd_md d) (sm_history (sd_md d) ++ [COther name]).
Proof. intros H. unfold smooth_run in H. apply bind_ok in H. destruct H as (r & Hr & H). apply make_spec_ok in H. subst d'. reflexivity. Qed.

Lemma c41_run : forall rnd uf p d d' level x m, smooth_uniform rnd uf p d = Ok d' -> (0 <= level < sm_n_levels (sd_md d))%Z ->
  sd_get_level d level = Ok x -> sd_level_md d level = Ok m ->
  exists len y, len = smooth_length rnd p (sl_n_freqs m) /\ Z.odd len = true /\ (1 <= len)%Z /\ sd_get_level d' level = Ok y /\ 
   (forall idx v, nd_vec x idx = Some v -> nd_vec y idx = Some (uf len v)).
Proof.
  intros rnd uf p d d' level x m H Hl Hx Hm. destruct (smooth_level _ _ _ _ _ _ H Hl Hx) as (g & y & E & Hy & V & _).
  rewrite Hm in E. cbn in E. injection E as <-. exists (smooth_length rnd p (sl_n_freqs m)), y.
  destruct (c41 rnd p (sl_n_freqs m)). auto 7.
Qed.

Lemma c42_width : forall gf sigma d d' level x, smooth_gaussian gf sigma d = Ok d' -> (0 <= level < sm_n_levels (sd_md d))%Z ->
  sd_get_level d level = Ok x ->
  exists y, sd_get_level d' level = Ok y /\ (forall idx v, nd_vec x idx = Some v -> nd_vec y idx = Some (gf 1 v)).
Proof.
  intros gf sigma d d' level x H Hl Hx. destruct (smooth_level _ _ _ _ _ _ H Hl Hx) as (g & y & E & Hy & V & _).
  injection E as <-. eauto.
Qed.

(** ** FourierTransform *)
Lemma fourier_level_at rnd nf tr d d' level : fourier_run rnd nf tr d = Ok d' -> (0 <= level < wd_n_levels d)%Z ->
  exists m freqs x y, wd_level_md d level = Ok m /\ rfft_freqs rnd (nf (wl_win_size m)) (wl_fs m) = Ok freqs /\ wd_get_level d level = Ok x /\
    nd_last (tr (wl_win_size m) (nf (wl_win_size m))) x = Ok y /\ sd_get_level d' level = Ok y /\
    sd_level_md d' level = Ok (fourier_level_md m freqs).
Proof.
  intros H Hl. unfold fourier_run in H. apply bind_ok in H. destruct H as (r & Hr & H). apply make_spec_ok in H. subst d'.
  assert (N : nth_error (arange (wd_n_levels d)) (Z.to_nat level) = Some level).
  { rewrite arange_nth by lia. f_equal. lia. }
  destruct (mapM_nth _ _ _ _ _ Hr N) as (y & Ny & Hy). unfold fourier_level in Hy.
  apply bind_ok in Hy. destruct Hy as (m & Hm & Hy).
  apply bind_ok in Hy. destruct Hy as (freqs & He & Hy).
  apply bind_ok in Hy. destruct Hy as (x & Hx & Hy).
  apply bind_ok in Hy. destruct Hy as (z & Hz & Hy). injection Hy as <-.
  exists m, freqs, x, z. do 4 (split; [assumption|]).
  assert (F : map fst (map fst r) = arange (wd_n_levels d)).
  { apply (levels_map (fourier_level rnd nf tr d)); [|exact Hr]. intros i y E. unfold fourier_level in E.
    repeat (apply bind_ok in E; destruct E as (? & ? & E)). injection E as <-. reflexivity. }
  assert (N1 : nth_error (map fst r) (Z.to_nat level) = Some (level, z)) by (rewrite nth_error_map, Ny; reflexivity).
  destruct (find_key _ _ _ _ F N1) as [_ K]. rewrite Z2Nat.id in K by lia.
  split.
  - unfold sd_get_level, sd_at. cbn [sd_md sm_n_levels sd_data]. replace (level >=? wd_n_levels d)%Z with false by lia.
    rewrite K. reflexivity.
  - unfold sd_level_md. cbn [sd_md sm_levels]. rewrite py_nth_nat by lia. rewrite nth_error_map, Ny. reflexivity.
Qed.
