(** The shape of the data through the processing stages. *)
From Coq Require Import String.
From Verif Require Import Base.Prelude Base.Rounding Base.ListUtil Base.NdArray Base.Cplx
  Model.Sampling Model.Time Model.Decimate Model.Window Model.Spectra Model.Calibrate Model.Gather Model.Regression Model.Pipeline
  Spec.Calibrate Spec.Gather Spec.Pipeline
  Proofs.Sampling Proofs.TimeMeta Proofs.WindowRun Proofs.WindowFinal Proofs.Spectra Proofs.SpectraFreqs Proofs.Calibrate Proofs.CalibrateFinal Proofs.GatherQuick.
Open Scope list_scope. Open Scope Z_scope.

(** windows x [C] channels x anything *)
Definition cube {A} (C : nat) (n : Z) (x : nd A) : Prop :=
  exists y : list (list (list A)), x = nd3 y /\ Z.of_nat (length y) = n /\ 1 <= n /\ forall win, In win y -> length win = C.

Lemma scalars_nd2 {A} (y : list (list A)) : y <> [] -> scalars (map nd1 y) = None.
Proof. destruct y; [contradiction|]. reflexivity. Qed.
Lemma scalars_nd3 {A} (y : list (list (list A))) : y <> [] -> scalars (map nd2 y) = None.
Proof. destruct y; [contradiction|]. reflexivity. Qed.

Lemma nd_last_nd2 {A B} (f : list A -> res (list B)) (y : list (list A)) z : y <> [] -> nd_last f (nd2 y) = Ok z ->
  exists y', z = nd2 y' /\ mapM f y = Ok y'.
Proof.
  intros NE H. unfold nd2 in H. destruct (nd_last_inv _ _ _ H) as [(v & w & E & _)|[_ (r & M & ->)]].
  - rewrite scalars_nd2 in E by exact NE. discriminate.
  - clear H NE. revert r M. induction y as [|v y IH]; intros r M; cbn [map mapM] in M.
    + injection M as <-. exists []. split; reflexivity.
    + apply bind_ok in M. destruct M as (a & Ha & M). apply bind_ok in M. destruct M as (t & Ht & M). injection M as <-.
      unfold nd1 in Ha at 1. cbn [nd_last] in Ha. rewrite scalars_map in Ha. apply bind_ok in Ha. destruct Ha as (w & Hw & Ha). injection Ha as <-.
      destruct (IH t Ht) as (y' & E & M'). exists (w :: y'). unfold nd2 in E. injection E as ->. split; [reflexivity|].
      cbn [mapM]. rewrite Hw. cbn [bind]. rewrite M'. reflexivity.
Qed.
Lemma nd_last_cube {A B} (f : list A -> res (list B)) C n (x : nd A) z : (0 < C)%nat -> cube C n x -> nd_last f x = Ok z ->
  cube C n z /\ forall y', z = nd3 y' -> forall win, In win y' -> forall r, In r win -> exists v, f v = Ok r.
Proof.
  intros HC (y & -> & Hn & H1 & Hy) H. unfold nd3 in H. destruct (nd_last_inv _ _ _ H) as [(v & w & E & _)|[_ (r & M & ->)]].
  - rewrite scalars_nd3 in E by (intros ->; cbn in Hn; lia). discriminate.
  - clear H.
    assert (K : exists y', Ax r = nd3 y' /\ length y' = length y /\ (forall win, In win y' -> length win = C /\ forall v', In v' win -> exists v, f v = Ok v')).
    { clear Hn H1. revert r M. induction y as [|w y IH]; intros r M; cbn [map mapM] in M.
      + injection M as <-. exists []. split; [reflexivity|]. split; [reflexivity|]. intros win [].
      + apply bind_ok in M. destruct M as (a & Ha & M). apply bind_ok in M. destruct M as (t & Ht & M). injection M as <-.
        destruct (IH (fun win Hw => Hy win (or_intror Hw)) t Ht) as (y' & E & L & K). unfold nd3 in E. injection E as ->.
        pose proof (Hy w (or_introl eq_refl)) as HW.
        destruct (nd_last_nd2 f w a) as (w' & -> & Mw); [intros ->; cbn in HW; lia|exact Ha|].
        exists (w' :: y'). split; [reflexivity|]. split; [cbn; lia|]. intros win [<-|Hw]; [|exact (K win Hw)].
        apply mapM_ok in Mw. split; [rewrite <- (Forall2_length' _ _ _ Mw); exact HW|].
        intros v' Hv'. apply In_nth_error in Hv'. destruct Hv' as (i & Hi). destruct (Forall2_nth_error_r _ _ _ _ _ Mw Hi) as (v & _ & E). eauto. }
    destruct K as (y' & E & L & K). split.
    + exists y'. split; [exact E|]. split; [lia|]. split; [exact H1|]. intros win Hw. exact (proj1 (K win Hw)).
    + intros y2 E2. rewrite E in E2. apply nd3_inj in E2. subst y2. intros win Hw v' Hr. exact (proj2 (K win Hw) v' Hr).
Qed.

(** ** windows *)
Lemma py_slice_incl {A} a b s (l r : list A) : py_slice a b s l = Ok r -> incl r l.
Proof.
  unfold py_slice. destruct (s =? 0); [discriminate|]. cbv zeta. intros [= <-]. intros x Hx. apply in_flat_map in Hx. destruct Hx as (k & _ & Hk).
  destruct (nth_error l _) as [y|] eqn:E; [|destruct Hk]. destruct Hk as [<-|[]]. eapply nth_error_In. exact E.
Qed.
Lemma all_nd2 {A B} (f : B -> list (list A)) (l : list (nd A)) (bs : list B) C : (forall b, length (f b) = C) ->
  incl l (map (fun b => nd2 (f b)) bs) -> exists y, Ax l = nd3 y /\ length y = length l /\ forall win, In win y -> length win = C.
Proof.
  intros HC. induction l as [|x l IH]; intros I.
  - exists []. repeat split. intros ? [].
  - destruct IH as (y & E & L & K); [intros z Hz; apply I; right; exact Hz|]. unfold nd3 in E. injection E as ->.
    pose proof (I x (or_introl eq_refl)) as Hx. apply in_map_iff in Hx. destruct Hx as (b & <- & _).
    exists (f b :: y). split; [reflexivity|]. split; [cbn; lia|]. intros win [<-|Hw]; [apply HC|exact (K win Hw)].
Qed.
Lemma level_data_cube ld table m w o c x : rect ld (lm_n_samples m) -> c = Z.of_nat (length ld) -> 2 <= c -> 2 <= w /\ w <> lm_n_samples m ->
  get_level_data ld table c w o = Ok x -> nd_len x = Ok (Z.of_nat (length table)) -> 1 <= Z.of_nat (length table) ->
  cube (length ld) (Z.of_nat (length table)) x.
Proof.
  intros R Hc C2 [W2 W3] H HL H1. unfold get_level_data in H. destruct table as [|r0 tb] eqn:ET; [discriminate|]. rewrite <- ET in *.
  apply bind_ok in H. destruct H as (v & H6 & H).
  assert (W4 : 2 <= w < lm_n_samples m).
  { pose proof H6 as H7. unfold sliding_window_view in H7. destruct (_ || _) eqn:E in H7; [discriminate|]. apply orb_false_elim in E. destruct E as [_ E].
    destruct ld as [|row ld]; [cbn in Hc; lia|]. cbn [width] in E. pose proof (R row (or_introl eq_refl)). lia. } rewrite (view_full ld c w (lm_n_samples m) v R Hc C2 W4 H6) in H.
  apply bind_ok in H. destruct H as (l & Hl & H). injection H as <-. apply py_slice_incl in Hl.
  destruct (all_nd2 (fun s0 => map (fun row => slice s0 (s0 + w) row) ld) l (arange (lm_n_samples m - w + 1)) (length ld)) as (y & E & L & K).
  - intros b. apply map_length.
  - intros z Hz. apply Hl in Hz. apply in_map_iff in Hz. destruct Hz as (s0 & <- & Hs). apply in_map_iff. exists s0. split; [|exact Hs].
    unfold nd2. rewrite map_map. reflexivity.
  - exists y. split; [exact E|]. cbn [nd_len] in HL. injection HL as HL. split; [lia|]. split; [exact H1|exact K].
Qed.

Lemma wp_level_nth p l i x : wp_level p l i = Ok x -> nth_error l (Z.to_nat i) = Some x /\ 0 <= i.
Proof. unfold wp_level. destruct (Z.ltb_spec i 0); [discriminate|]. destruct (_ >=? _); [discriminate|]. cbn [orb]. destruct (nth_error _ _); [|discriminate]. intros [= <-]. split; [reflexivity|assumption]. Qed.

Lemma windower_cube rnd nt ndl ref p d wd : windower_run rnd nt ndl ref p d = Ok wd -> 1 <= wp_min_n_wins p ->
  (2 <= length (dd_chans d))%nat -> levels_sized d -> window_sizes_ok p d ->
  wd_chans wd = dd_chans d /\ 1 <= wd_n_levels wd /\ Z.of_nat (length (wd_levels wd)) = wd_n_levels wd /\
  forall l, 0 <= l < wd_n_levels wd -> exists wl x, nth_error (wd_levels wd) (Z.to_nat l) = Some wl /\ wd_get_level wd l = Ok x /\
    cube (length (dd_chans d)) (wl_n_wins wl) x.
Proof.
  intros H HM HC HS HW. destruct (c38 _ _ _ _ _ _ _ H) as (N1 & N2 & N3 & N4 & _).
  destruct (windower_levels _ _ _ _ _ _ _ H) as (_ & _ & CH & xs & wls & HL & D & Lv & _).
  split; [exact CH|]. split; [exact N4|]. split; [lia|]. intros l Hl.
  destruct (window_loop_spec _ _ _ _ _ _ _ _ _ _ _ HL) as (I1 & I2 & I3 & I4 & _).
  destruct (nth_error xs (Z.to_nat l)) as [[lev x]|] eqn:Ex.
  2:{ apply nth_error_None in Ex. rewrite D in N2. rewrite Lv in *. lia. }
  destruct (nth_error wls (Z.to_nat l)) as [wl|] eqn:Ew.
  2:{ apply nth_error_None in Ew. rewrite Lv in *. lia. }
  destruct (I4 _ _ _ _ Ex Ew) as (m & w & o & table & ld & LD).
  rewrite <- D in Ex. destruct (find_key _ _ _ _ N3 Ex) as [K1 K2]. cbn [fst] in K1. rewrite Z2Nat.id in K1, K2 by lia. subst lev.
  exists wl, x. split; [rewrite Lv; exact Ew|]. split.
  { unfold wd_get_level. replace (l >=? wd_n_levels wd) with false by lia. rewrite K2. reflexivity. }
  destruct LD as [l1 l2 l3 l4 l5 l6 l7 l8]. pose proof (l7 eq_refl) as l7'.
  destruct (level_metadata_spec _ _ _ _ _ _ _ _ _ l3 l8) as (f & la & _ & _ & _ & -> & _). cbn [wl_n_wins].
  apply bind_ok in l2. destruct l2 as (w' & Hw' & l2). apply bind_ok in l2. destruct l2 as (o' & Ho' & l2). injection l2 as -> ->.
  apply wp_level_nth in Hw'. destruct Hw' as [Hw' _]. pose proof (HW _ _ _ l1 Hw') as W2.
  destruct (HS _ _ l1) as (ld' & E & L & R). rewrite Z2Nat.id in E by lia. rewrite l5 in E. injection E as <-.
  rewrite <- L. eapply level_data_cube; try eassumption; try lia.
Qed.

(** ** spectra *)
Definition regular {A} (C : nat) (d : spec_data A) : Prop :=
  levels_ok (sd_md d) /\ 1 <= sm_n_levels (sd_md d) /\
  forall l, 0 <= l < sm_n_levels (sd_md d) -> exists m x, nth_error (sm_levels (sd_md d)) (Z.to_nat l) = Some m /\ sd_at d l = Ok x /\ cube C (sl_n_wins m) x.

Lemma mapM_arange_len {B} (f : Z -> res B) n r : mapM f (arange n) = Ok r -> length r = Z.to_nat n.
Proof. intros H. apply mapM_ok in H. rewrite <- (Forall2_length' _ _ _ H), arange_length. reflexivity. Qed.

Lemma get_level_at {A} (d : spec_data A) l x : sd_get_level d l = Ok x -> sd_at d l = Ok x.
Proof. unfold sd_get_level. destruct (_ >=? _); [discriminate|auto]. Qed.
Lemma level_md_nth {A} (d : spec_data A) l m : 0 <= l -> sd_level_md d l = Ok m <-> nth_error (sm_levels (sd_md d)) (Z.to_nat l) = Some m.
Proof. intros Hl. unfold sd_level_md. rewrite py_nth_nat by exact Hl. destruct (nth_error _ _); split; intros E; congruence. Qed.

Lemma fourier_regular rnd nf tr wd d C : (0 < C)%nat -> fourier_run rnd nf tr wd = Ok d -> Z.of_nat (length (wd_levels wd)) = wd_n_levels wd -> 1 <= wd_n_levels wd ->
  (forall l, 0 <= l < wd_n_levels wd -> exists wl x, nth_error (wd_levels wd) (Z.to_nat l) = Some wl /\ wd_get_level wd l = Ok x /\ cube C (wl_n_wins wl) x) ->
  regular C d /\ sm_chans (sd_md d) = wd_chans wd.
Proof.
  intros HC H HL H1 HW. pose proof H as H0. unfold fourier_run in H. apply bind_ok in H. destruct H as (r & Hr & H). apply make_spec_ok in H. subst d.
  split; [|reflexivity]. split; [unfold levels_ok; cbn [sd_md sm_levels sm_n_levels]; rewrite map_length, (mapM_arange_len _ _ _ Hr); lia|].
  split; [exact H1|]. cbn [sd_md sm_n_levels sm_levels]. intros l Hl.
  assert (N : nth_error (arange (wd_n_levels wd)) (Z.to_nat l) = Some l) by (rewrite arange_nth by lia; f_equal; lia).
  destruct (mapM_nth _ _ _ _ _ Hr N) as (y & Ny & Hy).
  unfold fourier_level in Hy. apply bind_ok in Hy. destruct Hy as (m & Hm & Hy). cbv zeta in Hy.
  apply bind_ok in Hy. destruct Hy as (freqs & Hf & Hy). apply bind_ok in Hy. destruct Hy as (x & Hx & Hy). apply bind_ok in Hy. destruct Hy as (z & Hz & Hy).
  injection Hy as <-. destruct (HW l Hl) as (wl & x' & E1 & E2 & CU). rewrite Hx in E2. injection E2 as <-.
  assert (m = wl) as ->. { unfold wd_level_md in Hm. rewrite py_nth_nat in Hm by lia. rewrite E1 in Hm. congruence. }
  exists (fourier_level_md wl freqs), z. split; [rewrite nth_error_map, Ny; reflexivity|]. split.
  - assert (F : map fst (map fst r) = arange (wd_n_levels wd)).
    { apply (levels_map (fourier_level rnd nf tr wd)); [|exact Hr]. intros i y E. unfold fourier_level in E. cbv zeta in E.
      repeat (apply bind_ok in E; destruct E as (? & ? & E)). injection E as <-. reflexivity. }
    assert (N1 : nth_error (map fst r) (Z.to_nat l) = Some (l, z)) by (rewrite nth_error_map, Ny; reflexivity).
    destruct (find_key _ _ _ _ F N1) as [_ K]. rewrite Z2Nat.id in K by lia. unfold sd_at. cbn [sd_data]. rewrite K. reflexivity.
  - cbn [fourier_level_md sl_n_wins]. exact (proj1 (nd_last_cube _ _ _ _ _ HC CU Hz)).
Qed.

Lemma smooth_regular name f d d' C : (0 < C)%nat -> smooth_run name f d = Ok d' -> regular C d -> regular C d' /\ sm_chans (sd_md d') = sm_chans (sd_md d) /\ sm_levels (sd_md d') = sm_levels (sd_md d).
Proof.
  intros HC H (R1 & R2 & R3). unfold smooth_run in H. apply bind_ok in H. destruct H as (r & Hr & H). apply make_spec_ok in H. subst d'.
  split; [|split; reflexivity]. split; [exact R1|]. split; [exact R2|]. cbn [sd_md sm_n_levels sm_levels with_spec_history]. intros l Hl.
  assert (N : nth_error (arange (sm_n_levels (sd_md d))) (Z.to_nat l) = Some l) by (rewrite arange_nth by lia; f_equal; lia).
  destruct (mapM_nth _ _ _ _ _ Hr N) as (y & Ny & Hy).
  apply bind_ok in Hy. destruct Hy as (g & Hg & Hy). apply bind_ok in Hy. destruct Hy as (x & Hx & Hy). apply bind_ok in Hy. destruct Hy as (z & Hz & Hy).
  injection Hy as <-. destruct (R3 l Hl) as (m & x' & E1 & E2 & CU). rewrite (get_level_at _ _ _ Hx) in E2. injection E2 as <-.
  exists m, z. split; [exact E1|]. split; [|exact (proj1 (nd_last_cube _ _ _ _ _ HC CU Hz))].
  assert (F : map fst r = arange (sm_n_levels (sd_md d))).
  { clear -Hr. apply mapM_ok in Hr. induction Hr as [|i y l r' E F IH]; [reflexivity|]. cbn. f_equal; [|exact IH].
    repeat (apply bind_ok in E; destruct E as (? & ? & E)). injection E as <-. reflexivity. }
  destruct (find_key _ _ _ _ F Ny) as [_ K]. rewrite Z2Nat.id in K by lia. unfold sd_at. cbn [sd_data]. rewrite K. reflexivity.
Qed.
Lemma sprocs_regular L ps C : (0 < C)%nat -> forall d d', run_sprocs L ps d = Ok d' -> regular C d -> regular C d' /\ sm_chans (sd_md d') = sm_chans (sd_md d).
Proof.
  intros HC. induction ps as [|p ps IH]; intros d d' H R; cbn [run_sprocs] in H.
  - injection H as <-. split; [exact R|reflexivity].
  - apply bind_ok in H. destruct H as (d1 & H1 & H).
    assert (K : regular C d1 /\ sm_chans (sd_md d1) = sm_chans (sd_md d)).
    { destruct p; cbn [run_sproc] in H1; destruct (smooth_regular _ _ _ _ _ HC H1 R) as (A & B & _); split; assumption. }
    destruct K as [R1 E1]. destruct (IH _ _ H R1) as [R2 E2]. split; [exact R2|congruence].
Qed.

(** evaluation data: every level has the [P] frequencies of the parameters *)
Definition evaluated (C : nat) (p : dec_params) (d : spec_data cq) : Prop :=
  levels_ok (sd_md d) /\ 1 <= sm_n_levels (sd_md d) /\
  forall l, 0 <= l < sm_n_levels (sd_md d) -> exists m y, nth_error (sm_levels (sd_md d)) (Z.to_nat l) = Some m /\ sd_at d l = Ok (nd3 y) /\
    Z.of_nat (length y) = sl_n_wins m /\ 1 <= sl_n_wins m /\ shaped y C (length (sl_freqs m)) /\ sl_n_freqs m = Z.of_nat (length (sl_freqs m)) /\
    level_eval_freqs p l = Ok (sl_freqs m).
Lemma evals_evaluated p d d' C : (0 < C)%nat -> evals_run p d = Ok d' -> regular C d -> evaluated C p d' /\ sm_chans (sd_md d') = sm_chans (sd_md d).
Proof.
  intros HC H (R1 & R2 & R3). pose proof H as H0. unfold evals_run in H. apply bind_ok in H. destruct H as (r & Hr & H). apply make_spec_ok in H.
  assert (NL : sm_n_levels (sd_md d') = sm_n_levels (sd_md d)) by (subst d'; reflexivity).
  split; [|subst d'; reflexivity]. split; [subst d'; unfold levels_ok; cbn [sd_md sm_levels sm_n_levels]; rewrite map_length, (mapM_arange_len _ _ _ Hr); lia|].
  split; [lia|]. rewrite NL. intros l Hl.
  destruct (evals_level_at _ _ _ _ H0 Hl) as (m & evals & x & y & E1 & E2 & E3 & E4 & E5 & E6).
  destruct (R3 l Hl) as (m0 & x0 & F1 & F2 & CU). apply level_md_nth in E1; [|lia]. rewrite F1 in E1. injection E1 as <-.
  apply get_level_at in E3. rewrite F2 in E3. injection E3 as <-.
  destruct (nd_last_cube _ _ _ _ _ HC CU E4) as [(y' & -> & Ly & H1 & Hy) K].
  apply level_md_nth in E6; [|lia]. eexists _, y'. split; [exact E6|]. split; [exact (get_level_at _ _ _ E5)|]. cbn [sl_n_wins sl_freqs sl_n_freqs].
  split; [exact Ly|]. split; [exact H1|]. split; [|split; [reflexivity|exact E2]].
  intros win Hw. split; [apply Hy; exact Hw|]. intros v Hv. destruct (K y' eq_refl win Hw v Hv) as (v0 & E). unfold eval_vec in E. apply mapM_ok in E. symmetry. exact (Forall2_length' _ _ _ E).
Qed.

(** ** calibration keeps the shape whenever it succeeds *)
Lemma broadcast_to_shape {A} n k (v : nd A) rows : broadcast_to n k v = Ok rows -> length rows = n /\ forall r, In r rows -> length r = k.
Proof.
  unfold broadcast_to.
  set (row := fun r : nd A => match r with Sc x => Ok (repeat x k) | Ax l => match scalars l with Some v => if Nat.eqb (length v) k then Ok v else match v with [x] => Ok (repeat x k) | _ => Err ValueError end | None => Err ValueError end end).
  assert (RW : forall r x, row r = Ok x -> length x = k).
  { intros [s|l] x; cbn [row]; [intros [= <-]; apply repeat_length|]. destruct (scalars l) as [w|]; [|discriminate].
    destruct (Nat.eqb_spec (length w) k); [intros [= <-]; assumption|]. destruct w as [|a [|b w]]; try discriminate. intros [= <-]. apply repeat_length. }
  assert (RP : forall (x r : list A), length x = k -> In r (repeat x n) -> length r = k) by (intros x r E K; apply repeat_spec in K; subst r; exact E).
  destruct n as [|n]; [intros [= <-]; split; [reflexivity|intros r []]|]. set (N := S n) in *.
  destruct v as [s|l].
  - intros H. change (bind (row (Sc s)) (fun x => Ok (repeat x N)) = Ok rows) in H. apply bind_ok in H. destruct H as (x & Hx & EE). assert (rows = repeat x N) as -> by congruence. split; [apply repeat_length|]. intros r. apply RP. exact (RW _ _ Hx).
  - destruct (scalars l) as [w|] eqn:E.
    + intros H. apply bind_ok in H. destruct H as (x & Hx & EE). assert (rows = repeat x N) as -> by congruence. split; [apply repeat_length|]. intros r. apply RP. apply (RW (Ax l)). cbn [row]. rewrite E. exact Hx.
    + destruct (Nat.eqb_spec (length l) N) as [EN|NN].
      * intros H. apply mapM_ok in H. split; [rewrite <- (Forall2_length' _ _ _ H); exact EN|].
        intros r Hr. apply In_nth_error in Hr. destruct Hr as (i & Hi). destruct (Forall2_nth_error_r _ _ _ _ _ H Hi) as (q & _ & Q). exact (RW _ _ Q).
      * destruct l as [|a [|b l]]; try discriminate. intros H. apply bind_ok in H. destruct H as (x & Hx & EE). assert (rows = repeat x N) as -> by congruence. split; [apply repeat_length|]. intros r. apply RP. exact (RW _ _ Hx).
Qed.
Lemma calibrate_level_shape cis cdiv freqs (x : list (list (list cq))) idx cal z C F : calibrate_level cis cdiv freqs (nd3 x) idx cal = Ok z ->
  shaped x C F -> (idx < C)%nat -> x <> [] -> exists y, z = nd3 y /\ length y = length x /\ shaped y C F.
Proof.
  intros H S HI NE. unfold calibrate_level in H. destruct (column_nd3 x idx C F S HI) as (col & Ec & Lc & LF & _).
  rewrite Ec in H. cbn [bind] in H. apply bind_ok in H. destruct H as (v & Hv & H). apply bind_ok in H. destruct H as (vals & Hb & H).
  assert (z = set_column (nd3 x) idx vals) as -> by congruence. clear H.
  apply broadcast_to_shape in Hb. destruct Hb as [L1 L2].
  assert (K : match col with r :: _ => length r | [] => 0%nat end = F). { destruct col as [|r col]; [destruct x; [contradiction|discriminate]|]. apply LF. left. reflexivity. }
  rewrite K in L2. rewrite set_column_nd3 by lia. eexists. split; [reflexivity|]. split; [rewrite map_length, combine_length; lia|].
  intros w' Hw'. apply in_map_iff in Hw'. destruct Hw' as ([w r] & <- & Hin). pose proof (in_combine_l _ _ _ _ Hin) as Hw.
  destruct (S w Hw) as [HC HF]. cbn [fst snd]. rewrite upd_nth_length. split; [exact HC|].
  intros q Hq. apply In_nth_error in Hq. destruct Hq as [k Hk]. rewrite nth_error_upd in Hk. destruct (Nat.eqb idx k).
  - destruct (Nat.ltb idx (length w)); [|discriminate]. injection Hk as <-. apply L2. eapply in_combine_r. exact Hin.
  - apply HF. eapply nth_error_In. exact Hk.
Qed.

(** every listed level is an array of the metadata's shape *)
Definition level_arrays (md : spec_md) (C : nat) (data : list (Z * nd cq)) : Prop :=
  forall l, 0 <= l < sm_n_levels md -> exists m y, nth_error (sm_levels md) (Z.to_nat l) = Some m /\ dict_get l data = Ok (nd3 y) /\
    Z.of_nat (length y) = sl_n_wins m /\ 1 <= sl_n_wins m /\ shaped y C (length (sl_freqs m)).
Lemma calibrate_levels_arrays cis cdiv md C idx cal levels : (idx < C)%nat -> (forall l, In l levels -> 0 <= l < sm_n_levels md) ->
  forall data data', calibrate_levels cis cdiv md idx cal levels data = Ok data' -> level_arrays md C data -> level_arrays md C data'.
Proof.
  intros HI. induction levels as [|l levels IH]; intros HR data data' H LA; cbn [calibrate_levels] in H.
  - injection H as <-. exact LA.
  - apply bind_ok in H. destruct H as (m & Hm & H). apply bind_ok in H. destruct H as (x & Hx & H). apply bind_ok in H. destruct H as (z & Hz & H).
    pose proof (HR l (or_introl eq_refl)) as Hl.
    destruct (LA l Hl) as (m0 & y & E1 & E2 & E3 & E4 & E5). rewrite Hx in E2. injection E2 as ->.
    destruct (py_nth (sm_levels md) l) as [m'|] eqn:Em; [|discriminate]. injection Hm as ->. rewrite py_nth_nat in Em by lia. rewrite E1 in Em. injection Em as ->.
    destruct (calibrate_level_shape _ _ _ _ _ _ _ _ _ Hz E5 HI) as (y' & -> & Ly & Sy); [intros ->; cbn in E3; lia|].
    apply (IH (fun j Hj => HR j (or_intror Hj)) _ _ H). intros j Hj. destruct (LA j Hj) as (mj & yj & A1 & A2 & A3 & A4 & A5).
    rewrite dict_get_upd by eauto. destruct (Z.eqb_spec j l) as [->|_].
    + rewrite E1 in A1. injection A1 as <-. exists m, y'. split; [exact E1|]. split; [reflexivity|]. split; [lia|]. split; assumption.
    + exists mj, yj. split; [exact A1|]. split; [exact A2|]. split; [exact A3|]. split; assumption.
Qed.
Lemma first_index_lt c cs i : first_index c cs = Some i -> (i < length cs)%nat.
Proof.
  revert i. induction cs as [|x cs IH]; intros i; cbn [first_index]; [discriminate|]. destruct (String.eqb x c); [intros [= <-]; cbn; lia|].
  destruct (first_index c cs) as [j|]; [|discriminate]. cbn. intros [= <-]. specialize (IH j eq_refl). lia.
Qed.
Lemma calibrate_chans_arrays cis cdiv md readers cs : forall data data', calibrate_chans cis cdiv md readers cs data = Ok data' ->
  level_arrays md (length (sm_chans md)) data -> level_arrays md (length (sm_chans md)) data'.
Proof.
  induction cs as [|c cs IH]; intros data data' H LA; cbn [calibrate_chans] in H; [injection H as <-; exact LA|].
  destruct (get_cal_data readers c) as [cal|]; [|exact (IH _ _ H LA)].
  destruct (first_index c (sm_chans md)) as [idx|] eqn:E; [|discriminate]. apply bind_ok in H. destruct H as (d1 & H1 & H).
  apply (IH _ _ H). eapply calibrate_levels_arrays; [exact (first_index_lt _ _ _ E)| |exact H1|exact LA].
  intros l Hl. apply arange_in. exact Hl.
Qed.
Lemma calibrated_evaluated cis cdiv readers sel p d d' : calibrator_run cis cdiv readers sel d = Ok d' -> evaluated (length (sm_chans (sd_md d))) p d ->
  evaluated (length (sm_chans (sd_md d))) p d' /\ sm_chans (sd_md d') = sm_chans (sd_md d).
Proof.
  intros H (R1 & R2 & R3). unfold calibrator_run in H. apply bind_ok in H. destruct H as (data & Hd & H). apply make_spec_ok in H. subst d'.
  split; [|reflexivity]. split; [exact R1|]. split; [exact R2|]. cbn [sd_md with_spec_history sm_n_levels sm_levels]. intros l Hl.
  assert (LA : level_arrays (sd_md d) (length (sm_chans (sd_md d))) (sd_data d)).
  { intros j Hj. destruct (R3 j Hj) as (m & y & A1 & A2 & A3 & A4 & A5 & _). exists m, y. split; [exact A1|]. split; [exact A2|]. split; [exact A3|]. split; assumption. }
  destruct (calibrate_chans_arrays _ _ _ _ _ _ _ Hd LA l Hl) as (m & y & A1 & A2 & A3 & A4 & A5).
  destruct (R3 l Hl) as (m0 & y0 & B1 & _ & _ & _ & _ & B6 & B7). rewrite A1 in B1. injection B1 as <-.
  exists m, y. split; [exact A1|]. split; [exact A2|]. split; [exact A3|]. split; [exact A4|]. split; [exact A5|]. split; assumption.
Qed.
(** without calibration data nothing changes *)
Lemma calibrate_none cis cdiv readers sel d : (forall c, no_success readers c) -> 1 <= sm_n_levels (sd_md d) -> (exists x, sd_at d 0 = Ok x) ->
  calibrator_run cis cdiv readers sel d = Ok (mkSpec (with_spec_history (sd_md d) (sm_history (sd_md d) ++ [COther "SensorCalibrator"])) (sd_data d)).
Proof.
  intros HN H1 [x Hx]. unfold calibrator_run.
  assert (K : forall cs data, calibrate_chans cis cdiv (sd_md d) readers cs data = Ok data).
  { induction cs as [|c cs IH]; intros data; [reflexivity|]. cbn [calibrate_chans]. rewrite (proj2 (get_cal_none readers c) (HN c)). apply IH. }
  rewrite K. cbn [bind]. unfold make_spec. unfold sd_at in Hx. destruct (find _ (sd_data d)); [reflexivity|discriminate].
Qed.
