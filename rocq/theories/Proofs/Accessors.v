(** Reading channels, windows and frequencies out of windowed and spectra data. *)
From Coq Require Import String.
From Verif Require Import Base.Prelude Base.ListUtil Base.NdArray Model.Sampling Model.Time Model.Decimate Model.Window Model.Spectra
  Spec.Calibrate Proofs.Calibrate Model.Gather Spec.Gather Proofs.GatherData.
Open Scope list_scope. Open Scope Z_scope.

Lemma nd_rank_nd3 {A} (w : list (list A)) t : w <> [] -> nd_rank (nd3 (w :: t)) = 3%nat.
Proof. destruct w as [|r w]; [congruence|]. intros _. cbn. destruct r; reflexivity. Qed.
Lemma nd_rank_nd2 {A} (r : list A) w : nd_rank (nd2 (r :: w)) = 2%nat.
Proof. cbn. destruct r; reflexivity. Qed.
Lemma nd_pick_nd2 {A} i (w : list (list A)) r : nth_error w i = Some r -> nd_pick i (nd2 w) = Ok (nd1 r).
Proof.
  intros H. destruct w as [|r0 w]; [destruct i; discriminate|]. unfold nd2 at 1. cbn [nd_pick]. fold (@nd2 A (r0 :: w)).
  change (Ax (map nd1 (r0 :: w))) with (nd2 (r0 :: w)). rewrite nd_rank_nd2. cbn [Nat.leb Nat.eqb]. rewrite nth_error_map, H. reflexivity.
Qed.
Lemma nd_pick_nd3 {A} i (x : list (list (list A))) y : x <> [] -> Forall2 (fun w r => nth_error w i = Some r) x y -> nd_pick i (nd3 x) = Ok (nd2 y).
Proof.
  intros Hx F. destruct x as [|w x]; [congruence|]. destruct y as [|r y]; [inversion F|].
  assert (Hw : w <> []) by (inversion F; subst; intros ->; destruct i; discriminate).
  pose proof (nd_rank_nd3 w x Hw) as R. unfold nd3 in R |- *. cbn [nd_pick]. rewrite R. cbn [Nat.leb].
  match goal with |- context [?g (map nd2 (w :: x))] => match type of g with list (nd A) -> _ =>
      assert (Hg : forall l, g l = mapM (nd_pick i) l) end end.
  { clear. induction l as [|a t IH]; [reflexivity|]. cbn [mapM]. rewrite <- IH. reflexivity. }
  rewrite Hg. clear Hg R Hw Hx.
  assert (M : mapM (nd_pick i) (map nd2 (w :: x)) = Ok (map nd1 (r :: y))).
  { induction F as [|w' r' x' y' E F IH]; [reflexivity|]. cbn [map mapM]. rewrite (nd_pick_nd2 _ _ _ E). cbn [bind].
    cbn [map] in IH. rewrite IH. reflexivity. }
  rewrite M. reflexivity.
Qed.
Lemma column {A} i (x : list (list A)) C : (i < C)%nat -> (forall w, In w x -> length w = C) ->
  exists y, Forall2 (fun w r => nth_error w i = Some r) x y.
Proof.
  intros Hi. induction x as [|w x IH]; intros Hx; [exists []; constructor|].
  destruct IH as [y Hy]; [intros; apply Hx; right; assumption|].
  destruct (nth_error w i) as [r|] eqn:E; [exists (r :: y); constructor; assumption|].
  apply nth_error_None in E. rewrite (Hx w (or_introl eq_refl)) in E. lia.
Qed.
Lemma column_nth {A} i (x : list (list A)) y : Forall2 (fun w r => nth_error w i = Some r) x y ->
  length y = length x /\ forall w win, nth_error x w = Some win -> nth_error y w = nth_error win i.
Proof.
  intros F. split; [symmetry; exact (Forall2_length' _ _ _ F)|]. intros w win H.
  destruct (Forall2_nth_error _ _ _ _ _ F H) as (r & -> & <-). reflexivity.
Qed.

Lemma first_index_none c cs : ~ In c cs <-> first_index c cs = None.
Proof.
  split.
  - intros H. induction cs as [|x t IH]; [reflexivity|]. cbn. destruct (String.eqb_spec x c); [subst; destruct H; left; reflexivity|].
    rewrite IH by (intro K; apply H; right; exact K). reflexivity.
  - intros H K. destruct (first_index_in c cs K) as (i & E & _). congruence.
Qed.
Lemma first_index_first c cs i : nth_error cs i = Some c -> (forall j, (j < i)%nat -> nth_error cs j <> Some c) -> first_index c cs = Some i.
Proof.
  intros H F. destruct (first_index_in c cs (nth_error_In _ _ H)) as (k & E & _). destruct (first_index_spec _ _ _ E) as [E1 E2].
  rewrite E. f_equal. destruct (Nat.lt_trichotomy k i) as [L|[L|L]]; [exfalso; exact (F k L E1)|exact L|exfalso; exact (E2 i L H)].
Qed.

Lemma pick_chan {A} (x : list (list (list A))) (cs : list chan) c i : x <> [] -> (forall win, In win x -> length win = length cs) ->
  nth_error cs i = Some c -> exists y, nd_pick i (nd3 x) = Ok (nd2 y) /\ length y = length x /\
    forall w win, nth_error x w = Some win -> nth_error y w = nth_error win i.
Proof.
  intros Hx Hs Hi. assert (L : (i < length cs)%nat) by (apply nth_error_Some; congruence).
  destruct (column i x (length cs) L Hs) as [y F]. exists y. split; [exact (nd_pick_nd3 i x y Hx F)|exact (column_nth _ _ _ F)].
Qed.

Lemma wd_chan (d : win_data) level (x : list (list (list cell))) c : wd_get_level d level = Ok (nd3 x) -> x <> [] ->
  (forall win, In win x -> length win = length (wd_chans d)) ->
  (~ In c (wd_chans d) -> wd_get_chan d level c = Err ChannelNotFoundError) /\
  forall i, nth_error (wd_chans d) i = Some c -> (forall j, (j < i)%nat -> nth_error (wd_chans d) j <> Some c) ->
    exists y, wd_get_chan d level c = Ok (nd2 y) /\ length y = length x /\
      forall w win, nth_error x w = Some win -> nth_error y w = nth_error win i.
Proof.
  intros Hl Hx Hs. unfold wd_get_chan. split.
  - intros H. apply first_index_none in H. rewrite H. reflexivity.
  - intros i Hi Hf. rewrite (first_index_first _ _ _ Hi Hf), Hl. cbn [bind]. exact (pick_chan x _ c i Hx Hs Hi).
Qed.

Section Spec.
  Context {A : Type}.
  Lemma sd_level_at (d : spec_data A) level x : sd_get_level d level = Ok x -> sd_at d level = Ok x.
  Proof. unfold sd_get_level. destruct (_ >=? _); [discriminate|auto]. Qed.
  Lemma sd_chan (d : spec_data A) level x c : sd_get_level d level = Ok (nd3 x) -> x <> [] ->
    (forall win, In win x -> length win = length (sm_chans (sd_md d))) ->
    (~ In c (sm_chans (sd_md d)) -> sd_get_chan d level c = Err ChannelNotFoundError) /\
    forall i, nth_error (sm_chans (sd_md d)) i = Some c -> (forall j, (j < i)%nat -> nth_error (sm_chans (sd_md d)) j <> Some c) ->
      exists y, sd_get_chan d level c = Ok (nd2 y) /\ length y = length x /\
        forall w win, nth_error x w = Some win -> nth_error y w = nth_error win i.
  Proof.
    intros Hl Hx Hs. apply sd_level_at in Hl. unfold sd_get_chan. split.
    - intros H. apply first_index_none in H. rewrite H. reflexivity.
    - intros i Hi Hf. rewrite (first_index_first _ _ _ Hi Hf), Hl. cbn [bind]. exact (pick_chan x _ c i Hx Hs Hi).
  Qed.

  Lemma sd_chans (d : spec_data A) level x cs : sd_get_level d level = Ok (nd3 x) ->
    (forall win, In win x -> length win = length (sm_chans (sd_md d))) -> sm_chans (sd_md d) <> [] ->
    ((exists c, In c cs /\ ~ In c (sm_chans (sd_md d))) -> sd_get_chans d level cs = Err ChannelNotFoundError) /\
    (incl cs (sm_chans (sd_md d)) -> exists y, sd_get_chans d level cs = Ok (nd3 y) /\ length y = length x /\
      forall w win, nth_error x w = Some win -> exists rows, nth_error y w = Some rows /\
        Forall2 (fun c row => exists i, nth_error (sm_chans (sd_md d)) i = Some c /\
          (forall j, (j < i)%nat -> nth_error (sm_chans (sd_md d)) j <> Some c) /\ nth_error win i = Some row) cs rows).
  Proof.
    intros Hl Hs Hne. apply sd_level_at in Hl. unfold sd_get_chans. split.
    - intros (c & Hc & Hn). assert (E : mapM (fun c0 => match first_index c0 (sm_chans (sd_md d)) with None => Err ChannelNotFoundError | Some i => Ok i end) cs = Err ChannelNotFoundError).
      { clear -Hc Hn. induction cs as [|a t IH]; [destruct Hc|]. cbn [mapM]. destruct (first_index a (sm_chans (sd_md d))) eqn:E; [|reflexivity].
        cbn [bind]. destruct Hc as [->|Hc]; [apply first_index_none in Hn; congruence|]. rewrite (IH Hc). reflexivity. }
      rewrite E. reflexivity.
    - intros Hi.
      assert (IS : exists is, mapM (fun c => match first_index c (sm_chans (sd_md d)) with None => Err ChannelNotFoundError | Some i => Ok i end) cs = Ok is /\
         Forall2 (fun c i => first_index c (sm_chans (sd_md d)) = Some i) cs is).
      { induction cs as [|c t IH]; [exists []; split; [reflexivity|constructor]|].
        destruct (first_index_in c (sm_chans (sd_md d)) (Hi c (or_introl eq_refl))) as (i & E & _).
        destruct IH as (is & E' & F); [intros z Hz; apply Hi; right; exact Hz|]. exists (i :: is). cbn [mapM]. rewrite E, E'. split; [reflexivity|]. constructor; assumption. }
      destruct IS as (is & Eis & Fis). rewrite Eis. cbn [bind]. rewrite Hl. cbn [bind].
      assert (Ilt : forall i, In i is -> (i < length (sm_chans (sd_md d)))%nat).
      { intros i H. apply In_nth_error in H. destruct H as [k Hk]. destruct (Forall2_nth_error_r _ _ _ _ _ Fis Hk) as (c & _ & E).
        apply first_index_spec in E. apply nth_error_Some. destruct E as [E _]. congruence. }
      exists (map (picks is) x). split.
      { apply nd_picks_nd3 with (C := length (sm_chans (sd_md d))); [destruct (sm_chans (sd_md d)); [congruence|cbn; lia]|exact Hs|exact Ilt]. }
      split; [apply map_length|]. intros w win Hw. exists (picks is win). split; [rewrite nth_error_map, Hw; reflexivity|].
      assert (P : Forall2 (fun i r => nth_error win i = Some r) is (picks is win)).
      { apply picks_nth. intros i H. rewrite (Hs win (nth_error_In _ _ Hw)). auto. }
      clear -Fis P. revert P. generalize (picks is win) as pk. induction Fis as [|c i cs is E F IH]; intros pk P; inversion P; subst; [constructor|].
      constructor; [|apply IH; assumption]. destruct (first_index_spec _ _ _ E) as [E1 E2]. exists i. auto.
  Qed.

  Lemma freq_column f (x : list (list (list A))) C F : (f < F)%nat -> shaped x C F ->
    exists y, Forall2 (Forall2 (fun row z => nth_error row f = Some z)) x y.
  Proof.
    intros Hf. induction x as [|w x IH]; intros Hx; [exists []; constructor|].
    destruct IH as [y Hy]; [intros w' H'; apply Hx; right; assumption|].
    destruct (column f w F Hf (proj2 (Hx w (or_introl eq_refl)))) as [zs Hz]. exists (zs :: y). constructor; assumption.
  Qed.
  Lemma nd_last_at_nd3 f (x : list (list (list A))) y : 0 <= f -> x <> [] -> (forall w, In w x -> w <> []) ->
    Forall2 (Forall2 (fun row z => nth_error row (Z.to_nat f) = Some z)) x y -> nd_last_at f (nd3 x) = Ok (nd2 y).
  Proof.
    intros Hf Hx Hw F. unfold nd3. rewrite nd_last_at_ax by (destruct x; [congruence|reflexivity]).
    assert (M : mapM (nd_last_at f) (map nd2 x) = Ok (map nd1 y)).
    { clear Hx. induction F as [|w zs x y E F IH]; [reflexivity|]. cbn [map mapM].
      rewrite (nd_last_at_nd2 f w zs Hf (Hw w (or_introl eq_refl)) E). cbn [bind]. rewrite IH by (intros; apply Hw; right; assumption). reflexivity. }
    rewrite M. reflexivity.
  Qed.
  Lemma squeeze_nd1 (r : list A) : length r <> 1%nat -> squeeze (nd1 r) = nd1 r.
  Proof.
    intros H. unfold nd1. cbn [squeeze]. rewrite map_map. cbn [squeeze]. destruct r as [|a [|b r]]; [reflexivity|cbn in H; congruence|reflexivity].
  Qed.
  Lemma squeeze_nd2 (y : list (list A)) : length y <> 1%nat -> (forall r, In r y -> length r <> 1%nat) -> squeeze (nd2 y) = nd2 y.
  Proof.
    intros H Hr. unfold nd2. cbn [squeeze]. assert (E : map squeeze (map nd1 y) = map nd1 y).
    { rewrite map_map. apply map_ext_in. intros r K. apply squeeze_nd1, Hr, K. }
    rewrite E. destruct y as [|a [|b y]]; [reflexivity|cbn in H; congruence|reflexivity].
  Qed.

  Lemma sd_freq (d : spec_data A) level x m C F f : sd_get_level d level = Ok (nd3 x) -> sd_level_md d level = Ok m ->
    (1 <= length x)%nat -> (1 <= C)%nat -> shaped x C F -> Z.of_nat F = sl_n_freqs m ->
    (f < 0 \/ sl_n_freqs m <= f -> sd_get_freq d level f = Err ValueError) /\
    (0 <= f < sl_n_freqs m -> exists y, sd_get_freq d level f = Ok (squeeze (nd2 y)) /\ length y = length x /\
      (forall zs, In zs y -> length zs = C) /\
      (forall w c, match nth_error y w with Some zs => nth_error zs c | None => None end = coef x w c (Z.to_nat f)) /\
      ((2 <= length x)%nat -> (2 <= C)%nat -> sd_get_freq d level f = Ok (nd2 y))).
  Proof.
    intros Hl Hm Lx LC Hs HF. apply sd_level_at in Hl. unfold sd_get_freq. rewrite Hm. cbn [bind]. split.
    - intros [H|H].
      + assert (E : (f <? 0) = true) by lia. rewrite E. reflexivity.
      + assert (E : (f >=? sl_n_freqs m) = true) by lia. rewrite E, orb_true_r. reflexivity.
    - intros H. assert (E : (f <? 0) || (f >=? sl_n_freqs m) = false) by lia. rewrite E, Hl. cbn [bind].
      destruct (freq_column (Z.to_nat f) x C F ltac:(lia) Hs) as [y Fy]. exists y.
      assert (NE : forall w, In w x -> w <> []). { intros w Hw ->. destruct (Hs [] Hw) as [K _]. cbn in K. lia. }
      assert (X : x <> []) by (intros ->; cbn in Lx; lia).
      rewrite (nd_last_at_nd3 f x y ltac:(lia) X NE Fy). cbn [bind].
      assert (LY : length y = length x) by (symmetry; exact (Forall2_length' _ _ _ Fy)).
      assert (LZ : forall zs, In zs y -> length zs = C).
      { intros zs Hz. apply In_nth_error in Hz. destruct Hz as [k Hk]. destruct (Forall2_nth_error_r _ _ _ _ _ Fy Hk) as (w & Hw & K).
        rewrite <- (Forall2_length' _ _ _ K). apply (Hs w (nth_error_In _ _ Hw)). }
      split; [reflexivity|]. split; [exact LY|]. split; [exact LZ|]. split.
      + intros w c. unfold coef. destruct (nth_error x w) as [win|] eqn:Ew.
        * destruct (Forall2_nth_error _ _ _ _ _ Fy Ew) as (zs & -> & K). destruct (nth_error win c) as [r|] eqn:Ec.
          -- destruct (Forall2_nth_error _ _ _ _ _ K Ec) as (z & -> & <-). reflexivity.
          -- apply nth_error_None in Ec. apply nth_error_None. rewrite <- (Forall2_length' _ _ _ K). exact Ec.
        * assert (N : nth_error y w = None) by (apply nth_error_None; apply nth_error_None in Ew; lia). rewrite N. reflexivity.
      + intros L2 C2. rewrite squeeze_nd2; [reflexivity|lia|]. intros r Hr. rewrite (LZ r Hr). lia.
  Qed.
End Spec.
