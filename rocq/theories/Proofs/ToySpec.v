(** Concrete spectra for the examples, C42 and C63 *)
From Coq Require Import String.
From Verif Require Import Base.Prelude Base.Rounding Base.ListUtil Base.Interp Base.NdArray Base.Cplx
  Model.Sampling Model.Time Model.Decimate Model.Window Model.Spectra Proofs.Sampling Proofs.TimeMeta Proofs.WindowRun Proofs.Spectra Proofs.SpectraFreqs.
Open Scope Q_scope.

Definition toy_spec (data : list (list (list cq))) (freqs : list Q) : spec_data cq :=
  mkSpec (mkSpecMd [16] ["Ex"; "Hy"]%string 1 0 100 "" [mkSpecLevel 16 (Z.of_nat (length data)) 16 4 7 (Z.of_nat (length freqs)) freqs] 0 []) [(0%Z, nd3 data)].
(** one window, two channels, frequencies 0..4 *)
Definition toyS : spec_data cq :=
  toy_spec [[[mkC 0 0; mkC 1 10; mkC 2 20; mkC 3 30; mkC 4 40]; [mkC 0 0; mkC 1 1; mkC (13#2) (-5#2); mkC 9 (-3); mkC 4 4]]] [0; 1; 2; 3; 4].

Definition toyWD : win_data :=
  mkWinData [8] ["Ex"]%string 1 0 100 "" [mkWinLevel 8 2 16 4 5] 2 []
    [(0%Z, nd3 [[map (fun k => Some (inject_Z k)) (arange 16)]; [map (fun k => Some (inject_Z k)) (arange 16)]])].
Definition toyFFT (w n : Z) (v : list cell) : res (list cq) := Ok (map (fun k => mkC (inject_Z k) 0) (arange (n / 2 + 1))).

Lemma c42_refuted : forall gf v, gf 1 v <> gf 3 v -> v <> [] ->
  exists d d' x y, smooth_gaussian gf 3 d = Ok d' /\ sd_get_level d 0 = Ok x /\ sd_get_level d' 0 = Ok y /\
    nd_vec x [0%nat; 0%nat] = Some v /\ nd_vec y [0%nat; 0%nat] <> Some (gf 3 v).
Proof.
  intros gf v H Hv. exists (toy_spec [[v; v]] []).
  assert (S : sd_get_level (toy_spec [[v; v]] []) 0 = Ok (nd3 [[v; v]])) by reflexivity.
  assert (N : nd_last (fun v0 => Ok (gf 1 v0)) (nd3 [[v; v]]) = Ok (nd3 [[gf 1 v; gf 1 v]])).
  { unfold nd3, nd2, nd1. cbn [map nd_last scalars]. rewrite !scalars_map. cbn [bind]. reflexivity. }
  eexists. exists (nd3 [[v; v]]), (nd3 [[gf 1 v; gf 1 v]]). split.
  { unfold smooth_gaussian, smooth_run. cbn [sd_md toy_spec sm_n_levels arange Z.to_nat Pos.to_nat]. change (arange 1) with [0%Z].
    cbn [mapM bind]. rewrite S. cbn [bind]. rewrite N. cbn [bind]. reflexivity. }
  split; [exact S|]. split; [reflexivity|]. rewrite !nd_vec_nd3. cbn. split; [reflexivity|]. congruence.
Qed.

Lemma c63_fourier : forall rnd nt ndl nf tr d d' level m,
  fourier_run rnd nf tr d = Ok d' -> (0 <= level < wd_n_levels d)%Z -> wd_level_md d level = Ok m ->
  sm_chans (sd_md d') = wd_chans d /\ sm_n_levels (sd_md d') = wd_n_levels d /\ sm_history (sd_md d') = wd_history d ++ [COther "FourierTransform"] /\
  sd_get_timestamps rnd nt ndl d' level = get_win_starts rnd nt ndl (wd_ref d) (wl_win_size m) (wl_olap_size m) (wl_fs m) (wl_n_wins m) (wl_offset m) /\
  exists m' x y, sd_level_md d' level = Ok m' /\ sl_n_freqs m' = Z.of_nat (length (sl_freqs m')) /\
    wd_get_level d level = Ok x /\ sd_get_level d' level = Ok y /\
    ((forall w n v r, tr w n v = Ok r -> Z.of_nat (length r) = (n / 2 + 1)%Z) ->
     forall idx v, nd_vec y idx = Some v -> Z.of_nat (length v) = sl_n_freqs m').
Proof.
  intros rnd nt ndl nf tr d d' level m H Hl Hm.
  destruct (fourier_level_at _ _ _ _ _ _ H Hl) as (m0 & freqs & x & y & H1 & H2 & H3 & H4 & H5 & H6).
  rewrite Hm in H1. injection H1 as <-.
  assert (MD : exists r, sd_md d' = mkSpecMd (wd_fs d) (wd_chans d) (wd_n_levels d) (wd_first d) (wd_last d) (wd_info d)
                 r (wd_ref d) (wd_history d ++ [COther "FourierTransform"])).
  { unfold fourier_run in H. apply bind_ok in H. destruct H as (r & Hr & H). apply make_spec_ok in H. subst d'. eexists. reflexivity. }
  destruct MD as [r MD]. split; [rewrite MD; reflexivity|]. split; [rewrite MD; reflexivity|]. split; [rewrite MD; reflexivity|]. split.
  - unfold sd_get_timestamps. rewrite H6. rewrite MD. cbn [sm_n_levels sm_ref]. replace (level >=? wd_n_levels d)%Z with false by lia. reflexivity.
  - exists (fourier_level_md m freqs), x, y. split; [exact H6|]. split; [reflexivity|]. split; [exact H3|]. split; [exact H5|].
    intros TR idx v Hv. destruct (nd_last_vec_r _ _ _ _ _ H4 Hv) as (v0 & E & _). apply TR in E. cbn [fourier_level_md sl_n_freqs].
    unfold rfft_freqs in H2. destruct (Qeq_bool (wl_fs m) 0); [discriminate|].
    match type of H2 with (if ?b then _ else _) = _ => destruct b end; [discriminate|]. injection H2 as <-.
    rewrite map_length, arange_length. rewrite E. lia.
Qed.

Lemma c63_evals : forall rnd nt ndl p d d' level, evals_run p d = Ok d' -> (0 <= level < sm_n_levels (sd_md d))%Z ->
  sd_get_timestamps rnd nt ndl d' level = sd_get_timestamps rnd nt ndl d level /\
  sm_chans (sd_md d') = sm_chans (sd_md d) /\ sm_n_levels (sd_md d') = sm_n_levels (sd_md d) /\
  sm_history (sd_md d') = sm_history (sd_md d) ++ [COther "EvaluationFreqs"].
Proof.
  intros rnd nt ndl p d d' level H Hl. destruct (evals_level_at _ _ _ _ H Hl) as (m & evals & x & y & H1 & _ & _ & _ & _ & H6).
  assert (MD : exists r, sd_md d' = mkSpecMd (sm_fs (sd_md d)) (sm_chans (sd_md d)) (sm_n_levels (sd_md d)) (sm_first (sd_md d)) (sm_last (sd_md d)) (sm_info (sd_md d))
                 r (sm_ref (sd_md d)) (sm_history (sd_md d) ++ [COther "EvaluationFreqs"])).
  { unfold evals_run in H. apply bind_ok in H. destruct H as (r & Hr & H). apply make_spec_ok in H. subst d'. eexists. reflexivity. }
  destruct MD as [r MD]. split; [|rewrite MD; auto].
  unfold sd_get_timestamps. rewrite H6, H1, MD. reflexivity.
Qed.
