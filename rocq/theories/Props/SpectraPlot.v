(** Property C89: the spectra figures. *)
From Coq Require Import String Sorted.
From Verif Require Import Base.Prelude Base.B32 Base.ListUtil Base.NdArray Base.Cplx Model.Sampling Model.Time Model.Decimate Model.Window
  Model.Spectra Model.Display Model.SpectraPlot Spec.Display Spec.Calibrate Spec.Gather Spec.SpectraPlot Proofs.SpectraPlot Props.Display.
Open Scope list_scope. Open Scope Z_scope.

(** ** C89 *)
(** up to ten levels: one curve per level and channel, the mean modulus over all windows of the level against its frequencies *)
Theorem C89_levels : forall lttbc ycast cabs d max_pts, picks_points lttbc -> sm_n_levels (sd_md d) <= 10 ->
  (forall l, 0 <= l < sm_n_levels (sd_md d) -> exists m x, spectra_level d l m x /\ limit_ok max_pts (length (sl_freqs m))) ->
  exists tss, plot b32 lttbc ycast cabs d max_pts = Ok (concat tss) /\ Z.of_nat (length tss) = Z.max 0 (sm_n_levels (sd_md d)) /\
    forall l ts m x, nth_error tss l = Some ts -> spectra_level d (Z.of_nat l) m x -> length ts = length (sm_chans (sd_md d)) /\
      forall c t, nth_error ts c = Some t -> tr_row t = Z.of_nat c + 1 /\ tr_legend t = LLevel (Z.of_nat l) (sl_fs m) /\ tr_colour t = Z.of_nat l /\
        tr_show t = Nat.eqb c 0 /\ shows cabs ycast max_pts x (seq 0 (length x)) c (sl_freqs m) t.
Proof. intros. apply plot_spec; assumption. Qed.
Print Assumptions C89_levels.
(** more than ten levels: no figure *)
Theorem C89_many_levels_refuted : forall lttbc ycast cabs d max_pts, picks_points lttbc -> 10 < sm_n_levels (sd_md d) ->
  (forall l, 0 <= l < sm_n_levels (sd_md d) -> exists m x, spectra_level d l m x /\ limit_ok max_pts (length (sl_freqs m))) ->
  plot b32 lttbc ycast cabs d max_pts = Err StopIteration.
Proof. intros. apply plot_many_levels; assumption. Qed.
Print Assumptions C89_many_levels_refuted.
(** the curves of one level by groups of windows: the groups are consecutive intervals of the given length counted from
    midnight plus the offset, every window is in one; a curve per group and channel, the mean over the group's windows
    (not a number for a group without windows); more than ten groups: no figure *)
Theorem C89_level_by_groups : forall rnd nt ndl lttbc ycast cabs, picks_points lttbc ->
  forall d level max_pts grouping offset freq m x times, stack_len nt d grouping freq -> 0 < freq ->
  spectra_level d level m x -> limit_ok max_pts (length (sl_freqs m)) ->
  sd_get_timestamps rnd nt ndl d level = Ok times -> StronglySorted Z.le times ->
  exists groups, groups <> [] /\ consecutive_groups freq offset times groups /\ every_time_grouped times groups /\ no_group_after times groups /\
    ((10 < length groups)%nat -> plot_level_stack rnd nt ndl b32 lttbc ycast cabs d level max_pts grouping offset = Err StopIteration) /\
    ((length groups <= 10)%nat -> exists tss, plot_level_stack rnd nt ndl b32 lttbc ycast cabs d level max_pts grouping offset = Ok (concat tss) /\
       length tss = length groups /\
       forall i label ks ts, nth_error groups i = Some (label, ks) -> nth_error tss i = Some ts -> length ts = length (sm_chans (sd_md d)) /\
         forall c t, nth_error ts c = Some t -> tr_row t = Z.of_nat c + 1 /\ tr_legend t = LTime label /\ tr_colour t = Z.of_nat i /\ tr_show t = Nat.eqb c 0 /\
           (ks <> [] -> shows cabs ycast max_pts x (map Z.to_nat ks) c (sl_freqs m) t) /\ (ks = [] -> tr_y t = None)).
Proof. exact level_stack_spec. Qed.
Print Assumptions C89_level_by_groups.
(** without a grouping: one curve per channel, over all windows *)
Theorem C89_level_default : forall rnd nt ndl lttbc ycast cabs, picks_points lttbc ->
  forall d level max_pts m x times, spectra_level d level m x -> limit_ok max_pts (length (sl_freqs m)) ->
  sd_get_timestamps rnd nt ndl d level = Ok times -> StronglySorted Z.le times ->
  (forall t, In t times -> nt (sm_first (sd_md d)) <= t < nt (sm_last (sd_md d))) ->
  exists ts label, plot_level_stack rnd nt ndl b32 lttbc ycast cabs d level max_pts None 0 = Ok ts /\ length ts = length (sm_chans (sd_md d)) /\
    forall c t, nth_error ts c = Some t -> tr_row t = Z.of_nat c + 1 /\ tr_legend t = LTime label /\
      shows cabs ycast max_pts x (seq 0 (length x)) c (sl_freqs m) t.
Proof. exact default_stack_spec. Qed.
Print Assumptions C89_level_default.
(** sections of two or more channels when every group has a window *)
Theorem C89_section_partial : forall rnd nt ndl cabs log10 d level freq m x times, 0 < freq -> (2 <= length (sm_chans (sd_md d)))%nat -> sl_freqs m <> [] ->
  spectra_level d level m x -> (forall w c f z, coef x w c f = Some z -> (0 < cabs z)%Q) ->
  sd_get_timestamps rnd nt ndl d level = Ok times -> StronglySorted Z.le times ->
  exists groups, groups <> [] /\ consecutive_groups freq 0 times groups /\ every_time_grouped times groups /\ no_group_after times groups /\
    ((exists g, In g groups /\ snd g = []) -> plot_level_section rnd nt ndl cabs log10 d level freq = Err ValueError) /\
    ((forall g, In g groups -> snd g <> []) -> exists hs, plot_level_section rnd nt ndl cabs log10 d level freq = Ok hs /\ length hs = length (sm_chans (sd_md d)) /\
      forall c h, nth_error hs c = Some h -> section_of cabs log10 x (sl_freqs m) freq groups c h).
Proof. exact level_section_spec. Qed.
Print Assumptions C89_section_partial.
(** windows two groupings apart or more (with the default of 30 minutes: an hour, as at the deeper levels): no section *)
Theorem C89_sparse_windows_refuted : forall rnd nt ndl cabs log10 d level freq m x times i a b, 0 < freq -> (2 <= length (sm_chans (sd_md d)))%nat -> sl_freqs m <> [] ->
  spectra_level d level m x -> (forall w c f z, coef x w c f = Some z -> (0 < cabs z)%Q) ->
  sd_get_timestamps rnd nt ndl d level = Ok times -> StronglySorted Z.le times ->
  nth_error times i = Some a -> nth_error times (S i) = Some b -> 2 * freq <= b - a ->
  plot_level_section rnd nt ndl cabs log10 d level freq = Err ValueError.
Proof.
  intros rnd nt ndl cabs log10 d level freq m x times i a b F C NF SP POS T ST Ha Hb D.
  destruct (level_section_spec rnd nt ndl cabs log10 d level freq m x times F C NF SP POS T ST) as (groups & _ & CG & EG & _ & E & _).
  apply E. exact (gap_group freq 0 times groups i a b F ST CG EG Ha Hb D).
Qed.
Print Assumptions C89_sparse_windows_refuted.
(** data of a single channel: no section *)
Theorem C89_one_channel_refuted : forall rnd nt ndl cabs log10 d level freq m times, 0 <= level -> nth_error (sm_levels (sd_md d)) (Z.to_nat level) = Some m ->
  sd_get_timestamps rnd nt ndl d level = Ok times -> length (sm_chans (sd_md d)) = 1%nat ->
  plot_level_section rnd nt ndl cabs log10 d level freq = Err ZeroDivisionError.
Proof. exact section_one_channel. Qed.
Print Assumptions C89_one_channel_refuted.

(** *** instances *)
Definition ex_win (v : Q) : list (list cq) := [[mkC v 0; mkC (2 * v) 0]; [mkC 0 (10 * v); mkC 0 100]].
Definition ex_x : list (list (list cq)) := map ex_win [1; 3; 2; 4; 6]%Q.
(* window starts every [step] seconds *)
Definition ex_level (step : Z) : spec_level := mkSpecLevel (inject_Z 2 / inject_Z step) 5 2 0 0 2 [8%Q; 4%Q].
Definition ex_data (step n : Z) : spec_data cq :=
  mkSpec (mkSpecMd [] ["Ex"; "Hy"]%string n 0%Q (inject_Z (5 * step)) ""%string (map (fun _ => ex_level step) (arange n)) 0%Q [])
         (map (fun l => (l, nd3 ex_x)) (arange n)).
Definition ns (q : Q) : Z := qfloor (q * 1000000000).
Definition ex_abs (z : cq) : Q := (Qabs (re z) + Qabs (im z))%Q.
Lemma ex_lev step n l : 0 <= l < n -> spectra_level (ex_data step n) l (ex_level step) ex_x.
Proof.
  intros H. split; [exact H|]. split.
  { cbn [ex_data sd_md sm_levels]. rewrite nth_error_map, Sampling.arange_nth by lia. reflexivity. }
  split.
  { unfold sd_at, ex_data. cbn [sd_data]. assert (G : forall ls, In l ls -> find (fun kv : Z * nd cq => Z.eqb (fst kv) l) (map (fun l => (l, nd3 ex_x)) ls) = Some (l, nd3 ex_x)).
    { induction ls as [|a ls IH]; intros I; [contradiction|]. cbn [map find fst]. destruct (Z.eqb_spec a l) as [->|N]; [reflexivity|]. destruct I as [->|I]; [congruence|exact (IH I)]. }
    rewrite G; [reflexivity|]. apply CalibrateFinal.arange_in. exact H. }
  split; [reflexivity|]. split; [|split; [discriminate|vm_compute; discriminate]].
  intros w Hw. apply in_map_iff in Hw. destruct Hw as (v & <- & _). split; [reflexivity|]. intros r [<-|[<-|[]]]; reflexivity.
Qed.
Lemma ex_all step n l : 0 <= l < sm_n_levels (sd_md (ex_data step n)) -> exists m x, spectra_level (ex_data step n) l m x /\ limit_ok (Some 10000) (length (sl_freqs m)).
Proof. intros H. exists (ex_level step), ex_x. split; [apply ex_lev; exact H|]. left. lia. Qed.
Example C89_levels_ex : exists ts, plot b32 first_points Qred ex_abs (ex_data 1200 2) (Some 10000) = Ok ts /\
  map tr_x ts = repeat [8; 4]%Q 4 /\ map (fun t => option_map (map Qred) (tr_y t)) ts = concat (repeat [Some [16 # 5; 32 # 5]; Some [32; 100]]%Q 2).
Proof. eexists. split; [vm_compute; reflexivity|]. split; vm_compute; reflexivity. Qed.
Example C89_levels_hyp : sm_n_levels (sd_md (ex_data 1200 2)) <= 10 /\
  forall l, 0 <= l < sm_n_levels (sd_md (ex_data 1200 2)) -> exists m x, spectra_level (ex_data 1200 2) l m x /\ limit_ok (Some 10000) (length (sl_freqs m)).
Proof. split; [vm_compute; discriminate|apply ex_all]. Qed.
Example C89_many_levels_ex : plot b32 first_points Qred ex_abs (ex_data 1200 11) (Some 10000) = Err StopIteration.
Proof. apply C89_many_levels_refuted; [exact first_points_ok|reflexivity|apply ex_all]. Qed.
Example C89_starts : sd_get_timestamps (fun q => q) ns ns (ex_data 1200 1) 0 = Ok (map (fun k => k * 1200000000000) [0; 1; 2; 3; 4]).
Proof. vm_compute. reflexivity. Qed.
Example C89_groups_ex : group_bins 1800000000000 0 (map (fun k => k * 1200000000000) [0; 1; 2; 3; 4]) =
  Ok [(0, [0; 1]); (1800000000000, [2]); (3600000000000, [3; 4])].
Proof. vm_compute. reflexivity. Qed.
Example C89_by_groups_ex : exists ts, plot_level_stack (fun q => q) ns ns b32 first_points Qred ex_abs (ex_data 1200 1) 0 (Some 10000) (Some 1800000000000) 0 = Ok ts /\
  map tr_legend ts = [LTime 0; LTime 0; LTime 1800000000000; LTime 1800000000000; LTime 3600000000000; LTime 3600000000000] /\
  map (fun t => option_map (map Qred) (tr_y t)) ts = [Some [2; 4]; Some [20; 100]; Some [2; 4]; Some [20; 100]; Some [5; 10]; Some [50; 100]]%Q.
Proof. eexists. split; [vm_compute; reflexivity|]. split; vm_compute; reflexivity. Qed.
Example C89_default_ex : exists ts, plot_level_stack (fun q => q) ns ns b32 first_points Qred ex_abs (ex_data 1200 1) 0 (Some 10000) None 0 = Ok ts /\
  map (fun t => option_map (map Qred) (tr_y t)) ts = [Some [16 # 5; 32 # 5]; Some [32; 100]]%Q.
Proof. eexists. split; vm_compute; reflexivity. Qed.
Example C89_default_hyp : StronglySorted Z.le (map (fun k => k * 1200000000000) [0; 1; 2; 3; 4]) /\
  forall t, In t (map (fun k => k * 1200000000000) [0; 1; 2; 3; 4]) -> ns (sm_first (sd_md (ex_data 1200 1))) <= t < ns (sm_last (sd_md (ex_data 1200 1))).
Proof.
  split; [repeat constructor; lia|]. replace (ns (sm_first (sd_md (ex_data 1200 1)))) with 0 by (vm_compute; reflexivity).
  replace (ns (sm_last (sd_md (ex_data 1200 1)))) with 6000000000000 by (vm_compute; reflexivity). intros t H. cbn [map In] in H. lia.
Qed.
Lemma ex_positive w c f z : coef ex_x w c f = Some z -> (0 < ex_abs z)%Q.
Proof.
  intros H. destruct w as [|[|[|[|[|w]]]]]; [..|destruct w; discriminate H]; (destruct c as [|[|c]]; [..|destruct c; discriminate H]);
    (destruct f as [|[|f]]; [..|destruct f; discriminate H]); cbn in H; injection H as <-; reflexivity.
Qed.
Example C89_section_ex : exists hs, plot_level_section (fun q => q) ns ns ex_abs (fun q => inject_Z (Z.log2 (qfloor q))) (ex_data 1200 1) 0 1800000000000 = Ok hs /\
  map hm_z hs = [[[1; 1; 2]; [2; 2; 3]]; [[4; 4; 5]; [6; 6; 6]]]%Q /\ map hm_ticks hs = [[1; 2; 3]; [4; 5; 6]] /\
  map hm_x hs = repeat [900000000000; 2700000000000; 4500000000000] 2.
Proof. eexists. split; [vm_compute; reflexivity|]. repeat split; vm_compute; reflexivity. Qed.
Example C89_sparse_ex : plot_level_section (fun q => q) ns ns ex_abs (fun q => q) (ex_data 7200 1) 0 1800000000000 = Err ValueError.
Proof.
  refine (C89_sparse_windows_refuted _ _ _ _ _ _ _ _ _ ex_x (map (fun k => k * 7200000000000) [0; 1; 2; 3; 4]) 0%nat 0 7200000000000 _ _ _ (ex_lev 7200 1 0 _) ex_positive _ _ _ _ _).
  - reflexivity.
  - cbn. lia.
  - discriminate.
  - lia.
  - vm_compute. reflexivity.
  - repeat constructor; lia.
  - reflexivity.
  - reflexivity.
  - lia.
Qed.
