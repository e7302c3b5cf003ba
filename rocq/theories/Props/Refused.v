(** Property C91: requests for what an object does not hold are refused, with the documented error. *)
From Coq Require Import String.
From Verif Require Import Base.Prelude Base.Rounding Base.ListUtil Base.NdArray Base.FileSys Model.Sampling Model.Time Model.Decimate Model.Window Model.Timestamps Model.Spectra
  Model.ChanTypes Model.Gather Model.Project Model.Regression Model.Display Model.TransFunc Model.Persist Model.Process Spec.ChanTypes Spec.Refused Proofs.ChanTypes Proofs.Refused Proofs.ToyDec Proofs.DecFinal.
Open Scope list_scope. Open Scope Z_scope.

(** ** Levels: whatever the decimator, the windowers, the Fourier transform or the evaluation-frequency
    calculator return answers get_level for its n_levels levels and refuses every other one *)
Theorem C91_decimated_levels : forall rnd orc b maxf p td d, decimator_run rnd orc b maxf p td = Ok d -> served (get_level d) (dd_n_levels d) KeyError ValueError.
Proof. exact r_decimator. Qed.
Theorem C91_windowed_levels : forall rnd nt ndl p ref d wd,
  windower_run rnd nt ndl ref p d = Ok wd \/ (exists c, windower_target_run rnd nt ndl c ref p d = Ok wd) ->
  served (wd_get_level wd) (wd_n_levels wd) KeyError ValueError.
Proof. intros rnd nt ndl p ref d wd [H|(c & H)]; [exact (r_windower _ _ _ _ _ _ _ H)|exact (r_target _ _ _ _ _ _ _ _ H)]. Qed.
Theorem C91_spectra_levels : forall rnd nfl tr p wd sd se, 0 <= wd_n_levels wd -> fourier_run rnd nfl tr wd = Ok sd -> evals_run p sd = Ok se ->
  served (sd_get_level sd) (wd_n_levels wd) KeyError ValueError /\ served (sd_get_level se) (wd_n_levels wd) KeyError ValueError.
Proof.
  intros rnd nfl tr p wd sd se P F V. destruct (r_fourier _ _ _ _ _ P F) as [N S]. split; [exact S|]. rewrite <- N in *. exact (proj2 (r_evals _ _ _ P V)).
Qed.
Example C91_levels_ex : exists d, decimator_run exact toyD true 4 (mkDecParams 1 3 2 5 [] [1; 2; 4] [1; 2; 2] [1; 1 # 2; 1 # 4]%Q) (dec_td 21) = Ok d /\ dd_n_levels d = 3.
Proof. eexists. split; vm_compute; reflexivity. Qed.

(** ** Decimation and window parameters *)
Theorem C91_window_parameters : forall p level, ~ (0 <= level < wp_n_levels p) ->
  wp_level p (wp_win_sizes p) level = Err ValueError /\ wp_level p (wp_olap_sizes p) level = Err ValueError.
Proof.
  intros p level N. unfold wp_level. destruct (Z.ltb_spec level 0) as [L|L]; [split; reflexivity|]. rewrite geb_true by lia. split; reflexivity.
Qed.

(** ** Timestamps of a level *)
Theorem C91_level_timestamps : forall A nt ndl (d : spec_data A) (dd : dec_data) level samples est,
  (sm_n_levels (sd_md d) <= level -> sd_get_timestamps exact nt ndl d level = Err ValueError) /\
  (dd_n_levels dd <= level -> dec_timestamps exact nt ndl dd level samples est = Err ValueError).
Proof.
  intros A nt ndl d dd level samples est. unfold sd_get_timestamps, dec_timestamps. split; intros H; rewrite geb_true by lia; reflexivity.
Qed.
(** but the timestamps of the level -1 are those of the last level: no error, although get_level(-1) is a KeyError *)
Theorem C91_negative_level_refuted : forall A rnd nt ndl (d : spec_data A) ls m, sm_levels (sd_md d) = ls ++ [m] -> sm_n_levels (sd_md d) = Z.of_nat (List.length (ls ++ [m])) ->
  holds_levels (sm_n_levels (sd_md d)) (sd_data d) ->
  sd_get_level d (-1) = Err KeyError /\
  sd_get_timestamps rnd nt ndl d (-1) = sd_get_timestamps rnd nt ndl d (sm_n_levels (sd_md d) - 1).
Proof.
  intros A rnd nt ndl d ls m L N H. split; [exact (proj1 (proj2 (r_spec A d H ltac:(lia) (-1))) ltac:(lia))|].
  unfold sd_get_timestamps, sd_level_md. rewrite app_length in N. cbn [List.length] in N. rewrite !geb_false by lia. rewrite L.
  unfold py_nth. rewrite app_length. cbn [List.length]. change (-1 <? 0) with true.
  destruct (Z.ltb_spec (sm_n_levels (sd_md d) - 1) 0) as [B|B]; [lia|]. cbv iota.
  destruct (Z.ltb_spec (-1 + Z.of_nat (List.length ls + 1)) 0) as [C|C]; [lia|].
  replace (Z.to_nat (-1 + Z.of_nat (List.length ls + 1))) with (Z.to_nat (sm_n_levels (sd_md d) - 1)) by lia.
  destruct (Z.ltb_spec (sm_n_levels (sd_md d) - 1) 0) as [D|D]; [lia|]. reflexivity.
Qed.
(** a sampling frequency, or an increment, of zero *)
Theorem C91_zero_fs : forall rnd nt ndl first samples est n ref w o m t meth,
  (estimate rnd nt ndl first 0 n samples = Err ZeroDivisionError) /\
  (forall td, fs (meta td) = 0%Q -> time_timestamps rnd nt ndl td samples est = Err ZeroDivisionError) /\
  (lm_fs m = 0%Q -> get_first_and_last_win rnd ref m w o = Err ZeroDivisionError /\ get_win_table rnd nt ndl ref m w o = Err ZeroDivisionError) /\
  (forall k off, get_win_starts rnd nt ndl ref w o 0 k off = Err ZeroDivisionError /\ get_win_starts rnd nt ndl ref w w 1 k off = Err ZeroDivisionError) /\
  (forall k, rfft_freqs rnd k 0 = Err ZeroDivisionError) /\
  ((ref <= t)%Q -> datetime_to_win exact ref t 0 meth = Err ZeroDivisionError).
Proof.
  intros. repeat match goal with |- _ /\ _ => apply conj end.
  - unfold estimate. destruct n as [n|]; reflexivity.
  - intros td E. unfold time_timestamps, stamps_of. rewrite E. destruct est; [|reflexivity]. destruct samples; reflexivity.
  - intros E. unfold get_win_table, get_first_and_last_win. rewrite E. split; reflexivity.
  - intros k off. unfold get_win_starts. split; [reflexivity|]. change (Qeq_bool 1 0) with false. cbv iota zeta. rewrite Z.sub_diag. reflexivity.
  - intros k. reflexivity.
  - intros L. unfold datetime_to_win. destruct (Qltb t ref) eqn:E; [apply Qltb_true in E; exfalso; apply (Qlt_not_le _ _ E L)|].
    reflexivity.
Qed.

(** ** Windows and evaluation-frequency indices: 0 .. n-1 are served, anything else is a ValueError *)
Theorem C91_windows_and_indices : forall A (d : win_data) (s : spec_data A) level m sm,
  wd_level_md d level = Ok m -> sd_level_md s level = Ok sm ->
  (forall w, ~ (0 <= w < wl_n_wins m) -> get_local d level w = Err ValueError) /\
  (forall f, ~ (0 <= f < sl_n_freqs sm) -> sd_get_freq s level f = Err ValueError).
Proof.
  intros A d s level m sm W S. split; intros k K.
  - unfold get_local. rewrite W. cbn [bind]. destruct (Z.ltb_spec k 0); [reflexivity|]. rewrite geb_true by lia. reflexivity.
  - unfold sd_get_freq. rewrite S. cbn [bind]. destruct (Z.ltb_spec k 0); [reflexivity|]. rewrite geb_true by lia. reflexivity.
Qed.

(** ** Channels *)
Theorem C91_channels : forall A (td : tdata) (tm : tmeta) (wd : win_data) (sd : spec_data A) c,
  (get_chan td c = Err ChannelNotFoundError <-> ~ In c (chans (meta td))) /\
  (forall dt x, set_chan td c dt x = Err ChannelNotFoundError <-> ~ In c (chans (meta td))) /\
  (chan_meta tm c = Err ChannelNotFoundError <-> ~ In c (chans tm)) /\
  (~ In c (wd_chans wd) -> forall level, wd_get_chan wd level c = Err ChannelNotFoundError) /\
  (~ In c (sm_chans (sd_md sd)) -> forall level, sd_get_chan sd level c = Err ChannelNotFoundError) /\
  (~ In c (sm_chans (sd_md sd)) -> forall level before after, sd_get_chans sd level (before ++ c :: after) = Err ChannelNotFoundError).
Proof.
  intros A td tm wd sd c. repeat match goal with |- _ /\ _ => apply conj end.
  - unfold get_chan. split; [intros H I; rewrite (proj2 (chan_in_iff' _ _) I) in H|intros N; rewrite chan_in_not by exact N; reflexivity].
    destruct (chan_index _ _); [destruct (nth_error _ _); discriminate H|discriminate H].
  - intros dt x. unfold set_chan. split; [intros H I; rewrite (proj2 (chan_in_iff' _ _) I) in H|intros N; rewrite chan_in_not by exact N; reflexivity].
    destruct (negb _); [discriminate H|]. destruct (negb _); [discriminate H|]. destruct (chan_index _ _); [destruct (Nat.ltb _ _); discriminate H|discriminate H].
  - unfold chan_meta. split; [intros H I; rewrite (proj2 (chan_in_iff' _ _) I) in H|intros N; rewrite chan_in_not by exact N; reflexivity].
    destruct (lookup _ _); discriminate H.
  - intros N level. unfold wd_get_chan. rewrite first_not by exact N. reflexivity.
  - intros N level. unfold sd_get_chan. rewrite first_not by exact N. reflexivity.
  - intros N level before after. unfold sd_get_chans.
    assert (E : mapM (fun c0 => match first_index c0 (sm_chans (sd_md sd)) with None => Err ChannelNotFoundError | Some i => Ok i end) (before ++ c :: after) = Err ChannelNotFoundError).
    { induction before as [|x t IH]; cbn [app mapM]; [rewrite first_not by exact N; reflexivity|]. destruct (first_index x _); [|reflexivity]. cbn [bind]. rewrite IH. reflexivity. }
    rewrite E. reflexivity.
Qed.
(** channel types, the types of channels a recording has no metadata of *)
Theorem C91_channel_types : forall tm c, (get_chan_type c = Err ValueError <-> ~ electric_name c /\ ~ magnetic_name c) /\
  (meta_of tm c = Err KeyError <-> ~ In c (map fst (tm_chans_metadata tm))).
Proof.
  intros tm c. split.
  - rewrite <- electric_iff, <- magnetic_iff. unfold get_chan_type. destruct (is_electric c); [split; [discriminate|intros [H _]; exfalso; apply H; reflexivity]|].
    destruct (is_magnetic c); [split; [discriminate|intros [_ H]; exfalso; apply H; reflexivity]|]. split; [intros _; split; discriminate|reflexivity].
  - unfold meta_of. split.
    + intros H I. destruct (assoc_some _ _ _ I) as (x & E & _). rewrite E in H. discriminate H.
    + intros N. rewrite assoc_not by exact N. reflexivity.
Qed.

(** ** Samples and times *)
Theorem C91_samples : forall rnd fs first n s a b,
  (check_sample n s = Err ValueError <-> ~ (0 <= s < n)) /\ (check_sample n s = Ok true <-> 0 <= s < n) /\
  (sample_to_datetime rnd fs first s (Some n) = Err ValueError <-> ~ (0 <= s < n)) /\
  (samples_to_datetimes rnd fs first a b = Err ValueError <-> b <= a).
Proof.
  intros rnd fs first n s a b. unfold check_sample, sample_to_datetime, samples_to_datetimes.
  repeat match goal with |- _ /\ _ => apply conj end.
  - destruct (Z.ltb_spec s 0); [split; [lia|reflexivity]|]. rewrite Z.geb_leb. destruct (Z.leb_spec n s); [split; [lia|reflexivity]|]. split; [discriminate|lia].
  - destruct (Z.ltb_spec s 0); [split; [discriminate|lia]|]. rewrite Z.geb_leb. destruct (Z.leb_spec n s); [split; [discriminate|lia]|]. split; [lia|reflexivity].
  - destruct (Z.ltb_spec s 0); [split; [lia|reflexivity]|]. rewrite Z.geb_leb. destruct (Z.leb_spec n s); [split; [lia|reflexivity]|]. split; [discriminate|lia].
  - rewrite Z.geb_leb. destruct (Z.leb_spec b a); [split; [lia|reflexivity]|]. split; [discriminate|lia].
Qed.

(** ** Sites and measurements *)
Theorem C91_sites : forall M (p : pproject M) (s : psite) name,
  (pget_site p name = Err SiteNotFoundError <-> ~ In name (map fst (pr_sites p))) /\
  (forall x, pget_site p name = Ok x -> In (name, x) (pr_sites p)) /\
  (get_measurement s name = Err MeasurementNotFoundError <-> ~ In name (map fst (st_meas s))) /\
  (forall x, get_measurement s name = Ok x -> In (name, x) (st_meas s)) /\
  (~ In name (map fst (pr_sites p)) -> get_concurrent p name = Err KeyError).
Proof.
  intros M p s name. unfold pget_site, get_measurement, get_concurrent. repeat match goal with |- _ /\ _ => apply conj end.
  - split; [intros H I; destruct (assoc_some _ _ _ I) as (x & E & _); rewrite E in H; discriminate H|intros N; rewrite assoc_not by exact N; reflexivity].
  - intros x H. destruct (in_dec string_dec name (map fst (pr_sites p))) as [I|I].
    + destruct (assoc_some _ _ _ I) as (y & E & J). rewrite E in H. injection H as <-. exact J.
    + rewrite assoc_not in H by exact I. discriminate H.
  - split; [intros H I; destruct (assoc_some _ _ _ I) as (x & E & _); rewrite E in H; discriminate H|intros N; rewrite assoc_not by exact N; reflexivity].
  - intros x H. destruct (in_dec string_dec name (map fst (st_meas s))) as [I|I].
    + destruct (assoc_some _ _ _ I) as (y & E & J). rewrite E in H. injection H as <-. exact J.
    + rewrite assoc_not in H by exact I. discriminate H.
  - intros N. rewrite assoc_not by exact N. reflexivity.
Qed.

(** ** Paths: what the path checks say agrees with what is on the disk *)
Theorem C91_paths : forall s p, match kind_at s p with
  | None => dir_contents s p = Err PathNotFoundError /\ assert_dir s p = Err FileNotFoundError /\ assert_file s p = Err FileNotFoundError
  | Some (KFile _) => dir_contents s p = Err NotDirectoryError /\ assert_dir s p = Err NotDirectoryError /\ assert_file s p = Ok tt
  | Some KDir => answers (dir_contents s p) /\ assert_dir s p = Ok tt /\ assert_file s p = Err NotFileError
  end.
Proof.
  intros s p. unfold kind_at, dir_contents, assert_dir, assert_file, exists_, is_dir_, is_file_. destruct (look s p) as [[c|es]|]; cbn [option_map kind_of negb].
  - repeat split.
  - repeat match goal with |- _ /\ _ => apply conj end; [|reflexivity|reflexivity]. unfold answers. eexists. reflexivity.
  - repeat split.
Qed.

(** ** Window selections: get_n_wins *)
Theorem C91_selection : forall (s : selection) level idx,
  (sel_n_levels s <= level -> get_n_wins s level idx = Err ValueError) /\
  (level < 0 \/ sel_n_levels s <= level -> get_eval_wins s level idx = Err KeyError) /\
  (level < 0 -> get_n_wins s level idx = Err KeyError) /\
  (0 <= level < sel_n_levels s -> (answers (get_n_wins s level idx) <-> 0 <= idx < dp_per_level (sel_params s)) /\
     (~ (0 <= idx < dp_per_level (sel_params s)) -> get_n_wins s level idx = Err KeyError /\ get_eval_wins s level idx = Err KeyError)).
Proof.
  intros s level idx. unfold get_n_wins, get_eval_wins, sel_has_eval.
  assert (T : level < 0 \/ sel_n_levels s <= level -> sel_table s level = Err KeyError).
  { intros [L|L]; unfold sel_table.
    - destruct (nth_error _ _); [|reflexivity]. destruct (Z.ltb_spec level 0); [reflexivity|lia].
    - destruct (nth_error (sel_tables s) (Z.to_nat level)) eqn:E; [|reflexivity]. assert (L' : (Z.to_nat level < List.length (sel_tables s))%nat) by (apply nth_error_Some; rewrite E; discriminate). unfold sel_n_levels in L.
      destruct (Z.ltb_spec level 0); [reflexivity|lia]. }
  assert (N : 0 <= sel_n_levels s) by (unfold sel_n_levels; lia).
  repeat match goal with |- _ /\ _ => apply conj end.
  - intros L. rewrite geb_true by lia. reflexivity.
  - intros L. rewrite T by exact L. reflexivity.
  - intros L. rewrite geb_false by lia. rewrite T by (left; exact L). reflexivity.
  - intros L. rewrite geb_false by lia.
    assert (exists t, sel_table s level = Ok t) as (t & ->).
    { unfold sel_table, sel_n_levels in *. destruct (nth_error (sel_tables s) (Z.to_nat level)) as [t|] eqn:E; [|apply nth_error_None in E; lia].
      destruct (Z.ltb_spec level 0); [lia|]. exists t. reflexivity. }
    cbn [bind]. destruct (Z.leb_spec 0 idx) as [A|A]; destruct (Z.ltb_spec idx (dp_per_level (sel_params s))) as [B|B]; cbn [andb].
    + split; [split; [lia|intros _; eexists; reflexivity]|lia].
    + split; [split; [intros (v & H); discriminate H|lia]|intros _; split; reflexivity].
    + split; [split; [intros (v & H); discriminate H|lia]|intros _; split; reflexivity].
    + split; [split; [intros (v & H); discriminate H|lia]|intros _; split; reflexivity].
Qed.

(** ** Solutions: a component that is not there is a ValueError; resistivities need one period per value *)
Theorem C91_components : forall (s : solution) key cabs periods comp,
  (~ In key (map fst (so_components s)) -> get_component s key = Err ValueError) /\
  (List.length periods <> List.length comp -> get_resistivity cabs periods comp = Err ValueError).
Proof.
  intros s key cabs periods comp. split.
  - intros N. unfold get_component. rewrite sget_not by exact N. reflexivity.
  - intros N. unfold get_resistivity. destruct (Nat.eqb_spec (List.length periods) (List.length comp)); [contradiction|reflexivity].
Qed.

(** ** Transfer functions: channels left out, a variation of more than 16 characters *)
Theorem C91_transfer_function : forall k a,
  (or_default (a_in a) (k_in k) = None -> a_cross a = None -> make_tf k a = Err KeyError) /\
  (forall o i c no ni nc v, a_variation a = Some v -> a_out a = Some o -> a_in a = Some i -> a_cross a = Some c -> a_n_out a = Some no -> a_n_in a = Some ni -> a_n_cross a = Some nc ->
     (make_tf k a = Err ValidationError <-> 16 < Z.of_nat (String.length v))).
Proof.
  intros k a. split.
  - intros I C. unfold make_tf. rewrite I, C. reflexivity.
  - intros o i c no ni nc v V O I C NO NI NC. unfold make_tf, or_default, count_of. rewrite V, O, I, C, NO, NI, NC. cbn [bind].
    destruct (Z.ltb_spec 16 (Z.of_nat (String.length v))); split; try reflexivity; try lia; discriminate.
Qed.

(** ** Process and transfer function dictionaries: no name, or a name nobody registered, or not a dictionary *)
Theorem C91_validation : forall reg treg tbase d t,
  (assoc "name"%string d = None -> fst (validate reg treg tbase (VDict d)) = Err KeyError /\ fst (validate_tf treg tbase (VDict d)) = Err KeyError) /\
  (forall n, assoc "name"%string d = Some (VStr n) -> assoc n reg = None -> fst (validate reg treg tbase (VDict d)) = Err ValueError) /\
  (forall n, assoc "name"%string d = Some (VStr n) -> n <> "TransferFunction"%string -> assoc n treg = None -> fst (validate_tf treg tbase (VDict d)) = Err ValueError) /\
  (forall l, fst (validate reg treg tbase (VList l)) = Err ValueError /\ fst (validate_tf treg tbase (VList l)) = Err ValueError) /\
  (fst (validate reg treg tbase (VStr t)) = Err ValueError /\ fst (validate_tf treg tbase (VStr t)) = Err ValueError) /\
  (fst (validate reg treg tbase (VOther t)) = Err ValueError /\ fst (validate_tf treg tbase (VOther t)) = Err ValueError).
Proof.
  intros reg treg tbase d t. repeat match goal with |- _ /\ _ => apply conj end; try reflexivity.
  - intros E. cbn [validate validate_tf]. rewrite E. split; reflexivity.
  - intros n E R. cbn [validate]. rewrite E. cbv zeta. rewrite R. reflexivity.
  - intros n E D R. cbn [validate_tf]. rewrite E. cbv zeta. destruct (String.eqb_spec n "TransferFunction"); [contradiction|]. rewrite R. reflexivity.
  - intros l. split; reflexivity.
Qed.

(** examples meeting the hypotheses *)
Definition C91_spectra : spec_data Q :=
  mkSpec (mkSpecMd [4; 2]%Q ["Ex"; "Hy"]%string 2 0 10 "" [mkSpecLevel 4 3 4 1 0 2 [1; 2]%Q; mkSpecLevel 2 2 4 1 0 2 [1 # 2; 1]%Q] 0 [])
    [(0%Z, nd3 [[[1; 2]; [3; 4]]; [[5; 6]; [7; 8]]; [[1; 1]; [2; 2]]]); (1%Z, nd3 [[[1; 2]; [3; 4]]; [[5; 6]; [7; 8]]])]%Q.
Example C91_spectra_holds : holds_levels 2 (sd_data C91_spectra).
Proof.
  intros l. split.
  - intros (x & [E|[E|[]]]); injection E as <- _; lia.
  - intros H. assert (l = 0 \/ l = 1) as [->| ->] by lia; eexists; [left|right; left]; reflexivity.
Qed.
Example C91_negative_ex : sd_get_level C91_spectra (-1) = Err KeyError /\ sd_get_level C91_spectra 2 = Err ValueError /\
  sd_get_timestamps exact (fun q => qfloor (q * 1000000000)) (fun q => qfloor (q * 1000000000)) C91_spectra (-1) = Ok [0; 1500000000] /\
  sd_get_timestamps exact (fun q => qfloor (q * 1000000000)) (fun q => qfloor (q * 1000000000)) C91_spectra 2 = Err ValueError /\
  sd_get_freq C91_spectra 1 2 = Err ValueError /\ sd_get_chans C91_spectra 0 ["Hy"; "Hx"]%string = Err ChannelNotFoundError.
Proof. vm_compute. repeat split; reflexivity. Qed.
Example C91_paths_ex : let s := Dir [("a"%string, File "x"); ("b"%string, Dir [("c"%string, File "y")])] in
  kind_at s ["a"%string] = Some (KFile "x") /\ kind_at s ["b"%string] = Some KDir /\ kind_at s ["b"; "d"]%string = None /\ assert_file s ["b"%string] = Err NotFileError.
Proof. vm_compute. repeat split; reflexivity. Qed.
Example C91_selection_ex : let s := mkSel ["A"]%string (mkDecParams 4 1 2 5 [] [1] [1] [4]%Q) [[(3, ["m1"]%string); (5, ["m1"]%string)]] in
  get_n_wins s 0 1 = Ok 2 /\ get_n_wins s 0 2 = Err KeyError /\ get_n_wins s 1 0 = Err ValueError.
Proof. vm_compute. repeat split; reflexivity. Qed.

Print Assumptions C91_decimated_levels.
Print Assumptions C91_windowed_levels.
Print Assumptions C91_spectra_levels.
Print Assumptions C91_window_parameters.
Print Assumptions C91_level_timestamps.
Print Assumptions C91_negative_level_refuted.
Print Assumptions C91_zero_fs.
Print Assumptions C91_windows_and_indices.
Print Assumptions C91_channels.
Print Assumptions C91_channel_types.
Print Assumptions C91_samples.
Print Assumptions C91_sites.
Print Assumptions C91_paths.
Print Assumptions C91_selection.
Print Assumptions C91_components.
Print Assumptions C91_transfer_function.
Print Assumptions C91_validation.
