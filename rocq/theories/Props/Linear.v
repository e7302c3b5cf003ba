(** Property C87: a linear relation between recorded channels is recovered by the whole run. *)
From Coq Require Import String.
From Verif Require Import Base.Prelude Base.Rounding Base.ListUtil Base.NdArray Base.Cplx
  Model.Sampling Model.Time Model.Decimate Model.Window Model.Spectra Model.Calibrate Model.Gather Model.Regression Model.Pipeline
  Spec.Calibrate Spec.Gather Spec.Regression Spec.Pipeline Spec.Linear
  Proofs.Toy Proofs.EvalFreqs Proofs.GatherQuick Proofs.PipelineFinal Proofs.PipelineUse Proofs.SolversMore Proofs.SolversEx Proofs.Linear.
Open Scope list_scope. Open Scope Z_scope.

(** ** C87 *)
(** from the recorded samples to the transfer function: if every output channel is, sample by sample, a fixed real
    combination of the input channels, quick_tf returns these coefficients at every level and evaluation frequency *)
Theorem C87_quick_run_recovers : forall (L : library) (c : config) name td p ed Zt, let tf := cf_tf c in
  linear_library L -> (forall b k l, linear_routine (o_filter (l_orc L) b k l)) -> (forall x, l_drnd L x == x)%Q -> Forall linear_proc (cf_time c) ->
  l_cmul L = ctimes -> junk_shape (l_junk1 L) (l_junk2 L) -> least_squares (l_fit L) ->
  processable L c td -> NoDup (tf_out tf) -> NoDup (tf_in tf) -> keys_distinct tf ->
  NoDup (chans (meta td)) -> mixed td tf Zt ->
  to_evals L c (first_time (meta td)) td = Ok (p, ed) ->
  (forall level f, 0 <= level < sm_n_levels (sd_md ed) -> 0 <= f < dp_per_level p -> evals_determine ed tf level f) ->
  exists sol, quick_tf L c None name td = Ok sol /\
    forall level f, 0 <= level < sm_n_levels (sd_md ed) -> 0 <= f < dp_per_level p ->
      exists t fr, sol_tensor sol (dp_per_level p * level + f) = Ok t /\ Forall2 (Forall2 ceq) t (map (map real) Zt) /\
        nth_error (so_freqs sol) (Z.to_nat (dp_per_level p * level + f)) = Some fr /\ level_eval_freq p level f = Ok fr.
Proof. exact recovers_raw. Qed.
Print Assumptions C87_quick_run_recovers.
(** any time processors, when the relation holds after them *)
Theorem C87_after_time_processors : forall (L : library) (c : config) name td td' p ed Zt, let tf := cf_tf c in
  linear_library L -> l_cmul L = ctimes -> junk_shape (l_junk1 L) (l_junk2 L) -> least_squares (l_fit L) ->
  processable L c td -> NoDup (tf_out tf) -> NoDup (tf_in tf) -> keys_distinct tf ->
  run_all (l_rnd L) (l_drnd L) (l_orc L) (cf_time c) td = Ok td' -> NoDup (chans (meta td')) -> mixed td' tf Zt ->
  to_evals L c (first_time (meta td)) td = Ok (p, ed) ->
  (forall level f, 0 <= level < sm_n_levels (sd_md ed) -> 0 <= f < dp_per_level p -> evals_determine ed tf level f) ->
  exists sol, quick_tf L c None name td = Ok sol /\
    forall level f, 0 <= level < sm_n_levels (sd_md ed) -> 0 <= f < dp_per_level p ->
      exists t fr, sol_tensor sol (dp_per_level p * level + f) = Ok t /\ Forall2 (Forall2 ceq) t (map (map real) Zt) /\
        nth_error (so_freqs sol) (Z.to_nat (dp_per_level p * level + f)) = Some fr /\ level_eval_freq p level f = Ok fr.
Proof. exact recovers. Qed.
Print Assumptions C87_after_time_processors.
(** which time processors keep the relation *)
Theorem C87_processors_keep : forall rnd drnd orc ps tf Zt, (forall x, drnd x == x)%Q -> (forall b k l, linear_routine (o_filter orc b k l)) ->
  (forall q, linear_routine (o_decimate orc q)) -> (forall p q, linear_routine (o_resample orc p q)) -> Forall linear_proc ps ->
  forall td td', run_all rnd drnd orc ps td = Ok td' -> tf_out tf <> [] -> mixed td tf Zt -> mixed td' tf Zt /\ chans (meta td') = chans (meta td).
Proof. exact mixed_run_all. Qed.
Print Assumptions C87_processors_keep.
(** complex relations between the spectra of the channels, at every evaluation frequency its own *)
Theorem C87_spectra_recover : forall (L : library) (c : config) name td p ed Zt, let tf := cf_tf c in
  l_cmul L = ctimes -> junk_shape (l_junk1 L) (l_junk2 L) -> least_squares (l_fit L) ->
  processable L c td -> NoDup (tf_out tf) -> NoDup (tf_in tf) -> keys_distinct tf ->
  to_evals L c (first_time (meta td)) td = Ok (p, ed) ->
  (forall level f, length (Zt level f) = length (tf_out tf) /\ wide (length (tf_in tf)) (Zt level f)) ->
  (forall level w f orow irow, 0 <= level < sm_n_levels (sd_md ed) -> window_row ed (tf_out tf) level w f orow -> window_row ed (tf_in tf) level w f irow ->
     Forall2 (fun Zo z => ceq z (cdot Zo irow)) (Zt level f) orow) ->
  (forall level f, 0 <= level < sm_n_levels (sd_md ed) -> 0 <= f < dp_per_level p -> evals_determine ed tf level f) ->
  exists sol, quick_tf L c None name td = Ok sol /\
    forall level f, 0 <= level < sm_n_levels (sd_md ed) -> 0 <= f < dp_per_level p ->
      exists t fr, sol_tensor sol (dp_per_level p * level + f) = Ok t /\ Forall2 (Forall2 ceq) t (Zt level f) /\
        nth_error (so_freqs sol) (Z.to_nat (dp_per_level p * level + f)) = Some fr /\ level_eval_freq p level f = Ok fr.
Proof. exact recovers_spectra. Qed.
Print Assumptions C87_spectra_recover.
(** the two runs of a project give the same transfer function *)
Theorem C87_project_recovers : forall (L : library) (c : config) cal proj site meas td p ed Zt s, let tf := cf_tf c in
  find (fun x : string * raw_site => String.eqb (fst x) site) proj = Some (site, [(meas, (fs (meta td), Ok td))]) ->
  keeps_fs L c td -> (forall x, no_success cal x) -> junk_rows L ->
  linear_library L -> (forall b k l, linear_routine (o_filter (l_orc L) b k l)) -> (forall x, l_drnd L x == x)%Q -> Forall linear_proc (cf_time c) ->
  l_cmul L = ctimes -> junk_shape (l_junk1 L) (l_junk2 L) -> least_squares (l_fit L) ->
  processable L c td -> NoDup (tf_out tf) -> NoDup (tf_in tf) -> keys_distinct tf ->
  NoDup (chans (meta td)) -> mixed td tf Zt ->
  to_evals L c (first_time (meta td)) td = Ok (p, ed) ->
  (forall level f, 0 <= level < sm_n_levels (sd_md ed) -> 0 <= f < dp_per_level p -> evals_determine ed tf level f) ->
  exists s' sol, process_time_to_evals L c cal (first_time (meta td)) proj site meas s = (s', Ok tt) /\
    process_evals_to_tf L c proj s' (fs (meta td)) site None None = Ok sol /\
    forall level f, 0 <= level < sm_n_levels (sd_md ed) -> 0 <= f < dp_per_level p ->
      exists t fr, sol_tensor sol (dp_per_level p * level + f) = Ok t /\ Forall2 (Forall2 ceq) t (map (map real) Zt) /\
        nth_error (so_freqs sol) (Z.to_nat (dp_per_level p * level + f)) = Some fr /\ level_eval_freq p level f = Ok fr.
Proof. exact recovers_project. Qed.
Print Assumptions C87_project_recovers.

(** A library meeting the contracts: decimation keeps every q-th sample, the transform pairs neighbouring samples;
    Ex is twice Hy and Ey is -3 times Hy in every sample, and the mean is removed first. *)
Definition linL : library := mkLib b64 (fun x => x) toy pw64 64 (fun x => qfloor (x * 1000000000)) (fun x => qfloor (x * 1000000000)) (fun n => n)
  (fun w n x => Ok (map (fun k => mkC (match nth (Z.to_nat k) x None with Some q => q | None => 0 end)%Q (match nth (Z.to_nat (k + 1)) x None with Some q => q | None => 0 end)%Q) (arange (n / 2 + 1))))
  (fun _ x => x) (fun _ x => x) (fun q => mkC q 1) ctimes ctimes
  (fun _ r c => repeat (repeat (mkC 0 0) c) r) (fun n => repeat 0%Q n) (fun r c => repeat (repeat 0%Q c) r) elim_fit.
Definition linC : config :=
  mkConfig "lin" [PRemoveMean] (mkDecSetup 3 2 8 2 None) false 13 (mkWinSetup 8 2 4 (1#4) 2 None None) None [SUniform (1#10)] None
    (mkTf ["Ex"; "Ey"]%string ["Hy"%string] ["Hy"%string]).
Definition linHy : list Q := map (fun k => inject_Z (k mod 5)) (arange 40).
Definition linTd : tdata :=
  mkData (mkMeta 8 ["Ex"; "Hy"; "Ey"]%string 3 40 100 (100 + inject_Z 39 * (1#8)) "" [] []) "float64"
    [map Some (map (fun x => (2 * x)%Q) linHy); map Some linHy; map Some (map (fun x => (- (3) * x)%Q) linHy)].
Definition linZ : list (list Q) := [[2%Q]; [(-3)%Q]].

Lemma pick_linear (m : nat -> nat) (idx : nat -> nat -> nat) : (forall n i, (i < m n)%nat -> (idx n i < n)%nat) ->
  forall n, exists f, (forall u : list Q, length u = n -> map (fun i => nth (idx (length (map Some u)) i) (map Some u) None) (seq 0 (m (length (map Some u)))) = map Some (f u)) /\
    forall a u v w, length w = n -> axpy a u v w -> axpy a (f u) (f v) (f w).
Proof.
  intros H n. exists (fun u => map (fun i => nth (idx n i) u 0%Q) (seq 0 (m n))). split.
  - intros u L. rewrite map_length, L, map_map. apply map_ext_in. intros i Hi. apply in_seq in Hi.
    assert (K : (idx n i < length u)%nat) by (rewrite L; apply H; lia).
    rewrite (nth_indep (map Some u) None (Some 0%Q)) by (rewrite map_length; exact K). apply List.map_nth.
  - intros a u v w L (L1 & L2 & A). split; [rewrite !map_length; reflexivity|]. split; [rewrite !map_length; reflexivity|].
    intros k x y z Hx Hy Hz. rewrite nth_error_map in Hx, Hy, Hz. destruct (nth_error (seq 0 (m n)) k) as [i|] eqn:E; [|discriminate].
    injection Hx as <-. injection Hy as <-. injection Hz as <-. apply nth_error_In in E. apply in_seq in E.
    pose proof (H n i ltac:(lia)) as K. apply (A (idx n i)); apply nth_error_nth'; lia.
Qed.
Example C87_ex_library : linear_library linL /\ (forall b k l, linear_routine (o_filter (l_orc linL) b k l)) /\ (forall x, l_drnd linL x == x)%Q /\
  l_cmul linL = ctimes /\ junk_shape (l_junk1 linL) (l_junk2 linL) /\ least_squares (l_fit linL) /\ junk_rows linL.
Proof.
  split; [|split; [|split; [reflexivity|split; [reflexivity|split; [|split; [exact ls_elim|intros k r c; apply repeat_length]]]]]].
  - split; [|split; [|split; [|split; intros s a u v w H; exact H]]].
    + intros q n. cbn [linL l_orc toy o_decimate]. destruct (Z.ltb_spec q 1) as [Q|Q]; [left; intros u _; eexists; reflexivity|]. right.
      destruct (pick_linear (fun n => Z.to_nat ((Z.of_nat n + q - 1) / q)) (fun n i => (i * Z.to_nat q)%nat)) with (n := n) as (f & F1 & F2).
      { intros k i Hi. assert (Z.of_nat i < (Z.of_nat k + q - 1) / q) by lia. assert (Z.of_nat i * q < Z.of_nat k); [|nia].
        assert (q * ((Z.of_nat k + q - 1) / q) <= Z.of_nat k + q - 1) by (apply Z.mul_div_le; lia). nia. }
      exists f. split; [|exact F2]. intros u L. f_equal. exact (F1 u L).
    + intros up down n. cbn [linL l_orc toy o_resample]. destruct ((up <? 1) || (down <? 1)) eqn:B; [left; intros u _; eexists; reflexivity|]. right.
      apply orb_false_elim in B. destruct B as [B1 B2].
      destruct (pick_linear (fun n => Z.to_nat ((Z.of_nat n * up + down - 1) / down)) (fun n i => Z.to_nat (Z.of_nat i * down / up))) with (n := n) as (f & F1 & F2).
      { intros k i Hi. assert (Z.of_nat i < (Z.of_nat k * up + down - 1) / down) by lia.
        assert (down * ((Z.of_nat k * up + down - 1) / down) <= Z.of_nat k * up + down - 1) by (apply Z.mul_div_le; lia).
        assert (Z.of_nat i * down / up < Z.of_nat k) by (apply Z.div_lt_upper_bound; nia). assert (0 <= Z.of_nat i * down / up) by (apply Z.div_pos; nia). lia. }
      exists f. split; [|exact F2]. intros u L. f_equal. exact (F1 u L).
    + intros w n k. right. eexists. split; [intros u L; cbn [linL l_transform]; reflexivity|]. cbv beta.
      intros a u v x L (L1 & L2 & A). split; [rewrite !map_length; reflexivity|]. split; [rewrite !map_length; reflexivity|].
      intros j p q r Hp Hq Hr. rewrite nth_error_map in Hp, Hq, Hr. destruct (nth_error (arange (n / 2 + 1)) j) as [i|]; [|discriminate].
      injection Hp as <-. injection Hq as <-. injection Hr as <-.
      assert (V : forall i, (match nth i (map Some x) None with Some q => q | None => 0 end == a * match nth i (map Some u) None with Some q => q | None => 0 end + match nth i (map Some v) None with Some q => q | None => 0 end)%Q).
      { intros i0. rewrite !nth_nth_error, !nth_error_map. destruct (nth_error x i0) as [z|] eqn:E.
        - assert (i0 < length x)%nat by (apply nth_error_Some; congruence). destruct (nth_error u i0) as [y|] eqn:Eu; [|apply nth_error_None in Eu; lia]. destruct (nth_error v i0) as [t|] eqn:Ev; [|apply nth_error_None in Ev; lia].
          exact (A _ _ _ _ Eu Ev E).
        - apply nth_error_None in E. rewrite (proj2 (nth_error_None u i0)) by lia. rewrite (proj2 (nth_error_None v i0)) by lia. cbn. ring. }
      split; cbn [re im cplus cscale]; apply V.
  - intros b k l n. right. exists (fun u => u). split; [reflexivity|]. intros a u v w _ H. exact H.
  - split; [intros; apply repeat_length|]. intros n m. split; [apply repeat_length|]. intros row K. apply repeat_spec in K. subst row. apply repeat_length.
Qed.
Example C87_ex_mixed : mixed linTd (cf_tf linC) linZ.
Proof.
  assert (M : forall z, mixes [z] [linHy] (map (fun x => z * x)%Q linHy)).
  { intros z. split; [intros u [<-|[]]; rewrite map_length; reflexivity|]. intros k x Hk. rewrite nth_error_map in Hk. destruct (nth_error linHy k) as [y|] eqn:E; [|discriminate].
    injection Hk as <-. cbn [map dot]. rewrite nth_nth_error, E. ring. }
  assert (I : Forall2 (channel_samples linTd) ["Hy"%string] [linHy]) by (constructor; [exists 1%nat; split; reflexivity|constructor]).
  constructor; [|constructor; [|constructor]]; (split; [reflexivity|]); eexists _, [linHy].
  - split; [exists 0%nat; split; reflexivity|]. split; [exact I|apply M].
  - split; [exists 2%nat; split; reflexivity|]. split; [exact I|apply M].
Qed.
Example C87_ex_processable : processable linL linC linTd.
Proof.
  split; [reflexivity|]. split; [cbn; lia|]. split; [cbn; lia|]. intros td' p dd wp H1 H2 H3 H4.
  vm_compute in H1. injection H1 as <-. vm_compute in H2. injection H2 as <-. vm_compute in H3. injection H3 as <-. vm_compute in H4. injection H4 as <-.
  split; [cbn; lia|]. split; [repeat split; try discriminate; intros x; cbn; intuition (subst; auto)|]. split.
  - intros [|[|[|i]]] m Hm; cbn in Hm; try discriminate; try (destruct i; discriminate); injection Hm as <-; eexists; (split; [vm_compute; reflexivity|]); (split; [reflexivity|]); intros r [<-|[<-|[<-|[]]]]; reflexivity.
  - intros [|[|[|i]]] m w Hm Hw; cbn in Hm, Hw; try discriminate; try (destruct i; discriminate); injection Hm as <-; injection Hw as <-; cbn; lia.
Qed.
Definition linPE : dec_params * spec_data cq :=
  match to_evals linL linC 100 linTd with Ok pe => pe | Err _ => (mkDecParams 0 0 0 0 [] [] [] [], mkSpec (mkSpecMd [] [] 0 0 0 "" [] 0 []) []) end.
Example C87_ex_evals : to_evals linL linC (first_time (meta linTd)) linTd = Ok linPE.
Proof. vm_compute. reflexivity. Qed.
(** with one input channel a single window with a non-zero coefficient determines the unknown *)
Lemma one_input_determines ed ci cx level f z c : window_row ed [ci] level 0 f [z] -> window_row ed [cx] level 0 f [c] ->
  ~ (normsq (ctimes z (conj_ c)) == 0)%Q -> forall tf, tf_in tf = [ci] -> tf_cross tf = [cx] -> evals_determine ed tf level f.
Proof.
  intros Hz Hc NZ tf E1 E2 D LD H. rewrite E1 in LD. destruct D as [|d [|]]; try discriminate. rewrite E1, E2 in H.
  specialize (H 0 _ _ c (Z.le_refl 0) Hz Hc (or_introl eq_refl)). cbn [map cdot] in H. set (t := ctimes z (conj_ c)) in *. constructor; [|constructor].
  destruct d as [a b], t as [p q]. destruct H as [H1 H2]. cbn in H1, H2. unfold normsq in NZ. cbn [re im] in NZ.
  assert (A : (a * (p * p + q * q) == 0)%Q). { transitivity (p * (a * p - b * q + 0) + q * (a * q + b * p + 0))%Q; [ring|]. rewrite H1, H2. ring. }
  assert (B : (b * (p * p + q * q) == 0)%Q). { transitivity (p * (a * q + b * p + 0) - q * (a * p - b * q + 0))%Q; [ring|]. rewrite H1, H2. ring. }
  split; cbn; [destruct (Qmult_integral _ _ A); [assumption|contradiction]|destruct (Qmult_integral _ _ B); [assumption|contradiction]].
Qed.
Definition lin_coef (level f : Z) : cq :=
  match sd_at (snd linPE) level with Ok x => match nd_vec x [0%nat; 1%nat] with Some v => nth (Z.to_nat f) v c0 | None => c0 end | Err _ => c0 end.
Definition lin_array (level : Z) : list (list (list cq)) :=
  match sd_at (snd linPE) level with
  | Ok (Ax l) => map (fun w => match w with Ax m => map (fun r => match r with Ax v => match scalars v with Some s => s | None => [] end | Sc _ => [] end) m | Sc _ => [] end) l
  | _ => []
  end.
Lemma lin_row level f : 0 <= level < 2 -> 0 <= f < 2 -> window_row (snd linPE) ["Hy"%string] level 0 f [lin_coef level f] /\ ~ (normsq (ctimes (lin_coef level f) (conj_ (lin_coef level f))) == 0)%Q.
Proof.
  intros Hl Hf. assert (A : sd_at (snd linPE) level = Ok (nd3 (lin_array level))) by (assert (level = 0 \/ level = 1) as [-> | ->] by lia; vm_compute; reflexivity).
  split.
  - exists (lin_array level). split; [exact A|]. constructor; [|constructor]. exists 1%nat. split; [vm_compute; reflexivity|]. split.
    + intros j Hj. assert (j = 0%nat) as -> by lia. vm_compute. discriminate.
    + assert (level = 0 \/ level = 1) as [-> | ->] by lia; assert (f = 0 \/ f = 1) as [-> | ->] by lia; vm_compute; reflexivity.
  - assert (level = 0 \/ level = 1) as [-> | ->] by lia; assert (f = 0 \/ f = 1) as [-> | ->] by lia; vm_compute; discriminate.
Qed.
Example C87_ex_determined : forall level f, 0 <= level < sm_n_levels (sd_md (snd linPE)) -> 0 <= f < dp_per_level (fst linPE) -> evals_determine (snd linPE) (cf_tf linC) level f.
Proof.
  intros level f Hl Hf. assert (E1 : sm_n_levels (sd_md (snd linPE)) = 2) by (vm_compute; reflexivity). assert (E2 : dp_per_level (fst linPE) = 2) by (vm_compute; reflexivity).
  rewrite E1 in Hl. rewrite E2 in Hf. destruct (lin_row level f Hl Hf) as [R N]. exact (one_input_determines _ _ _ _ _ _ _ R R N (cf_tf linC) eq_refl eq_refl).
Qed.
(** the theorem applied to this recording *)
Example C87_ex : exists sol, quick_tf linL linC None "m" linTd = Ok sol /\
  forall level f, 0 <= level < 2 -> 0 <= f < 2 -> exists t, sol_tensor sol (2 * level + f) = Ok t /\ Forall2 (Forall2 ceq) t [[mkC 2 0]; [mkC (-3) 0]].
Proof.
  destruct C87_ex_library as (A1 & A2 & A3 & A4 & A5 & A6 & A7).
  assert (ND : forall a b : string, a <> b -> NoDup [a; b]) by (intros x y E; constructor; [intros [F|[]]; congruence|constructor; [intros []|constructor]]).
  destruct (C87_quick_run_recovers linL linC "m" linTd (fst linPE) (snd linPE) linZ A1 A2 A3) as (sol & Q & R).
  - constructor; [exact I|constructor].
  - exact A4.
  - exact A5.
  - exact A6.
  - exact C87_ex_processable.
  - apply ND. discriminate.
  - constructor; [intros []|constructor].
  - intros o i o' i' [<-|[<-|[]]] [<-|[]] [<-|[<-|[]]] [<-|[]] E; split; try reflexivity; exfalso; vm_compute in E; discriminate E.
  - constructor; [intros [F|[F|[]]]; discriminate F|]. apply ND. discriminate.
  - exact C87_ex_mixed.
  - rewrite C87_ex_evals. destruct linPE. reflexivity.
  - exact C87_ex_determined.
  - exists sol. split; [exact Q|]. assert (E1 : sm_n_levels (sd_md (snd linPE)) = 2) by (vm_compute; reflexivity). assert (E2 : dp_per_level (fst linPE) = 2) by (vm_compute; reflexivity).
    rewrite E1, E2 in R. intros level f Hl Hf. destruct (R level f Hl Hf) as (t & fr & B1 & B2 & _). exists t. split; [exact B1|exact B2].
Qed.
(** a processor that treats the channels differently does not keep the relation: Hy multiplied by 10 *)
Example C87_ex_multiply_one_channel : exists td', run b64 (fun x => x) toy (PMultiply (ADict [("Hy"%string, 10%Q)])) linTd = Ok td' /\ ~ mixed td' (cf_tf linC) linZ.
Proof.
  eexists. split; [vm_compute; reflexivity|]. intros H. inversion H as [|? ? ? ? (_ & out & ins & (i & I1 & I2) & J & [_ M]) _]; subst. clear H.
  inversion J as [|? u ? us (j & J1 & J2) J']; subst. inversion J'; subst. clear J J'.
  destruct i as [|[|[|[|i]]]]; try discriminate I1. destruct j as [|[|[|[|j]]]]; try discriminate J1. cbn [rows nth_error] in I2, J2.
  assert (O : nth_error (map Some out) 1 = Some (Some 2%Q)) by (injection I2 as <-; reflexivity). assert (U : nth_error (map Some u) 1 = Some (Some 10%Q)) by (injection J2 as <-; reflexivity).
  rewrite nth_error_map in O, U. destruct (nth_error out 1) as [x|] eqn:Eo; [|discriminate]. destruct (nth_error u 1) as [y|] eqn:Eu; [|discriminate]. injection O as ->. injection U as ->.
  specialize (M 1%nat 2%Q Eo). cbn [map dot] in M. rewrite nth_nth_error, Eu in M. vm_compute in M. discriminate M.
Qed.
