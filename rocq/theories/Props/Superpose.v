(** Property C101: the transfer function is linear in the output channels. *)
From Coq Require Import String.
From Verif Require Import Base.Prelude Base.Rounding Base.ListUtil Base.NdArray Base.Cplx
  Model.Sampling Model.Time Model.Decimate Model.Window Model.Spectra Model.Calibrate Model.Gather Model.Regression Model.Pipeline
  Spec.Calibrate Spec.Gather Spec.Regression Spec.Pipeline Spec.Linear Spec.Solvers Spec.Units Spec.Superpose
  Proofs.Toy Proofs.EvalFreqs Proofs.SolversMore Proofs.Linear Proofs.UnitsFit Proofs.UnitsEx Proofs.Superpose Props.Pipeline Props.Linear Props.Units.
Open Scope list_scope. Open Scope Q_scope.

(** ** C101 *)
(** the spectra: when channel o is, sample by sample, a combination of other channels, its coefficient is the same
    combination of theirs, in every window of every decimation level at every evaluation frequency *)
Theorem C101_spectra : forall (L : library) (c : config) ref td p ed o cs qs,
  linear_library L -> (forall b k l, linear_routine (o_filter (l_orc L) b k l)) -> (forall x, l_drnd L x == x) -> Forall linear_proc (cf_time c) ->
  processable L c td -> NoDup (chans (meta td)) -> to_evals L c ref td = Ok (p, ed) ->
  In o (tf_out (cf_tf c)) -> cs <> [] -> incl cs (tf_out (cf_tf c) ++ tf_in (cf_tf c)) -> combination td o cs qs ->
  forall level w f z row, (0 <= level < sm_n_levels (sd_md ed))%Z -> window_row ed [o] level w f [z] -> window_row ed cs level w f row ->
    ceq z (cdot (map real qs) row).
Proof. exact combination_rows. Qed.
Print Assumptions C101_spectra.
(** the transfer function by least squares: when output o is, sample by sample, the sum of q_m times output o_m and of
    z_j times input j, its row is the sum of q_m times the row of o_m, plus z_j in the column of input j; the outputs
    o_m are any recordings, with any noise *)
Theorem C101_least_squares : forall (L : library) (c : config) name td p ed o os qs zs sol, let tf := cf_tf c in
  linear_library L -> (forall b k l, linear_routine (o_filter (l_orc L) b k l)) -> (forall x, l_drnd L x == x) -> Forall linear_proc (cf_time c) ->
  l_cmul L = ctimes -> junk_shape (l_junk1 L) (l_junk2 L) -> minimises (l_fit L) -> NoDup (tf_out tf) -> NoDup (tf_in tf) -> keys_distinct tf ->
  processable L c td -> NoDup (chans (meta td)) -> to_evals L c (first_time (meta td)) td = Ok (p, ed) ->
  (forall level f, (0 <= level < sm_n_levels (sd_md ed))%Z -> (0 <= f < dp_per_level p)%Z -> evals_determine ed tf level f) ->
  In o (tf_out tf) -> incl os (tf_out tf) -> length qs = length os -> length zs = length (tf_in tf) -> combination td o (os ++ tf_in tf) (qs ++ zs) ->
  quick_tf L c None name td = Ok sol ->
  forall i, (i < length (so_freqs sol))%nat -> exists t, sol_tensor sol (Z.of_nat i) = Ok t /\
    forall j zj, nth_error zs j = Some zj -> exists z us, from_input tf t j o z /\ Forall2 (from_input tf t j) os us /\
      ceq z (cplus (cdot (map real qs) us) (real zj)).
Proof. intros L c name td p ed o os qs zs sol tf H1 H2 H3 H4 H5 H6 H7 H8 H9 H10. apply (run_superposes L c); assumption. Qed.
Print Assumptions C101_least_squares.

(** the same claim for commands on a project without calibration data: one site with one measurement *)
Theorem C101_project : forall (L : library) (c : config) readers proj site meas td s s1 p ed o os qs zs sol, let tf := cf_tf c in
  linear_library L -> (forall b k l, linear_routine (o_filter (l_orc L) b k l)) -> (forall x, l_drnd L x == x) -> Forall linear_proc (cf_time c) ->
  l_cmul L = ctimes -> junk_shape (l_junk1 L) (l_junk2 L) -> junk_rows L -> minimises (l_fit L) -> NoDup (tf_out tf) -> NoDup (tf_in tf) -> keys_distinct tf ->
  (forall x, no_success readers x) -> find (fun x : string * raw_site => String.eqb (fst x) site) proj = Some (site, [(meas, (fs (meta td), Ok td))]) ->
  processable L c td -> keeps_fs L c td -> NoDup (chans (meta td)) -> to_evals L c (first_time (meta td)) td = Ok (p, ed) ->
  (forall level f, (0 <= level < sm_n_levels (sd_md ed))%Z -> (0 <= f < dp_per_level p)%Z -> evals_determine ed tf level f) ->
  In o (tf_out tf) -> incl os (tf_out tf) -> length qs = length os -> length zs = length (tf_in tf) -> combination td o (os ++ tf_in tf) (qs ++ zs) ->
  process_time_to_evals L c readers (first_time (meta td)) proj site meas s = (s1, Ok tt) -> process_evals_to_tf L c proj s1 (fs (meta td)) site None None = Ok sol ->
  forall i, (i < length (so_freqs sol))%nat -> exists t, sol_tensor sol (Z.of_nat i) = Ok t /\
    forall j zj, nth_error zs j = Some zj -> exists z us, from_input tf t j o z /\ Forall2 (from_input tf t j) os us /\
      ceq z (cplus (cdot (map real qs) us) (real zj)).
Proof.
  intros L c readers proj site meas td s s1 p ed o os qs zs sol tf H1 H2 H3 H4 H5 H6 HR H7 H8 H9 H10 NS HF PA KF ND EA DT O1 O2 O3 O4 CO T QA.
  pose proof (C67_project_equals_quick L c readers None proj site meas td s s1 (Ok tt) HF PA KF (or_intror (conj eq_refl NS)) HR T) as E1. cbn beta iota in E1.
  apply (C101_least_squares L c meas td p ed o os qs zs sol); try assumption; congruence.
Qed.
Print Assumptions C101_project.

(** ** a recording with two electric channels *)
(** Ex is not a combination of the magnetic channels; Ey is 2 Ex + 3 Hx - Hy *)
Definition supC : config :=
  mkConfig "sup" [PRemoveMean] (mkDecSetup 2 1 8 2 (Some [2; 1])) false 13 (mkWinSetup 8 2 4 (1#4) 2 None None) None [SUniform (1#10)] None
    (mkTf ["Ex"; "Ey"]%string ["Hx"; "Hy"]%string ["Hx"; "Hy"]%string).
Definition supE (i : Z) : Z := (3 * i mod 11)%Z.
Definition supHx (i : Z) : Z := (i * i mod 7)%Z.
Definition supHy (i : Z) : Z := (i mod 5)%Z.
Definition supRow (m : Z -> Z) : list Q := map (fun i => inject_Z (m i)) (arange 40).
Definition supEy (i : Z) : Z := (2 * supE i + 3 * supHx i - supHy i)%Z.
Definition supTd : tdata :=
  mkData (mkMeta 8 ["Ex"; "Hx"; "Hy"; "Ey"]%string 4 40 100 (100 + inject_Z 39 * (1#8)) "" [] []) "float64"
    [map Some (supRow supE); map Some (supRow supHx); map Some (supRow supHy); map Some (supRow supEy)].
Lemma sup_combination : combination supTd "Ey"%string (["Ex"%string] ++ tf_in (cf_tf supC)) ([2] ++ [3; -1]).
Proof.
  split; [reflexivity|]. exists (supRow supEy), [supRow supE; supRow supHx; supRow supHy]. split; [exists 3%nat; split; reflexivity|]. split.
  - constructor; [exists 0%nat; split; reflexivity|]. constructor; [exists 1%nat; split; reflexivity|]. constructor; [exists 2%nat; split; reflexivity|constructor].
  - split; [intros u [<-|[<-|[<-|[]]]]; reflexivity|]. intros k x H. unfold supRow in H. rewrite nth_error_map in H. destruct (nth_error (arange 40) k) as [i|] eqn:E; [|discriminate H]. injection H as <-.
    assert (N : forall m, nth k (supRow m) 0 = inject_Z (m i)) by (intros m; apply nth_error_nth; unfold supRow; rewrite nth_error_map, E; reflexivity).
    cbn [map app dot]. rewrite !N. unfold supEy. unfold inject_Z, Qeq, Qplus, Qmult, Qopp. cbn [Qnum Qden]. lia.
Qed.
Lemma sup_processable : processable uniL supC supTd.
Proof.
  split; [reflexivity|]. split; [cbn; lia|]. split; [cbn; lia|]. intros td' p dd wp H1 H2 H3 H4.
  vm_compute in H1; injection H1 as <-; vm_compute in H2; injection H2 as <-; vm_compute in H3; injection H3 as <-; vm_compute in H4; injection H4 as <-;
  (split; [cbn; lia|]; split; [repeat split; try discriminate; intros x; cbn; intuition (subst; auto)|]; split;
  [intros [|[|[|i]]] m Hm; cbn in Hm; try discriminate; try (destruct i; discriminate); injection Hm as <-; eexists; (split; [vm_compute; reflexivity|]); (split; [reflexivity|]); intros r [<-|[<-|[<-|[<-|[]]]]]; reflexivity
  |intros [|[|[|i]]] m w Hm Hw; cbn in Hm, Hw; try discriminate; try (destruct i; discriminate); injection Hm as <-; injection Hw as <-; cbn; lia]).
Qed.
Definition supPE : dec_params * spec_data cq :=
  match to_evals uniL supC 100 supTd with Ok pe => pe | Err _ => (mkDecParams 0 0 0 0 [] [] [] [], mkSpec (mkSpecMd [] [] 0 0 0 "" [] 0 []) []) end.
Lemma sup_evals : to_evals uniL supC (first_time (meta supTd)) supTd = Ok (fst supPE, snd supPE).
Proof. vm_compute. reflexivity. Qed.
Definition sup_array (level : Z) : list (list (list cq)) :=
  match sd_at (snd supPE) level with
  | Ok (Ax l) => map (fun w => match w with Ax m => map (fun r => match r with Ax v => match scalars v with Some s => s | None => [] end | Sc _ => [] end) m | Sc _ => [] end) l
  | _ => []
  end.
Definition sup_row (level : Z) (w : nat) (f : Z) : list cq :=
  [nth (Z.to_nat f) (nth 1 (nth w (sup_array level) []) []) c0; nth (Z.to_nat f) (nth 2 (nth w (sup_array level) []) []) c0].
Lemma sup_window level w f : (0 <= level < 2)%Z -> (0 <= f < 1)%Z -> (w < 2)%nat -> window_row (snd supPE) ["Hx"; "Hy"]%string level (Z.of_nat w) f (sup_row level w f).
Proof.
  intros Hl Hf Hw. assert (A : sd_at (snd supPE) level = Ok (nd3 (sup_array level))) by (assert (level = 0 \/ level = 1)%Z as [-> | ->] by lia; vm_compute; reflexivity).
  exists (sup_array level). split; [exact A|].
  constructor; [exists 1%nat|constructor; [exists 2%nat|constructor]]; (split; [vm_compute; reflexivity|]); (split; [intros [|[|j]] Hj; try lia; vm_compute; discriminate|]);
    assert (level = 0 \/ level = 1)%Z as [-> | ->] by lia; assert (f = 0)%Z as -> by lia; assert (w = 0 \/ w = 1)%nat as [-> | ->] by lia; vm_compute; reflexivity.
Qed.
Example C101_ex_determined : forall level f, (0 <= level < sm_n_levels (sd_md (snd supPE)))%Z -> (0 <= f < dp_per_level (fst supPE))%Z -> evals_determine (snd supPE) (cf_tf supC) level f.
Proof.
  intros level f Hl Hf. assert (E1 : sm_n_levels (sd_md (snd supPE)) = 2%Z) by (vm_compute; reflexivity). assert (E2 : dp_per_level (fst supPE) = 1%Z) by (vm_compute; reflexivity).
  rewrite E1 in Hl. rewrite E2 in Hf. refine (two_inputs_determine (snd supPE) (cf_tf supC) level f 0 1 _ _ _ _ _ _ eq_refl eq_refl (sup_window level 0 f Hl Hf ltac:(lia)) (sup_window level 1 f Hl Hf ltac:(lia)) _ _ _); try lia;
  (assert (level = 0 \/ level = 1)%Z as [-> | ->] by lia; assert (f = 0)%Z as -> by lia; vm_compute; discriminate).
Qed.
Lemma sup_keys : NoDup (tf_out (cf_tf supC)) /\ NoDup (tf_in (cf_tf supC)) /\ keys_distinct (cf_tf supC) /\ NoDup (chans (meta supTd)).
Proof.
  split; [constructor; [intros [F|[]]; discriminate F|constructor; [intros []|constructor]]|]. split; [constructor; [intros [F|[]]; discriminate F|constructor; [intros []|constructor]]|]. split.
  - intros o i o' i' [<-|[<-|[]]] [<-|[<-|[]]] [<-|[<-|[]]] [<-|[<-|[]]] E; first [split; reflexivity|exfalso; vm_compute in E; discriminate E].
  - do 3 (constructor; [cbn [In]; intros F; repeat (destruct F as [F|F]; [discriminate F|]); exact F|]). constructor; [intros []|constructor].
Qed.
Definition supSol : solution := match quick_tf uniL supC None "m" supTd with Ok s => s | Err _ => mkSol (mkTf [] [] []) [] [] end.
Lemma sup_run : quick_tf uniL supC None "m" supTd = Ok supSol.
Proof. vm_compute. reflexivity. Qed.
Lemma sup_procs : Forall linear_proc (cf_time supC).
Proof. constructor; [exact I|constructor]. Qed.
Example C101_ex : length (so_freqs supSol) = 2%nat /\
  (forall i, (i < length (so_freqs supSol))%nat -> exists t, sol_tensor supSol (Z.of_nat i) = Ok t /\
    forall j zj, nth_error [3; -1] j = Some zj -> exists z us, from_input (cf_tf supC) t j "Ey"%string z /\ Forall2 (from_input (cf_tf supC) t j) ["Ex"%string] us /\ ceq z (cplus (cdot (map real [2]) us) (real zj))) /\
  exists x y, entry_at supSol 0 0 0 = Some x /\ entry_at supSol 0 1 0 = Some y /\ ceq y (cplus (cscale 2 x) (mkC 3 0)) /\ ~ im x == 0.
Proof.
  destruct uni_library as (A1 & A2 & A3 & A4 & A5 & A6). destruct sup_keys as (N1 & N2 & N3 & N4).
  split; [vm_compute; reflexivity|]. split.
  - refine (C101_least_squares uniL supC "m" supTd (fst supPE) (snd supPE) "Ey"%string ["Ex"%string] [2] [3; -1] supSol A1 A2 A3 sup_procs A4 A5 A6 N1 N2 N3 sup_processable N4 sup_evals C101_ex_determined _ _ eq_refl eq_refl sup_combination sup_run).
    + right. left. reflexivity.
    + intros x [<-|[]]. left. reflexivity.
  - assert (X : exists x, entry_at supSol 0 0 0 = Some x /\ ~ im x == 0) by (eexists; split; [vm_compute; reflexivity|vm_compute; discriminate]). destruct X as (x & X & NX).
    assert (Y : exists y, entry_at supSol 0 1 0 = Some y) by (eexists; vm_compute; reflexivity). destruct Y as (y & Y). exists x, y. split; [exact X|]. split; [exact Y|]. split; [|exact NX].
    vm_compute in X. injection X as <-. vm_compute in Y. injection Y as <-. split; vm_compute; reflexivity.
Qed.
(** the recording as the only measurement of a project without calibration data *)
Definition supProj : raw_project := [("A"%string, [("m"%string, (8, Ok supTd))])].
Example C101_ex_project : keeps_fs uniL supC supTd /\ junk_rows uniL /\
  find (fun x : string * raw_site => String.eqb (fst x) "A") supProj = Some ("A"%string, [("m"%string, (fs (meta supTd), Ok supTd))]) /\
  exists s, process_time_to_evals uniL supC [] (first_time (meta supTd)) supProj "A" "m" [] = (s, Ok tt) /\
    process_evals_to_tf uniL supC supProj s (fs (meta supTd)) "A" None None = Ok supSol.
Proof.
  split; [intros td' H; vm_compute in H; injection H as <-; reflexivity|]. split; [intros a b c; apply repeat_length|].
  split; [reflexivity|]. eexists. split; [vm_compute; reflexivity|]. vm_compute. reflexivity.
Qed.
