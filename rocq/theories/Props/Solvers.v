(** Properties C77-C79: the solvers on top of scikit-learn.
    [wfit w preds obs] are the coefficients of LinearRegression(fit_intercept=False) fitted with sample weights [w]. *)
From Coq Require Import String.
From Verif Require Import Base.Prelude Base.ListUtil Base.Cplx
  Model.Time Model.Gather Model.Regression Model.Solvers Spec.Regression Spec.Solvers
  Proofs.Regression Proofs.RegressionFinal Proofs.SolversMore Proofs.SolversEx Props.Regression.
Open Scope list_scope. Open Scope Q_scope.

(** ** C77 *)
(** on exact data the iterations change nothing: with C50_end_to_end, the weighted solver returns the tensor that generated the data *)
Theorem C77_exact_data : forall wfit n_iter, weighted_least_squares wfit -> (1 <= n_iter)%nat -> least_squares (wls_coef wfit n_iter).
Proof. exact c77_least_squares. Qed.
Print Assumptions C77_exact_data.
Theorem C77_end_to_end : forall junk1 junk2 wfit n_iter tf g Zt, junk_shape junk1 junk2 -> weighted_least_squares wfit -> (1 <= n_iter)%nat -> good_gathered tf g ->
  NoDup (tf_out tf) -> NoDup (tf_in tf) -> tf_in tf <> [] -> keys_distinct tf ->
  (forall k, (k < length (cb_eval_freqs (g_out g)))%nat -> length (Zt k) = length (tf_out tf) /\ wide (length (tf_in tf)) (Zt k)) ->
  (forall k outs ins crosses, (k < length (cb_eval_freqs (g_out g)))%nat -> freq_data g k outs ins crosses ->
     generated_by (Zt k) outs ins /\ determined (length (tf_in tf)) ins crosses) ->
  exists r s, prepare_gathered ctimes junk1 junk2 tf g = Ok r /\ solve (wls_coef wfit n_iter) r = Ok s /\ so_freqs s = cb_eval_freqs (g_out g) /\
    forall k, (k < length (cb_eval_freqs (g_out g)))%nat -> exists t, sol_tensor s (Z.of_nat k) = Ok t /\ Forall2 (Forall2 ceq) t (Zt k).
Proof. intros. eapply c50_end; try eassumption. apply c77_least_squares; assumption. Qed.
Print Assumptions C77_end_to_end.
(** on any data the result is an ordinary fit to more than three quarters of n - 1 of the equations; those left out
    have the largest residuals of an earlier fit *)
Theorem C77_majority : forall wfit n_iter P b c, length b = length P -> wls_coef wfit n_iter P b = Ok c ->
  exists w, subset_weights w (length P) /\ wfit w P b = Ok c /\ (w = repeat 1 (length P) \/ exists c0, drops_largest P b c0 w).
Proof. exact c77_subset. Qed.
Print Assumptions C77_majority.
(** without iterations there is no result *)
Theorem C77_no_iteration : forall wfit P b, wls_coef wfit 0 P b = Err AttributeError.
Proof. exact c77_zero. Qed.
Print Assumptions C77_no_iteration.
(** a fit meeting the contract: elimination on the equations whose weight is not 0 *)
Example C77_ex_contract : weighted_least_squares elim_wfit.
Proof. exact wls_elim. Qed.
Example C77_ex : forall n_iter, (1 <= n_iter)%nat -> exists r s, prepare_gathered ctimes exJ1 exJ2 exTf exG = Ok r /\ solve (wls_coef elim_wfit n_iter) r = Ok s /\
  exists t, sol_tensor s 0 = Ok t /\ Forall2 (Forall2 ceq) t exZ.
Proof.
  intros n Hn. destruct (C77_end_to_end exJ1 exJ2 elim_wfit n exTf exG (fun _ => exZ) C50_ex_junk wls_elim Hn (proj1 C50_ex_good)) as (r & s & Hr & Hs & _ & Ht).
  - repeat constructor; cbn; intuition discriminate.
  - repeat constructor; cbn; intuition discriminate.
  - discriminate.
  - exact (proj2 (proj2 C50_ex_good)).
  - intros k _. split; [reflexivity|]. intros row [<-|[<-|[]]]; reflexivity.
  - intros k outs ins crosses Hk (F1 & F2 & F3). cbn in Hk. assert (k = 0%nat) as -> by lia.
    assert (outs = exOut) as -> by (cbn in F1; congruence). assert (ins = exIn) as -> by (cbn in F2; congruence). assert (crosses = exIn) as -> by (cbn in F3; congruence).
    split; [exact (proj1 (proj2 C50_ex_good))|exact C50_ex_determined].
  - exists r, s. split; [exact Hr|]. split; [exact Hs|]. exact (Ht 0%nat ltac:(cbn; lia)).
Qed.
(** an outlier is left out: five windows with input 1, outputs 0 and 15 + 15i *)
Example C77_ex_outlier : wls_weights (fun w _ b => let m := row_dot w b / fold_right Qplus 0 w in Ok [m; m]) 1 P0 (b0 15) (repeat 1 10) = Ok [1; 1; 1; 1; 1; 1; 1; 1; 0; 0] /\
  kept [1; 1; 1; 1; 1; 1; 1; 1; 0; 0] = 8%nat.
Proof. split; vm_compute; reflexivity. Qed.

(** ** C78 *)
(** observations in other units: the result scales with them when in no pass but the last the quartiles of the absolute
    residuals coincide *)
Theorem C78_units_partial : forall wfit c P b b' n_iter x, equivariant wfit -> 0 < c -> times_c c b b' ->
  (forall i r, (S i < n_iter)%nat -> pass_of wfit P b i r -> ~ quantile (3 # 4) r == quantile (1 # 4) r) ->
  wls_coef wfit n_iter P b = Ok x -> exists x', wls_coef wfit n_iter P b' = Ok x' /\ times_c c x x'.
Proof. exact c78_scale. Qed.
Print Assumptions C78_units_partial.
(** otherwise it does not, for any minimising fit: the outlier of the last window is kept in one unit and left out in another *)
Theorem C78_units_refuted : forall wfit n_iter c c', minimising wfit -> (2 <= n_iter)%nat ->
  wls_coef wfit n_iter P0 (b0 (3 # 2)) = Ok c -> wls_coef wfit n_iter P0 (b0 15) = Ok c' ->
  times_c 10 (b0 (3 # 2)) (b0 15) /\ times_c 1 [3 # 10; 3 # 10] c /\ times_c 1 [0; 0] c' /\ ~ times_c 10 c c'.
Proof.
  intros wfit n c c' M Hn E E'. destruct (c78_refuted wfit n c c' M Hn E E') as [T T'].
  split; [unfold b0; repeat (constructor; [lra|]); constructor|]. split; [exact T|]. split; [exact T'|].
  intros K. pose proof (times_c_nth _ _ _ 0%nat T) as A. pose proof (times_c_nth _ _ _ 0%nat T') as B. pose proof (times_c_nth _ _ _ 0%nat K) as C. cbn [nth] in A, B. lra.
Qed.
Print Assumptions C78_units_refuted.
(** the data are those of one input channel with value 1, the output of the last window being 3/2 (1 + i) or 15 (1 + i) *)
Definition exTf1 : tf_chans := mkTf ["Ex"]%string ["Hx"]%string ["Hx"]%string.
Definition exG1 (v : Q) : gathered cq :=
  mkGathered (exComb ["Ex"]%string [[c0]; [c0]; [c0]; [c0]; [mkC v v]]) (exComb ["Hx"]%string (repeat [mkC 1 0] 5)) (exComb ["Hx"]%string (repeat [mkC 1 0] 5)).
Example C78_ex_data : exists r r', prepare_gathered ctimes exJ1 exJ2 exTf1 (exG1 (3 # 2)) = Ok r /\ prepare_gathered ctimes exJ1 exJ2 exTf1 (exG1 15) = Ok r' /\
  exists o p o' p', get_inputs r 0 "Ex"%string = Ok (o, p) /\ get_inputs r' 0 "Ex"%string = Ok (o', p') /\
    (map Qred o, map (map Qred) p) = (b0 (3 # 2), P0) /\ (map Qred o', map (map Qred) p') = (b0 15, P0).
Proof. eexists _, _. split; [vm_compute; reflexivity|]. split; [vm_compute; reflexivity|]. eexists _, _, _, _. split; [vm_compute; reflexivity|]. split; [vm_compute; reflexivity|]. split; vm_compute; reflexivity. Qed.
Example C78_ex_refuted : minimising fit0 /\ wls_coef fit0 50 P0 (b0 (3 # 2)) = Ok [3 # 10; 3 # 10] /\ wls_coef fit0 50 P0 (b0 15) = Ok [0; 0].
Proof. split; [exact fit0_min|]. split; vm_compute; reflexivity. Qed.
(** spread residuals: the quartiles differ in both passes *)
Definition exB (c : Q) : list Q := [0; 0; c; c; 2 * c; 2 * c; 3 * c; 3 * c; 40 * c; 40 * c].
Example C78_ex : equivariant elim_wfit /\ times_c 7 (exB 1) (exB 7) /\
  (forall i r, (S i < 3)%nat -> pass_of elim_wfit P0 (exB 1) i r -> ~ quantile (3 # 4) r == quantile (1 # 4) r) /\
  exists x, wls_coef elim_wfit 3 P0 (exB 1) = Ok x.
Proof.
  split; [exact elim_equivariant|]. split; [unfold exB; repeat (constructor; [lra|]); constructor|]. split; [|eexists; vm_compute; reflexivity].
  intros i r Hi (w & x & Hw & Hx & ->). destruct i as [|[|i]]; [| |lia].
  - assert (w = repeat 1 10) as -> by (cbn [wls_weights] in Hw; symmetry; injection Hw; intros; assumption).
    assert (E : elim_wfit (repeat 1 10) P0 (exB 1) = Ok [0 / 1; 0 / 1]) by (vm_compute; reflexivity). rewrite Hx in E. assert (x = [0 / 1; 0 / 1]) as -> by congruence.
    vm_compute. discriminate.
  - assert (E0 : wls_weights elim_wfit 1 P0 (exB 1) (repeat 1 (length (exB 1))) = Ok [1; 1; 1; 1; 1; 1; 1; 1; 0; 0]) by (vm_compute; reflexivity).
    rewrite E0 in Hw. assert (w = [1; 1; 1; 1; 1; 1; 1; 1; 0; 0]) as -> by congruence.
    assert (E : exists a, elim_wfit [1; 1; 1; 1; 1; 1; 1; 1; 0; 0] P0 (exB 1) = Ok a /\ map Qred a = [0; 0]) by (eexists; split; vm_compute; reflexivity).
    destruct E as (a & E & R). rewrite Hx in E. assert (x = a) as -> by congruence.
    assert (E2 : elim_wfit [1; 1; 1; 1; 1; 1; 1; 1; 0; 0] P0 (exB 1) = Ok [0 / 1; 0 / 1]) by (vm_compute; reflexivity). rewrite Hx in E2. assert (a = [0 / 1; 0 / 1]) as -> by congruence.
    vm_compute. discriminate.
Qed.

(** ** C79 *)
(** every solver but Huber: with an estimator that solves solvable systems when asked for no intercept (fit_intercept is
    False by default), the solution is the tensor that generated the data *)
Theorem C79_no_intercept_partial : forall s est, s <> SolverHuber -> least_squares (est s false) ->
  forall junk1 junk2 tf g Zt, junk_shape junk1 junk2 -> good_gathered tf g -> NoDup (tf_out tf) -> NoDup (tf_in tf) -> tf_in tf <> [] -> keys_distinct tf ->
  (forall k, (k < length (cb_eval_freqs (g_out g)))%nat -> length (Zt k) = length (tf_out tf) /\ wide (length (tf_in tf)) (Zt k)) ->
  (forall k outs ins crosses, (k < length (cb_eval_freqs (g_out g)))%nat -> freq_data g k outs ins crosses ->
     generated_by (Zt k) outs ins /\ determined (length (tf_in tf)) ins crosses) ->
  exists r sol, prepare_gathered ctimes junk1 junk2 tf g = Ok r /\ run_solver_with s false est r = Ok sol /\
    forall k, (k < length (cb_eval_freqs (g_out g)))%nat -> exists t, sol_tensor sol (Z.of_nat k) = Ok t /\ Forall2 (Forall2 ceq) t (Zt k).
Proof.
  intros s est Hs LS junk1 junk2 tf g Zt J GG N1 N2 N3 KD HZ HG.
  assert (I : intercept_used s false = false) by (destruct s; congruence || reflexivity).
  destruct (c50_end junk1 junk2 (est s false) tf g Zt J LS GG N1 N2 N3 KD HZ HG) as (r & sol & H1 & H2 & _ & H3).
  exists r, sol. split; [exact H1|]. split; [|exact H3]. unfold run_solver_with. rewrite I. exact H2.
Qed.
Print Assumptions C79_no_intercept_partial.
(** the Huber solver fits an intercept although fit_intercept is False: for a constant input 1 and output 1 + i, which
    determine the tensor, it returns 0, whatever the other solvers do *)
Definition exG2 : gathered cq := mkGathered (exComb ["Ex"]%string hOut) (exComb ["Hx"]%string hIn) (exComb ["Hx"]%string hIn).
Theorem C79_huber_refuted : forall est, smallest_affine_fit (est SolverHuber true) ->
  good_gathered exTf1 exG2 /\ generated_by [[mkC 1 1]] hOut hIn /\ determined 1 hIn hIn /\
  exists r, prepare_gathered ctimes exJ1 exJ2 exTf1 exG2 = Ok r /\
    forall sol, run_solver_with SolverHuber false est r = Ok sol -> exists z, sol_tensor sol 0 = Ok [[z]] /\ ceq z c0.
Proof.
  intros est H. split; [|split; [|split]].
  - intros k Hk. cbn in Hk. assert (k = 0%nat) as -> by lia. exists hOut, hIn, hIn. split; [split; [reflexivity|split; reflexivity]|].
    split; [reflexivity|]. split; [reflexivity|]. split; [|split]; intros row [<-|[<-|[]]]; reflexivity.
  - intros [|[|w]] orow irow H1 H2; cbn in H1, H2; try (injection H1 as <-; injection H2 as <-; constructor; [vm_compute; split; reflexivity|constructor]). destruct w; discriminate.
  - intros D L K. destruct D as [|[a b] [|? ?]]; try discriminate. pose proof (K 0%nat _ _ _ eq_refl eq_refl (or_introl eq_refl)) as [A B]. cbn in A, B. constructor; [split; cbn; lra|constructor].
  - exists (mkReg exTf1 [10] [[("Ex"%string, hb)]] [hP]). split; [vm_compute; reflexivity|]. intros sol E.
    unfold run_solver_with in E. cbn [intercept_used] in E. unfold solve in E. cbn [ri_freqs ri_tf exTf1 tf_out tf_in length seq mapM] in E.
    change (get_inputs (mkReg exTf1 [10] [[("Ex"%string, hb)]] [hP]) 0 "Ex"%string) with (Ok (hb, hP)) in E. cbn [bind fst snd] in E.
    destruct (est SolverHuber true hP hb) as [x|] eqn:F; [|discriminate]. destruct (affine_zero _ x H F) as (a & b & -> & Ha & Hb).
    assert (sol = mkSol exTf1 [10] [("ExHx"%string, ([a], [b]))]) as -> by (symmetry; injection E; intros; assumption).
    exists (mkC a b). split; [reflexivity|]. split; [exact Ha|exact Hb].
Qed.
Print Assumptions C79_huber_refuted.
Example C79_ex : smallest_affine_fit hfit /\ least_squares elim_fit /\ exists r sol sol', prepare_gathered ctimes exJ1 exJ2 exTf1 exG2 = Ok r /\
  run_solver_with SolverHuber false (fun _ i => if i then hfit else elim_fit) r = Ok sol /\ sol_tensor sol 0 = Ok [[mkC 0 0]] /\
  run_solver_with SolverOLS false (fun _ i => if i then hfit else elim_fit) r = Ok sol' /\ sol_tensor sol' 0 = Ok [[mkC 1 1]].
Proof. split; [exact hfit_smallest|]. split; [exact ls_elim|]. eexists _, _, _. repeat match goal with |- _ /\ _ => apply conj end; vm_compute; reflexivity. Qed.
