(** Property C80: transfer functions between sites. *)
From Coq Require Import String.
From Verif Require Import Base.Prelude Base.Rounding Base.ListUtil Base.NdArray Base.Cplx
  Model.Sampling Model.Time Model.Decimate Model.Window Model.Spectra Model.Calibrate Model.Gather Model.Regression Model.Pipeline
  Spec.Calibrate Spec.Gather Spec.Regression Spec.Pipeline Spec.Remote Proofs.Remote Proofs.Toy Proofs.EvalFreqs Proofs.GatherQuick Proofs.SolversMore Proofs.SolversEx.
Open Scope list_scope. Open Scope Z_scope.

(** ** C80 *)
Theorem C80_remote_reference : forall (L : library) (c : config) proj st fs out_site in_name cross_name p Zt,
  let pr := view (cf_name c) proj st in let tf := cf_tf c in
  let in_site := or_else in_name out_site in let cross_site := or_else cross_name in_site in
  l_cmul L = ctimes -> junk_shape (l_junk1 L) (l_junk2 L) -> junk_rows L -> least_squares (l_fit L) ->
  tf_out tf <> [] -> tf_in tf <> [] -> tf_cross tf <> [] -> NoDup (tf_out tf) -> NoDup (tf_in tf) -> keys_distinct tf ->
  dec_params_of L c fs = Ok p -> 1 <= ds_per_level (cf_dec c) ->
  good_site pr p out_site (tf_out tf) -> good_site pr p in_site (tf_in tf) -> good_site pr p cross_site (tf_cross tf) ->
  all_sites_have pr (dp_fs p) [out_site; in_site; cross_site] 0 ->
  (forall level, all_sites_have pr (dp_fs p) [out_site; in_site; cross_site] level -> level < dp_n_levels p) ->
  (forall level f, length (Zt level f) = length (tf_out tf) /\ wide (length (tf_in tf)) (Zt level f)) ->
  related pr (dp_fs p) tf out_site in_site Zt ->
  (forall level f, 0 <= level -> all_sites_have pr (dp_fs p) [out_site; in_site; cross_site] level -> 0 <= f < dp_per_level p ->
     windows_determine pr (dp_fs p) tf out_site in_site cross_site level f) ->
  exists sol, process_evals_to_tf L c proj st fs out_site in_name cross_name = Ok sol /\
    forall level f, 0 <= level -> all_sites_have pr (dp_fs p) [out_site; in_site; cross_site] level -> 0 <= f < dp_per_level p ->
      exists t fr, sol_tensor sol (dp_per_level p * level + f) = Ok t /\ Forall2 (Forall2 ceq) t (Zt level f) /\
        nth_error (so_freqs sol) (Z.to_nat (dp_per_level p * level + f)) = Some fr /\ level_eval_freq p level f = Ok fr.
Proof. exact remote. Qed.
Print Assumptions C80_remote_reference.

(** Three sites: outputs at A, inputs at B, reference at R. They share windows 2 and 3 only; Ex at A is (2 + i) times
    Hy at B there, and something else elsewhere. *)
Definition rmL : library := mkLib (fun x => x) (fun x => x) toy (fun _ => 1%Q) 64 (fun _ => 0) (fun _ => 0) (fun n => n)
  (fun _ _ _ => Ok []) (fun _ x => x) (fun _ x => x) (fun q => mkC q 1) ctimes ctimes
  (fun _ r c => repeat (repeat (mkC 0 0) c) r) (fun n => repeat 0%Q n) (fun r c => repeat (repeat 0%Q c) r) elim_fit.
Definition rmC : config :=
  mkConfig "rm" [] (mkDecSetup 1 1 8 2 (Some [2%Q])) false 13 (mkWinSetup 8 2 4 (1#4) 2 None None) None [] None
    (mkTf ["Ex"%string] ["Hy"%string] ["Hy"%string]).
Definition rmD (chans : list chan) (offset : Z) (x : list (list (list cq))) : spec_data cq :=
  mkSpec (mkSpecMd [8%Q] chans 1 0 100 "" [mkSpecLevel 8 (Z.of_nat (length x)) 8 2 offset 1 [2%Q]] 0 []) [(0, nd3 x)].
Definition rmA : spec_data cq := rmD ["Hy"; "Ex"]%string 1 [[[mkC 9 9]; [mkC 7 7]]; [[mkC 5 5]; [mkC 2 1]]; [[mkC 6 1]; [mkC (-1) 2]]].
Definition rmB : spec_data cq := rmD ["Hy"]%string 2 [[[mkC 1 0]]; [[mkC 0 1]]; [[mkC 3 0]]].
Definition rmR : spec_data cq := rmD ["Ex"; "Hy"]%string 0 [[[mkC 0 0]; [mkC 8 8]]; [[mkC 0 0]; [mkC 8 1]]; [[mkC 0 0]; [mkC 2 0]]; [[mkC 0 0]; [mkC 0 1]]].
Definition rmProj : raw_project := [("A", [("m", (8%Q, Err ReadError))]); ("B", [("n", (8%Q, Err ReadError))]); ("R", [("o", (8%Q, Err ReadError))])]%string.
Definition rmS : store := [(("A", "m", "rm"), rmA); (("B", "n", "rm"), rmB); (("R", "o", "rm"), rmR)]%string.
Definition rmP : dec_params := mkDecParams 8 1 1 8 [2%Q] [1] [1] [8%Q].
Definition rmZ (level f : Z) : list (list cq) := [[mkC 2 1]].
Example C80_ex_params : dec_params_of rmL rmC 8 = Ok rmP.
Proof. vm_compute. reflexivity. Qed.
Example C80_ex_run : exists sol t, process_evals_to_tf rmL rmC rmProj rmS 8 "A" (Some "B"%string) (Some "R"%string) = Ok sol /\ sol_tensor sol 0 = Ok t /\
  map (map (fun z => (Qred (re z), Qred (im z)))) t = [[(2%Q, 1%Q)]] /\ so_freqs sol = [2%Q].
Proof. eexists _, _. repeat match goal with |- _ /\ _ => apply conj end; vm_compute; reflexivity. Qed.
(** the run above meets every hypothesis of the theorem *)
Definition rmPr := view (cf_name rmC) rmProj rmS.
Lemma rm_A st : find (fun x : string * Gather.site cq => String.eqb (fst x) "A") rmPr = Some ("A"%string, st) -> st = [("m"%string, (8%Q, Ok rmA))].
Proof. intros H. vm_compute in H. injection H as <-. reflexivity. Qed.
Lemma rm_B st : find (fun x : string * Gather.site cq => String.eqb (fst x) "B") rmPr = Some ("B"%string, st) -> st = [("n"%string, (8%Q, Ok rmB))].
Proof. intros H. vm_compute in H. injection H as <-. reflexivity. Qed.
Lemma rm_R st : find (fun x : string * Gather.site cq => String.eqb (fst x) "R") rmPr = Some ("R"%string, st) -> st = [("o"%string, (8%Q, Ok rmR))].
Proof. intros H. vm_compute in H. injection H as <-. reflexivity. Qed.
Lemma rm_good chans offset x name chs (H1 : chans <> []) (H2 : shaped x (length chans) 1) (H3 : incl chs chans) :
  forall st : Gather.site cq, st = [(name, (8%Q, Ok (rmD chans offset x)))] -> NoDup (map fst st) /\
    forall n fs d, In (n, (fs, Ok d)) st -> Qeq_bool fs (dp_fs rmP) = true -> good_evals (dp_per_level rmP) d /\ incl chs (sm_chans (sd_md d)).
Proof.
  intros st ->. split; [constructor; [intros []|constructor]|]. intros n fs d [E|[]] _. assert (d = rmD chans offset x) as -> by congruence.
  split; [|exact H3]. split; [exact H1|]. split; [reflexivity|]. intros l Hl. cbn in Hl. assert (l = 0) as -> by lia.
  eexists _, x. split; [reflexivity|]. split; [reflexivity|]. split; [reflexivity|]. split; [exact H2|]. cbn. lia.
Qed.
Example C80_ex_good : good_site rmPr rmP "A" ["Ex"%string] /\ good_site rmPr rmP "B" ["Hy"%string] /\ good_site rmPr rmP "R" ["Hy"%string].
Proof.
  split; [|split]; intros st H.
  - apply rm_A in H. refine (rm_good _ _ _ _ _ _ _ _ st H); [discriminate| |intros c [<-|[]]; right; left; reflexivity].
    vm_compute. intuition (subst; auto; intuition (subst; auto)).
  - apply rm_B in H. refine (rm_good _ _ _ _ _ _ _ _ st H); [discriminate| |intros c [<-|[]]; left; reflexivity].
    vm_compute. intuition (subst; auto; intuition (subst; auto)).
  - apply rm_R in H. refine (rm_good _ _ _ _ _ _ _ _ st H); [discriminate| |intros c [<-|[]]; right; left; reflexivity].
    vm_compute. intuition (subst; auto; intuition (subst; auto)).
Qed.

Lemma rm_site site chans offset x name chs level g f row : (forall st, find (fun x : string * Gather.site cq => String.eqb (fst x) site) rmPr = Some (site, st) -> st = [(name, (8%Q, Ok (rmD chans offset x)))]) ->
  site_row rmPr 8 site chs level g f row -> level < 1 /\ offset <= g < offset + Z.of_nat (length x) /\ window_row (rmD chans offset x) chs level (g - offset) f row.
Proof.
  intros HF (st & ms & n & fs' & d & m & F & (st' & F' & M) & (b & md & a & E & (W1 & m' & W2 & W3) & _) & I & N & W).
  rewrite (HF _ F) in I. rewrite (HF _ F') in M. destruct I as [I|[]]. assert (d = rmD chans offset x) as -> by congruence.
  assert (M2 : ms = [(name, sd_md (rmD chans offset x))]) by (rewrite M; reflexivity). clear M.
  assert (md = sd_md (rmD chans offset x)) as ->.
  { rewrite M2 in E. destruct b as [|b1 b]; [cbn [app] in E; congruence|destruct b; discriminate]. }
  cbn [rmD sd_md sm_n_levels sm_levels] in *. split; [exact W1|]. destruct (Z.to_nat level) as [|l]; [|destruct l; discriminate]. cbn in N, W2. injection N as <-. injection W2 as <-. split; [exact W3|exact W].
Qed.
Lemma rm_row chans offset x chs c level w f row i : chs = [c] -> nth_error chans i = Some c -> NoDup chans -> 
  window_row (rmD chans offset x) chs level w f row -> exists z, row = [z] /\ coef x (Z.to_nat w) i (Z.to_nat f) = Some z.
Proof.
  intros -> Hc ND (x' & Hx & H). inversion H as [|c' z cs zs (j & J1 & J2 & J3) R]; subst. inversion R; subst. exists z. split; [reflexivity|].
  assert (x' = x) as ->. { apply nd3_inj. unfold sd_at in Hx. cbn [rmD sd_data find fst] in Hx. destruct (0 =? level); congruence. }
  assert (j = i) as ->; [|exact J3]. apply (NoDup_nth_error chans); [exact ND| |cbn in J1; congruence]. apply nth_error_Some. cbn in J1. congruence.
Qed.

(** the rows of the three sites in the windows they share *)
Lemma rm_rowA level g f row : site_row rmPr 8 "A" ["Ex"%string] level g f row -> 1 <= g < 4 /\ exists z, row = [z] /\ coef [[[mkC 9 9]; [mkC 7 7]]; [[mkC 5 5]; [mkC 2 1]]; [[mkC 6 1]; [mkC (-1) 2]]] (Z.to_nat (g - 1)) 1 (Z.to_nat f) = Some z.
Proof.
  intros H. apply (rm_site "A" ["Hy"; "Ex"]%string 1 _ "m" _ _ _ _ _ rm_A) in H. destruct H as (_ & R & H). split; [cbn in R; lia|].
  refine (rm_row ["Hy"; "Ex"]%string _ _ _ "Ex"%string _ _ _ _ 1%nat eq_refl eq_refl _ H). constructor; [intros [K|[]]; discriminate K|constructor; [intros []|constructor]].
Qed.
Lemma rm_rowB level g f row : site_row rmPr 8 "B" ["Hy"%string] level g f row -> 2 <= g < 5 /\ exists z, row = [z] /\ coef [[[mkC 1 0]]; [[mkC 0 1]]; [[mkC 3 0]]] (Z.to_nat (g - 2)) 0 (Z.to_nat f) = Some z.
Proof.
  intros H. apply (rm_site "B" ["Hy"]%string 2 _ "n" _ _ _ _ _ rm_B) in H. destruct H as (_ & R & H). split; [cbn in R; lia|].
  refine (rm_row ["Hy"]%string _ _ _ "Hy"%string _ _ _ _ 0%nat eq_refl eq_refl _ H). constructor; [intros []|constructor].
Qed.
Lemma rm_one {A} (a : list A) f z : nth_error a f = Some z -> length a = 1%nat -> f = 0%nat /\ a = [z].
Proof. intros H L. destruct a as [|b [|]]; try discriminate. destruct f as [|[|]]; try discriminate. cbn in H. split; congruence. Qed.
Example C80_ex_related : related rmPr 8 (cf_tf rmC) "A" "B" rmZ.
Proof.
  intros level f g orow irow HA HB. cbn [cf_tf rmC tf_out tf_in] in HA, HB. apply rm_rowA in HA. apply rm_rowB in HB.
  destruct HA as (R1 & zo & -> & A). destruct HB as (R2 & zi & -> & B).
  assert (g = 2 \/ g = 3) as [-> | ->] by lia; unfold coef in A, B; change (Z.to_nat (2 - 1)) with 1%nat in *; change (Z.to_nat (2 - 2)) with 0%nat in *; change (Z.to_nat (3 - 1)) with 2%nat in *; change (Z.to_nat (3 - 2)) with 1%nat in *; cbn [nth_error] in A, B;
  destruct (rm_one _ _ _ A eq_refl) as [_ EA]; destruct (rm_one _ _ _ B eq_refl) as [_ EB]; injection EA as <-; injection EB as <-;
  constructor; [vm_compute; split; reflexivity|constructor|vm_compute; split; reflexivity|constructor].
Qed.

Lemma rm_has site chans offset x name : rmPr <> [] -> find (fun x : string * Gather.site cq => String.eqb (fst x) site) rmPr = Some (site, [(name, (8%Q, Ok (rmD chans offset x)))]) ->
  exists ms n md, site_measurements rmPr site 8 ms /\ In (n, md) ms /\ 0 < sm_n_levels md.
Proof.
  intros _ H. exists [(name, sd_md (rmD chans offset x))], name, (sd_md (rmD chans offset x)). split; [|split; [left; reflexivity|reflexivity]].
  eexists. split; [exact H|reflexivity].
Qed.
Example C80_ex_levels : all_sites_have rmPr 8 ["A"; "B"; "R"]%string 0 /\ forall level, all_sites_have rmPr 8 ["A"; "B"; "R"]%string level -> level < 1.
Proof.
  split.
  - intros site [<-|[<-|[<-|[]]]]; [apply (rm_has _ ["Hy"; "Ex"]%string 1 _ "m") with (2 := eq_refl)|apply (rm_has _ ["Hy"]%string 2 _ "n") with (2 := eq_refl)|apply (rm_has _ ["Ex"; "Hy"]%string 0 _ "o") with (2 := eq_refl)]; discriminate.
  - intros level H. destruct (H "A"%string (or_introl eq_refl)) as (ms & n & md & (st & F & M) & I & Hl).
    apply rm_A in F. rewrite F in M. assert (M2 : ms = [("m"%string, sd_md rmA)]) by (rewrite M; reflexivity). rewrite M2 in I. destruct I as [I|[]].
    assert (md = sd_md rmA) as -> by congruence. exact Hl.
Qed.
(** window 2 alone determines the one unknown *)
Example C80_ex_determined : forall level f, 0 <= level -> all_sites_have rmPr 8 ["A"; "B"; "R"]%string level -> 0 <= f < 1 ->
  windows_determine rmPr 8 (cf_tf rmC) "A" "B" "R" level f.
Proof.
  intros level f H0 H1 Hf D LD H. assert (f = 0) as -> by lia. apply C80_ex_levels in H1. assert (level = 0) as -> by lia.
  destruct D as [|[a b] [|]]; try discriminate.
  assert (K : forall (c : chan) chans i x w z, nth_error chans i = Some c -> NoDup chans -> coef x w i 0 = Some z -> forall o, window_row (rmD chans o x) [c] 0 (Z.of_nat w) 0 [z]).
  { intros c chans i x w z H2 ND H3 o. exists x. split; [reflexivity|]. constructor; [|constructor]. exists i. split; [exact H2|]. split; [|rewrite Nat2Z.id; exact H3].
    intros j Hj E. cbn in E. assert (j = i); [|lia]. apply (NoDup_nth_error chans); [exact ND|apply nth_error_Some; congruence|congruence]. }
  assert (S : forall site name chans o x (c : chan) z w i, find (fun x : string * Gather.site cq => String.eqb (fst x) site) rmPr = Some (site, [(name, (8%Q, Ok (rmD chans o x)))]) ->
     nth_error chans i = Some c -> NoDup chans -> coef x w i 0 = Some z -> o + Z.of_nat w = 2 -> (w < length x)%nat -> site_row rmPr 8 site [c] 0 2 0 [z]).
  { intros site name chans o x c z w i F H2 ND H3 Ho Hw. eexists _, [(name, sd_md (rmD chans o x))], name, _, (rmD chans o x), _. split; [exact F|].
    split; [eexists; split; [exact F|reflexivity]|]. split.
    { exists [], (sd_md (rmD chans o x)), []. split; [reflexivity|]. split; [|intros ? ? []]. split; [reflexivity|]. eexists. split; [reflexivity|]. cbn. lia. }
    split; [left; reflexivity|]. split; [reflexivity|]. cbn [sl_offset]. replace (2 - o) with (Z.of_nat w) by lia. exact (K c chans i x w z H2 ND H3 o). }
  assert (ND2 : forall a b : string, a <> b -> NoDup [a; b]) by (intros x y E; constructor; [intros [F|[]]; congruence|constructor; [intros []|constructor]]).
  assert (E : ceq (cdot [mkC a b] (map (fun x => ctimes x (conj_ (mkC 2 0))) [mkC 1 0])) c0).
  { apply (H 2 [mkC 2 1] [mkC 1 0] [mkC 2 0] (mkC 2 0)); [| | |left; reflexivity].
    - refine (S "A"%string "m"%string ["Hy"; "Ex"]%string 1 _ "Ex"%string _ 1%nat 1%nat eq_refl eq_refl _ eq_refl eq_refl _); [apply ND2; discriminate|cbn; lia].
    - refine (S "B"%string "n"%string ["Hy"]%string 2 _ "Hy"%string _ 0%nat 0%nat eq_refl eq_refl _ eq_refl eq_refl _); [constructor; [intros []|constructor]|cbn; lia].
    - refine (S "R"%string "o"%string ["Ex"; "Hy"]%string 0 _ "Hy"%string _ 2%nat 1%nat eq_refl eq_refl _ eq_refl eq_refl _); [apply ND2; discriminate|cbn; lia]. }
  constructor; [|constructor]. destruct E as [E1 E2]. cbn in E1, E2. split; cbn; lra.
Qed.
Example C80_ex_library : l_cmul rmL = ctimes /\ junk_shape (l_junk1 rmL) (l_junk2 rmL) /\ junk_rows rmL /\ least_squares (l_fit rmL).
Proof.
  split; [reflexivity|]. split; [|split; [intros k r c; apply repeat_length|exact ls_elim]].
  split; [intros; apply repeat_length|]. intros n m. split; [apply repeat_length|]. intros row K. apply repeat_spec in K. subst row. apply repeat_length.
Qed.
(** the theorem applied to the run above: the transfer function between the sites is recovered *)
Example C80_ex : exists sol, process_evals_to_tf rmL rmC rmProj rmS 8 "A" (Some "B"%string) (Some "R"%string) = Ok sol /\
  exists t fr, sol_tensor sol 0 = Ok t /\ Forall2 (Forall2 ceq) t [[mkC 2 1]] /\ nth_error (so_freqs sol) 0 = Some fr /\ level_eval_freq rmP 0 0 = Ok fr.
Proof.
  destruct C80_ex_library as (L1 & L2 & L3 & L4). destruct C80_ex_good as (G1 & G2 & G3). destruct C80_ex_levels as [V1 V2].
  assert (ND1 : forall a : string, NoDup [a]) by (intros a; constructor; [intros []|constructor]).
  assert (KD : keys_distinct (cf_tf rmC)) by (intros o i o' i' [<-|[]] [<-|[]] [<-|[]] [<-|[]] _; split; reflexivity).
  destruct (C80_remote_reference rmL rmC rmProj rmS 8 "A" (Some "B"%string) (Some "R"%string) rmP rmZ L1 L2 L3 L4
    ltac:(discriminate) ltac:(discriminate) ltac:(discriminate) (ND1 _) (ND1 _) KD C80_ex_params ltac:(cbn; lia) G1 G2 G3 V1 V2) as (sol & E & H).
  - intros level f. split; [reflexivity|]. intros row [<-|[]]. reflexivity.
  - exact C80_ex_related.
  - exact C80_ex_determined.
  - exists sol. split; [exact E|]. exact (H 0 0 ltac:(lia) V1 ltac:(cbn; lia)).
Qed.
