(** Paths and file names of a project. *)
From Coq Require Import String Ascii NArith Nnat.
From Verif Require Import Base.Prelude Base.PyString Base.Dec Base.FileSys Model.Project Model.Letsgo Spec.Project.
Open Scope list_scope.

(** ** paths *)
Lemma split_slash_no s : no_char "/"%char s -> split_slash s = [s].
Proof.
  induction s as [|c s IH]; intros H; [reflexivity|]. destruct H as [H1 H2]. cbn [split_slash]. rewrite (IH H2).
  destruct (Ascii.eqb_spec c "/"%char); [congruence|reflexivity].
Qed.
Lemma pjoin_component p s : component s -> pjoin p s = p ++ [s].
Proof.
  intros (H1 & H2 & H3). unfold pjoin, parts. rewrite (split_slash_no s H3). cbn [filter].
  destruct (String.eqb_spec s ""%string) as [E|_]; [congruence|]. destruct (String.eqb_spec s "."%string) as [E|_]; [congruence|]. cbn [orb negb].
  destruct s as [|c s]; [congruence|]. destruct H3 as [H3 _]. destruct c as [[] [] [] [] [] [] [] []]; try reflexivity. congruence.
Qed.
Definition tag (x : place) : string :=
  match x with
  | TimeOf _ _ => "time" | SpectraOf _ _ _ => "spectra" | EvalsOf _ _ _ => "evals" | FeaturesOf _ _ _ => "features"
  | MasksOf _ _ => "masks" | ResultsOf _ _ => "results" | Calibration => "calibrate"
  end.
Lemma place_path_eq p x : Forall component (place_names x) -> place_path p x = p ++ tag x :: place_names x.
Proof.
  intros H. assert (T : forall q, pjoin q (tag x) = q ++ [tag x]) by (intros q; destruct x; reflexivity).
  destruct x; cbn [place_names] in H; cbn [place_path tag place_names] in *;
    unfold get_meas_time_path, get_meas_spectra_path, get_meas_evals_path, get_meas_features_path, get_mask_path, get_results_path, get_calibration_path in *;
    repeat match goal with H : Forall _ (_ :: _) |- _ => inversion H; clear H; subst end;
    repeat rewrite pjoin_component by assumption;
    match goal with |- context [proj_sub ?k] => let v := eval vm_compute in (proj_sub k) in change (proj_sub k) with v end;
    rewrite T; repeat rewrite <- app_assoc; reflexivity.
Qed.
Lemma place_inj p x y r : Forall component (place_names x) -> Forall component (place_names y) -> place_path p y = place_path p x ++ r -> x = y.
Proof.
  intros Hx Hy. rewrite (place_path_eq p x Hx), (place_path_eq p y Hy), <- app_assoc. intros E. apply app_inv_head in E. injection E as E1 E2.
  destruct x, y; cbn [tag] in E1; try discriminate; cbn [place_names app] in E2; try discriminate; try (injection E2 as -> -> _; reflexivity);
    try (injection E2 as -> -> -> _; reflexivity); try reflexivity.
Qed.

(** ** fs_to_string *)
Lemma replace_digits s : all_digits s = true -> replace_char "." "_" s = s.
Proof.
  induction s as [|c s IH]; intros H; [reflexivity|]. cbn [all_digits] in H. apply andb_true_iff in H. destruct H as [H1 H2]. cbn [replace_char]. rewrite (IH H2).
  destruct (Ascii.eqb_spec c "."%char) as [->|_]; [discriminate|reflexivity].
Qed.
Lemma replace_app a b s t : replace_char a b (s ++ t) = (replace_char a b s ++ replace_char a b t)%string.
Proof. induction s as [|c s IH]; [reflexivity|]. cbn. rewrite IH. reflexivity. Qed.
Lemma fs_string fs : 0 <= fs -> fs_to_string fs =
  (dec (Z.to_N (micro fs) / 1000000) ++ String "_" (fixed 6 (Z.to_N (micro fs) mod 1000000) ""))%string.
Proof.
  intros H. unfold fs_to_string, fix6, micro. assert (Qltb fs 0 = false) as -> by (apply Qltb_false; exact H).
  set (n := Z.to_N (qround (Qabs fs * 1000000))). change ("" ++ (dec (n / 1000000) ++ "." ++ fixed 6 (n mod 1000000) ""))%string with (dec (n / 1000000) ++ "." ++ fixed 6 (n mod 1000000) "")%string.
  rewrite !replace_app, (replace_digits _ (dec_digits _)), (replace_digits _ (fixed_digits 6 _ "" eq_refl)). reflexivity.
Qed.
Lemma app_assoc_s a b c : ((a ++ b) ++ c = a ++ (b ++ c))%string.
Proof. induction a as [|x a IH]; cbn; [reflexivity|]. rewrite IH. reflexivity. Qed.
Lemma micro_nonneg fs : (0 <= micro fs)%Z.
Proof.
  unfold micro. pose proof (qround_spec (Qabs fs * 1000000)) as H. pose proof (Qabs_nonneg fs) as H0.
  apply Qabs_Qle_condition in H. destruct (Z.le_gt_cases 0 (qround (Qabs fs * 1000000))) as [L|L]; [exact L|].
  assert (inject_Z (qround (Qabs fs * 1000000)) <= -1) by (change (-1)%Q with (inject_Z (-1)); apply (proj1 (inject_Z_le _ _)); lia).
  destruct H as [_ H]. set (z := inject_Z (qround (Qabs fs * 1000000))) in *. set (w := Qabs fs) in *. clearbody z w. lra.
Qed.
Lemma fs_prefix a b t u : 0 <= a -> 0 <= b -> (fs_to_string a ++ t = fs_to_string b ++ u)%string -> micro a = micro b /\ t = u.
Proof.
  intros Ha Hb. rewrite (fs_string a Ha), (fs_string b Hb), !app_assoc_s. cbn [append].
  set (x := Z.to_N (micro a)). set (y := Z.to_N (micro b)). intros E.
  apply digits_sep in E; [|reflexivity|apply dec_digits|apply dec_digits]. destruct E as [E1 E2]. apply dec_inj in E1.
  apply app_same_length in E2; [|rewrite !fixed_length; reflexivity]. destruct E2 as [E2 E3].
  assert (E4 : (x mod 1000000 = y mod 1000000)%N).
  { apply (f_equal (undec_acc 0)) in E2. rewrite !fixed_undec in E2. change (10 ^ N.of_nat 6)%N with 1000000%N in E2. cbn [undec_acc] in E2.
    rewrite !N.mod_mod in E2 by lia. injection E2 as E2. lia. }
  split; [|exact E3]. pose proof (N.div_mod x 1000000 ltac:(lia)) as D1. pose proof (N.div_mod y 1000000 ltac:(lia)) as D2. rewrite E1, E4 in D1.
  assert (x = y) as X by lia. pose proof (micro_nonneg a). pose proof (micro_nonneg b). subst x y. lia.
Qed.

(** ** solution names *)
Lemma app_cancel_r a b t : (a ++ t = b ++ t)%string -> a = b.
Proof.
  intros H. assert (L : String.length a = String.length b).
  { apply (f_equal String.length) in H. assert (LA : forall u v, String.length (u ++ v) = (String.length u + String.length v)%nat) by (induction u as [|c u IHu]; intros v; cbn; [reflexivity|]; rewrite IHu; reflexivity).
    rewrite !LA in H. lia. }
  exact (proj1 (app_same_length a b t t L H)).
Qed.
Lemma app_cancel_l a t u : (a ++ t = a ++ u)%string -> t = u.
Proof. induction a as [|c a IH]; cbn; [tauto|]. intros H. injection H as H. exact (IH H). Qed.
Lemma solution_name_eq fs n v px : get_solution_name fs n v px =
  (fs_to_string fs ++ ("_" ++ (lower n ++ ((if String.eqb v "" then "" else "_" ++ replace_char " " "_" v) ++ match px with None => ".json" | Some x => "_" ++ (x ++ ".json") end))))%string.
Proof.
  unfold get_solution_name. destruct (String.eqb v ""); destruct px; rewrite ?app_assoc_s; reflexivity.
Qed.
(** within one transfer function *)
Lemma names_one_tf n v a b px py : 0 <= a -> 0 <= b -> get_solution_name a n v px = get_solution_name b n v py -> micro a = micro b /\ px = py.
Proof.
  intros Ha Hb. rewrite !solution_name_eq. intros E. apply fs_prefix in E; [|exact Ha|exact Hb]. destruct E as [E1 E]. split; [exact E1|].
  apply app_cancel_l in E. apply app_cancel_l in E. apply app_cancel_l in E. destruct px as [x|], py as [y|]; cbn in E; try discriminate; [|reflexivity].
  injection E as E. change ((x ++ ".json")%string = (y ++ ".json")%string) in E. apply app_cancel_r in E. congruence.
Qed.
(** splitting at the first underscore *)
Lemma no_char_split c : forall s1 s2 t1 t2, no_char c s1 -> no_char c s2 -> (s1 ++ String c t1 = s2 ++ String c t2)%string -> s1 = s2 /\ t1 = t2.
Proof.
  induction s1 as [|a s1 IH]; intros [|b s2] t1 t2 H1 H2 H; cbn in *.
  - injection H as H. split; [reflexivity|exact H].
  - injection H as -> H. destruct H2 as [H2 _]. congruence.
  - injection H as -> H. destruct H1 as [H1 _]. congruence.
  - injection H as -> H. destruct (IH s2 t1 t2 (proj2 H1) (proj2 H2) H) as [-> ->]. split; reflexivity.
Qed.
Lemma no_char_app c s t : no_char c (s ++ t) <-> no_char c s /\ no_char c t.
Proof. induction s as [|a s IH]; cbn; [tauto|]. rewrite IH. tauto. Qed.
Lemma tail_split v1 v2 px py : no_char "_" v1 -> no_char "_" v2 ->
  (v1 ++ match px with None => ".json" | Some x => "_" ++ (x ++ ".json") end = v2 ++ match py with None => ".json" | Some x => "_" ++ (x ++ ".json") end)%string -> v1 = v2 /\ px = py.
Proof.
  assert (J : no_char "_" ".json") by (cbn; repeat split; discriminate).
  intros H1 H2. destruct px as [x|], py as [y|]; intros E.
  - change (v1 ++ String "_" (x ++ ".json") = v2 ++ String "_" (y ++ ".json"))%string in E. apply no_char_split in E; [|exact H1|exact H2].
    destruct E as [-> E]. apply app_cancel_r in E. split; [reflexivity|congruence].
  - exfalso. assert (K : no_char "_" (v2 ++ ".json")) by (apply no_char_app; split; [exact H2|exact J]). rewrite <- E in K. apply no_char_app in K. destruct K as [_ [K _]]. congruence.
  - exfalso. assert (K : no_char "_" (v1 ++ ".json")) by (apply no_char_app; split; [exact H1|exact J]). rewrite E in K. apply no_char_app in K. destruct K as [_ [K _]]. congruence.
  - apply app_cancel_r in E. split; [exact E|reflexivity].
Qed.
Lemma replace_no a b s : no_char a s -> replace_char a b s = s.
Proof. induction s as [|c s IH]; intros H; [reflexivity|]. cbn. destruct H as [H1 H2]. rewrite (IH H2). destruct (Ascii.eqb_spec c a); [congruence|reflexivity]. Qed.
Definition plain (s : string) : Prop := no_char "_" s /\ no_char " " s /\ lower s = s.
Lemma names_plain a n v px b n' v' py : 0 <= a -> 0 <= b -> plain n -> plain n' -> no_char "_" v -> no_char " " v -> no_char "_" v' -> no_char " " v' ->
  (v = ""%string <-> v' = ""%string) -> get_solution_name a n v px = get_solution_name b n' v' py ->
  micro a = micro b /\ n = n' /\ v = v' /\ px = py.
Proof.
  intros Ha Hb (P1 & P2 & P3) (P1' & P2' & P3') V1 V2 V1' V2' Hv. rewrite !solution_name_eq. intros E. apply fs_prefix in E; [|exact Ha|exact Hb]. destruct E as [E1 E]. split; [exact E1|].
  apply app_cancel_l in E. rewrite P3, P3' in E. destruct (String.eqb_spec v ""%string) as [Ev|Ev]; destruct (String.eqb_spec v' ""%string) as [Ev'|Ev']; try tauto.
  - cbn [append] in E. change (n ++ match px with None => ".json" | Some x => "_" ++ (x ++ ".json") end = n' ++ match py with None => ".json" | Some x => "_" ++ (x ++ ".json") end)%string in E.
    apply tail_split in E; [|exact P1|exact P1']. destruct E as [-> ->]. split; [reflexivity|]. split; [congruence|reflexivity].
  - rewrite (replace_no _ _ v V2), (replace_no _ _ v' V2'), !app_assoc_s in E. 
    change (n ++ String "_" (v ++ match px with None => ".json" | Some x => "_" ++ (x ++ ".json") end) = n' ++ String "_" (v' ++ match py with None => ".json" | Some x => "_" ++ (x ++ ".json") end))%string in E.
    apply no_char_split in E; [|exact P1|exact P1']. destruct E as [-> E]. apply tail_split in E; [|exact V1|exact V1']. destruct E as [-> ->].
    split; [reflexivity|]. split; reflexivity.
Qed.
(** solution names are single components when their parts have no slash *)
Lemma digits_no_char c s : is_digit c = false -> all_digits s = true -> no_char c s.
Proof.
  intros Hc. induction s as [|a s IH]; intros H; [exact I|]. cbn [all_digits] in H. apply andb_true_iff in H. destruct H as [H1 H2]. split; [congruence|exact (IH H2)].
Qed.
Lemma lower_no_slash s : no_char "/"%char s -> no_char "/"%char (lower s).
Proof.
  induction s as [|c s IH]; intros H; [exact I|]. destruct H as [H1 H2]. cbn. split; [|exact (IH H2)].
  destruct c as [[] [] [] [] [] [] [] []]; cbn; congruence.
Qed.
Lemma replace_no_slash s : no_char "/"%char s -> no_char "/"%char (replace_char " " "_" s).
Proof.
  induction s as [|c s IH]; intros H; [exact I|]. destruct H as [H1 H2]. cbn. split; [|exact (IH H2)]. destruct (Ascii.eqb c " "); [discriminate|exact H1].
Qed.
Lemma name_component a n v px : 0 <= a -> no_char "/" n -> no_char "/" v -> match px with Some x => no_char "/" x | None => True end ->
  component (get_solution_name a n v px).
Proof.
  intros Ha Hn Hv Hx. rewrite solution_name_eq, (fs_string a Ha), app_assoc_s. cbn [append].
  assert (Nd : exists c t, dec (Z.to_N (micro a) / 1000000) = String c t).
  { unfold dec. apply digs_nonempty. }
  destruct Nd as (c & t & Ed). split; [|split].
  - rewrite Ed. discriminate.
  - rewrite Ed. cbn [append]. intros E. injection E as _ E. destruct t; discriminate.
  - apply no_char_app. split; [apply digits_no_char; [reflexivity|apply dec_digits]|]. cbn [no_char]. split; [discriminate|].
    repeat first [apply no_char_app; split | apply digits_no_char; [reflexivity|apply fixed_digits; reflexivity] | apply lower_no_slash; exact Hn].
    + cbn. split; [discriminate|]. apply no_char_app. split; [apply lower_no_slash; exact Hn|]. apply no_char_app. split.
      * destruct (String.eqb v ""); [exact I|]. cbn. split; [discriminate|]. apply replace_no_slash. exact Hv.
      * destruct px as [x|]; [|cbn; repeat split; discriminate]. cbn. split; [discriminate|]. apply no_char_app. split; [exact Hx|cbn; repeat split; discriminate].
Qed.
