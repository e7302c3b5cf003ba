(** Property C103: the names and the order of the measurements of a site have no influence on the transfer function. *)
From Coq Require Import String.
From Verif Require Import Base.Prelude Base.Rounding Base.ListUtil Base.NdArray Base.Cplx
  Model.Sampling Model.Time Model.Decimate Model.Window Model.Spectra Model.Calibrate Model.Gather Model.Regression Model.Pipeline
  Spec.Pipeline Spec.Calibrate Spec.Gather Spec.Renamed Proofs.RenamedRun.
From Verif Require Import Props.Remote.
Open Scope list_scope. Open Scope Q_scope.

(** ** C103 *)
(** two projects with the same stored evaluation data at the sampling frequency for the sites in use - under whatever
    measurement names and in whatever order, and whatever else the projects have - where no window of a site is in
    two measurements with different data: process_evals_to_tf gives the same transfer function, with any solver *)
Theorem C103_renamed : forall (L : library) (c : config) (proj proj' : raw_project) (s s' : store) fs out_site in_name cross_name sol,
  let in_site := or_else in_name out_site in let cross_site := or_else cross_name in_site in
  let sites := [out_site; in_site; cross_site] in let n := ds_per_level (cf_dec c) in let stored := view (cf_name c) proj s in
  junk_rows L -> (1 <= n)%Z -> tf_out (cf_tf c) <> [] -> tf_in (cf_tf c) <> [] -> tf_cross (cf_tf c) <> [] ->
  same_data fs sites stored (view (cf_name c) proj' s') -> separate fs sites stored ->
  good_data n fs stored out_site (tf_out (cf_tf c)) -> good_data n fs stored in_site (tf_in (cf_tf c)) -> good_data n fs stored cross_site (tf_cross (cf_tf c)) ->
  process_evals_to_tf L c proj s fs out_site in_name cross_name = Ok sol -> process_evals_to_tf L c proj' s' fs out_site in_name cross_name = Ok sol.
Proof. intros. eapply renamed; eassumption. Qed.
Print Assumptions C103_renamed.

(** Site A has two measurements, windows 1 to 3 and 6 to 7, site R one, windows 0 to 7. In the second project those of A are
    swapped, all three have other names, and A has a further measurement at another sampling frequency. *)
Definition rnA1 : spec_data cq := rmD ["Hy"; "Ex"]%string 1 [[[mkC 9 9]; [mkC 7 7]]; [[mkC 5 5]; [mkC 2 1]]; [[mkC 6 1]; [mkC (-1) 2]]].
Definition rnA2 : spec_data cq := rmD ["Hy"; "Ex"]%string 6 [[[mkC 1 2]; [mkC 0 3]]; [[mkC 1 5]; [mkC 4 1]]].
Definition rnR : spec_data cq := rmD ["Hy"]%string 0 [[[mkC 8 8]]; [[mkC 8 1]]; [[mkC 2 0]]; [[mkC 0 1]]; [[mkC 3 1]]; [[mkC 0 2]]; [[mkC 1 1]]; [[mkC 2 5]]].
Definition rnProj : raw_project := [("A", [("m", (8%Q, Err ReadError)); ("n", (8%Q, Err ReadError))]); ("R", [("o", (8%Q, Err ReadError))])]%string.
Definition rnS : store := [(("A", "m", "rm"), rnA1); (("A", "n", "rm"), rnA2); (("R", "o", "rm"), rnR)]%string.
Definition rnProj' : raw_project := [("R", [("third", (8%Q, Err ReadError))]); ("A", [("first", (8%Q, Err ReadError)); ("other", (4%Q, Err ReadError)); ("second", (8%Q, Err ReadError))])]%string.
Definition rnS' : store := [(("A", "second", "rm"), rnA1); (("R", "third", "rm"), rnR); (("A", "other", "rm"), rnR); (("A", "first", "rm"), rnA2)]%string.
Definition rnPr := view (cf_name rmC) rnProj rnS.
Definition rnPr' := view (cf_name rmC) rnProj' rnS'.
Lemma rn_A d : data_of rnPr "A" 8 d <-> d = rnA1 \/ d = rnA2.
Proof.
  split.
  - intros (st & n & f & F & Hin & _). vm_compute in F. assert (E : st = [("m"%string, (8%Q, Ok rnA1)); ("n"%string, (8%Q, Ok rnA2))]) by (injection F as <-; reflexivity). subst st.
    destruct Hin as [E|[E|[]]]; [left|right]; congruence.
  - intros [-> | ->]; eexists _, _, 8%Q; (split; [reflexivity|]); (split; [|reflexivity]); [left; reflexivity|right; left; reflexivity].
Qed.
Lemma rn_A' d : data_of rnPr' "A" 8 d <-> d = rnA1 \/ d = rnA2.
Proof.
  split.
  - intros (st & n & f & F & Hin & Q). vm_compute in F. assert (E : st = [("first"%string, (8%Q, Ok rnA2)); ("other"%string, (4%Q, Ok rnR)); ("second"%string, (8%Q, Ok rnA1))]) by (injection F as <-; reflexivity). subst st.
    destruct Hin as [E|[E|[E|[]]]]; [right; congruence| |left; congruence]. exfalso. assert (f = 4) as -> by congruence. discriminate Q.
  - intros [-> | ->]; eexists _, _, 8%Q; (split; [reflexivity|]); (split; [|reflexivity]); [right; right; left; reflexivity|left; reflexivity].
Qed.
Lemma rn_R d : data_of rnPr "R" 8 d <-> d = rnR.
Proof.
  split.
  - intros (st & n & f & F & Hin & _). vm_compute in F. assert (E : st = [("o"%string, (8%Q, Ok rnR))]) by (injection F as <-; reflexivity). subst st. destruct Hin as [E|[]]. congruence.
  - intros ->. eexists _, _, 8%Q. split; [reflexivity|]. split; [|reflexivity]. left; reflexivity.
Qed.
Lemma rn_R' d : data_of rnPr' "R" 8 d <-> d = rnR.
Proof.
  split.
  - intros (st & n & f & F & Hin & _). vm_compute in F. assert (E : st = [("third"%string, (8%Q, Ok rnR))]) by (injection F as <-; reflexivity). subst st. destruct Hin as [E|[]]. congruence.
  - intros ->. eexists _, _, 8%Q. split; [reflexivity|]. split; [|reflexivity]. left; reflexivity.
Qed.
Lemma rn_same : same_data 8 ["A"; "R"; "R"]%string rnPr rnPr'.
Proof.
  assert (NA : NoDup ["m"; "n"]%string) by (constructor; [intros [F|[]]; discriminate F|constructor; [intros []|constructor]]).
  assert (NA' : NoDup ["first"; "other"; "second"]%string) by (constructor; [intros [F|[F|[]]]; discriminate F|constructor; [intros [F|[]]; discriminate F|constructor; [intros []|constructor]]]).
  assert (N1 : forall x : string, NoDup [x]) by (intros x; constructor; [intros []|constructor]).
  assert (R : (exists st st', find (fun x : string * Gather.site cq => String.eqb (fst x) "R") rnPr = Some ("R"%string, st) /\ find (fun x : string * Gather.site cq => String.eqb (fst x) "R") rnPr' = Some ("R"%string, st') /\
                    NoDup (map fst st) /\ NoDup (map fst st')) /\ forall d, data_of rnPr "R" 8 d <-> data_of rnPr' "R" 8 d).
  { split; [|intros d; rewrite rn_R, rn_R'; reflexivity]. eexists _, _. split; [reflexivity|]. split; [reflexivity|]. split; [apply N1|apply N1]. }
  intros site [<-|[<-|[<-|[]]]]; [|exact R|exact R].
  split; [|intros d; rewrite rn_A, rn_A'; reflexivity]. eexists _, _. split; [reflexivity|]. split; [reflexivity|]. split; [exact NA|exact NA'].
Qed.
Lemma rn_window chans o x level g : has_window (sd_md (rmD chans o x)) level g -> (0 <= level)%Z -> (o <= g < o + Z.of_nat (length x))%Z.
Proof.
  intros (H & m & Hm & W) Hl. cbn [rmD sd_md sm_n_levels sm_levels] in *. assert (E : level = 0%Z) by lia. subst level. cbn in Hm. injection Hm as <-. exact W.
Qed.
Lemma rn_separate : separate 8 ["A"; "R"; "R"]%string rnPr.
Proof.
  assert (R : forall d d', data_of rnPr "R" 8 d -> data_of rnPr "R" 8 d' -> d = d') by (intros d d' H H'; apply rn_R in H, H'; congruence).
  intros site d d' level g [<-|[<-|[<-|[]]]] H H' Hl W W'; [|exact (R _ _ H H')|exact (R _ _ H H')].
  apply rn_A in H, H'. destruct H as [-> | ->], H' as [-> | ->]; try reflexivity; exfalso; apply rn_window in W, W'; try exact Hl; cbn in W, W'; lia.
Qed.
Lemma rn_good chans o x cs (H1 : chans <> []) (H2 : shaped x (length chans) 1) (H3 : incl cs chans) : good_evals 1 (rmD chans o x) /\ incl cs (sm_chans (sd_md (rmD chans o x))).
Proof.
  split; [|exact H3]. split; [exact H1|]. split; [reflexivity|]. intros l Hl. cbn in Hl. assert (l = 0)%Z as -> by lia.
  eexists _, x. split; [reflexivity|]. split; [reflexivity|]. split; [reflexivity|]. split; [exact H2|]. cbn. lia.
Qed.
Lemma rn_good_A : good_data 1 8 rnPr "A" ["Ex"%string].
Proof.
  intros d H. apply rn_A in H. destruct H as [-> | ->]; (apply rn_good; [discriminate|vm_compute; intuition (subst; auto; intuition (subst; auto))|intros c [<-|[]]; right; left; reflexivity]).
Qed.
Lemma rn_good_R : good_data 1 8 rnPr "R" ["Hy"%string].
Proof.
  intros d H. apply rn_R in H. subst d. apply rn_good; [discriminate|vm_compute; intuition (subst; auto; intuition (subst; auto))|intros c [<-|[]]; left; reflexivity].
Qed.
Example C103_ex : exists sol t z, process_evals_to_tf rmL rmC rnProj rnS 8 "A" (Some "R"%string) None = Ok sol /\ process_evals_to_tf rmL rmC rnProj' rnS' 8 "A" (Some "R"%string) None = Ok sol /\
  sol_tensor sol 0 = Ok t /\ t = [[z]] /\ ~ im z == 0.
Proof.
  destruct (process_evals_to_tf rmL rmC rnProj rnS 8 "A" (Some "R"%string) None) as [sol|e] eqn:E; [|vm_compute in E; discriminate E].
  pose proof (C103_renamed rmL rmC rnProj rnProj' rnS rnS' 8 "A"%string (Some "R"%string) None sol) as H. cbv zeta in H.
  rewrite H; try assumption; [|intros k r c; apply repeat_length|cbn; lia|discriminate|discriminate|discriminate|exact rn_same|exact rn_separate|exact rn_good_A|exact rn_good_R|exact rn_good_R].
  vm_compute in E. injection E as <-. eexists _, _, _. split; [reflexivity|]. split; [reflexivity|]. split; [vm_compute; reflexivity|]. split; [reflexivity|]. vm_compute. intros F. discriminate F.
Qed.

(** if two measurements of the site have the same windows with different data - two recordings at a time - the
    order, which is that of the names of the directories, does matter: the first measurement is taken *)
Definition rnA3 : spec_data cq := rmD ["Hy"; "Ex"]%string 1 [[[mkC 1 2]; [mkC 0 3]]; [[mkC 1 5]; [mkC 4 1]]].
Definition rnT (x y : spec_data cq) : store := [(("A", "m", "rm"), x); (("A", "n", "rm"), y); (("R", "o", "rm"), rnR)]%string.
Theorem C103_overlap_refuted : exists sol sol' t t', process_evals_to_tf rmL rmC rnProj (rnT rnA1 rnA3) 8 "A" (Some "R"%string) None = Ok sol /\
  process_evals_to_tf rmL rmC rnProj (rnT rnA3 rnA1) 8 "A" (Some "R"%string) None = Ok sol' /\ sol_tensor sol 0 = Ok t /\ sol_tensor sol' 0 = Ok t' /\
  map (map (fun z => (Qred (re z), Qred (im z)))) t <> map (map (fun z => (Qred (re z), Qred (im z)))) t'.
Proof. eexists _, _, _, _. repeat match goal with |- _ /\ _ => apply conj end; try (vm_compute; reflexivity). vm_compute. intros F. discriminate F. Qed.
Print Assumptions C103_overlap_refuted.
