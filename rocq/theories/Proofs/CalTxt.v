(** Proofs for C45 *)
From Coq Require Import String Ascii Permutation Sorted.
From Verif Require Import Base.Prelude Base.ListUtil Base.PyString Model.Calibrate Spec.Calibrate Proofs.TimeMeta.
Open Scope list_scope.

Lemma data_lines_split lines dl : data_lines lines = Ok dl ->
  exists hdr marker rest, lines = hdr ++ marker :: rest /\ (forall l, In l hdr -> contains "CALIBRATION DATA" l = false) /\
    contains "CALIBRATION DATA" marker = true /\ dl = until_blank rest.
Proof.
  induction lines as [|l t IH]; cbn [data_lines]; [discriminate|]. destruct (contains "CALIBRATION DATA" l) eqn:E.
  - intros H. injection H as <-. exists [], l, t. split; [reflexivity|]. split; [intros ? []|]. auto.
  - intros H. destruct (IH H) as (h & m & r & -> & H1 & H2 & H3). exists (l :: h), m, r. split; [reflexivity|]. split; [|auto].
    intros l' [<-|Hl]; auto.
Qed.
Lemma until_blank_split lines : exists tail, lines = until_blank lines ++ tail /\ (forall l, In l (until_blank lines) -> l <> ""%string) /\
  (tail = [] \/ exists t, tail = ""%string :: t).
Proof.
  induction lines as [|l t IH]; cbn [until_blank].
  - exists []. split; [reflexivity|]. split; [intros ? []|]. left. reflexivity.
  - destruct (String.eqb_spec l "") as [->|Hn].
    + exists (""%string :: t). split; [reflexivity|]. split; [intros ? []|]. right. eauto.
    + destruct IH as (tail & E & H1 & H2). exists tail. split; [cbn; congruence|]. split; [|exact H2]. intros l' [<-|Hl]; auto.
Qed.

Lemma split_char_assigns line x v r : split_char "="%char line = x :: v :: r ->
  exists a b rest, line = (a ++ "=" ++ b ++ rest)%string /\ no_eq a /\ no_eq b /\ (rest = ""%string \/ exists t, rest = ("=" ++ t)%string) /\ v = b.
Proof.
  assert (first : forall l h t, split_char "="%char l = h :: t -> no_eq h /\ exists rest, l = (h ++ rest)%string /\
     ((rest = ""%string /\ t = []) \/ exists l', rest = ("=" ++ l')%string /\ t = split_char "="%char l')).
  { induction l as [|c l IH]; intros h t H; cbn [split_char] in H.
    - injection H as <- <-. split; [intros i; destruct i; discriminate|]. exists ""%string. split; [reflexivity|]. left. auto.
    - destruct (Ascii.eqb_spec c "="%char) as [->|Hc].
      + injection H as <- <-. split; [intros i; destruct i; discriminate|]. exists (String "="%char l). split; [reflexivity|]. right. exists l. split; reflexivity.
      + destruct (split_char "="%char l) as [|h' t'] eqn:E.
        { destruct l; cbn in E; [discriminate|]. destruct (Ascii.eqb a "="%char); [discriminate|]. destruct (split_char "="%char l); discriminate. }
        injection H as <- <-. destruct (IH h' t' eq_refl) as (N & rest & -> & R). split.
        * intros [|i]; cbn; [congruence|apply N].
        * exists rest. split; [reflexivity|exact R]. }
  intros H. destruct (first _ _ _ H) as (Nx & rest & -> & [[_ E]|(l' & -> & E)]); [discriminate|].
  destruct (first l' v r (eq_sym E)) as (Nv & rest' & -> & R). exists x, v, rest'. split; [reflexivity|]. split; [exact Nx|]. split; [exact Nv|].
  split; [|reflexivity]. destruct R as [[-> _]|(l'' & -> & _)]; eauto.
Qed.
Lemma value_of_assigns line v : value_of line = Ok v -> assigns line v.
Proof.
  unfold value_of. destruct (split_char "="%char line) as [|x [|y r]] eqn:E; try discriminate. intros H. injection H as <-.
  destruct (split_char_assigns _ _ _ _ E) as (a & b & rest & H1 & H2 & H3 & H4 & ->). exists a, b, rest. auto.
Qed.

(** scanning for the last mention *)
Lemma last_with_cons P l t x : last_with P t x -> last_with P (l :: t) x.
Proof. intros (a & b & -> & H). exists (l :: a), b. split; [reflexivity|exact H]. Qed.

Lemma last_value_step (P : string -> Prop) g l t default v' v : last_value P g t v' v ->
  ((~ P l /\ v' = default) \/ (P l /\ assigns (g l) v')) -> last_value P g (l :: t) default v.
Proof.
  intros [[H1 ->]|(x & Hx & A)] H2.
  - destruct H2 as [[Hn ->]|[Hp Ha]].
    + left. split; [|reflexivity]. intros l' [<-|Hl]; auto.
    + right. exists l. split; [|exact Ha]. exists [], t. split; [reflexivity|]. split; [exact Hp|exact H1].
  - right. exists x. split; [apply last_with_cons; exact Hx|exact A].
Qed.

Lemma cond_value (b : bool) l d v : (if b then value_of l else Ok d) = Ok v -> (b = false /\ v = d) \/ (b = true /\ assigns l v).
Proof. destruct b; intros H; [right; split; [reflexivity|apply value_of_assigns; exact H]|left; split; congruence]. Qed.

Lemma sensor_details_spec lines : forall s0 n0 s n, sensor_details s0 n0 lines = Ok (s, n) ->
  last_value (mentions "serial") lower lines s0 s /\ last_value (mentions "sensor") lower lines n0 n.
Proof.
  induction lines as [|l t IH]; intros s0 n0 s n H; cbn [sensor_details] in H.
  - injection H as <- <-. split; left; (split; [intros ? []|reflexivity]).
  - apply bind_ok in H. destruct H as (s1 & H1 & H). apply bind_ok in H. destruct H as (n1 & H2 & H).
    destruct (IH _ _ _ _ H) as [A B]. apply cond_value in H1. apply cond_value in H2. unfold mentions.
    split; eapply last_value_step; eauto.
    + destruct H1 as [[E ->]|[E F]]; [left|right]; (split; [congruence|auto]).
    + destruct H2 as [[E ->]|[E F]]; [left|right]; (split; [congruence|auto]).
Qed.
Lemma units_spec lines : forall s0 n0 s n, units s0 n0 lines = Ok (s, n) ->
  last_value (mentions "magnitude unit") (fun l => l) lines s0 s /\ last_value (mentions "phase unit") (fun l => l) lines n0 n.
Proof.
  induction lines as [|l t IH]; intros s0 n0 s n H; cbn [units] in H.
  - injection H as <- <-. split; left; (split; [intros ? []|reflexivity]).
  - apply bind_ok in H. destruct H as (s1 & H1 & H). apply bind_ok in H. destruct H as (n1 & H2 & H).
    destruct (IH _ _ _ _ H) as [A B]. apply cond_value in H1. apply cond_value in H2. unfold mentions.
    split; eapply last_value_step; eauto.
    + destruct H1 as [[E ->]|[E F]]; [left|right]; (split; [congruence|auto]).
    + destruct H2 as [[E ->]|[E F]]; [left|right]; (split; [congruence|auto]).
Qed.
Lemma static_gain_spec pf lines g : static_gain pf lines = Ok g ->
  ((forall l, In l lines -> ~ mentions "static gain" l) /\ g = 1%Q) \/
  exists l v, first_with (mentions "static gain") lines l /\ assigns l v /\ pf v = Some g.
Proof.
  unfold mentions. induction lines as [|l t IH]; cbn [static_gain]; intros H.
  - injection H as <-. left. split; [intros ? []|reflexivity].
  - destruct (contains "static gain" (lower l)) eqn:E.
    + apply bind_ok in H. destruct H as (v & Hv & H). destruct (pf v) as [x|] eqn:P; [|discriminate].
      right. exists l, v. split; [exists [], t; split; [reflexivity|]; split; [exact E|intros ? []]|]. split; [apply value_of_assigns; exact Hv|congruence].
    + destruct (IH H) as [[A ->]|(x & v & (a & b & -> & B & C) & D)].
      * left. split; [|reflexivity]. intros l' [<-|Hl]; [congruence|auto].
      * right. exists x, v. split; [|exact D]. exists (l :: a), b. split; [reflexivity|]. split; [exact B|]. intros l' [<-|Hl]; [congruence|auto].
Qed.
Lemma chopper_spec lines c : chopper lines = Ok c ->
  ((forall l, In l lines -> ~ mentions "chopper" l) /\ c = false) \/
  exists l v, first_with (mentions "chopper") lines l /\ assigns l v /\ (c = true <-> v = "True"%string).
Proof.
  unfold mentions. induction lines as [|l t IH]; cbn [chopper]; intros H.
  - injection H as <-. left. split; [intros ? []|reflexivity].
  - destruct (contains "chopper" (lower l)) eqn:E.
    + apply bind_ok in H. destruct H as (v & Hv & H). injection H as <-.
      right. exists l, v. split; [exists [], t; split; [reflexivity|]; split; [exact E|intros ? []]|]. split; [apply value_of_assigns; exact Hv|].
      apply String.eqb_eq.
    + destruct (IH H) as [[A ->]|(x & v & (a & b & -> & B & C) & D)].
      * left. split; [|reflexivity]. intros l' [<-|Hl]; [congruence|auto].
      * right. exists x, v. split; [|exact D]. exists (l :: a), b. split; [reflexivity|]. split; [exact B|]. intros l' [<-|Hl]; [congruence|auto].
Qed.

Lemma parse_row_values pf l v : parse_row pf l = Ok v -> row_values pf l v.
Proof.
  unfold parse_row. destruct (words l) as [|a [|b [|c [|]]]] eqn:E; try discriminate.
  destruct (pf a) as [x|] eqn:A; [|discriminate]. destruct (pf b) as [y|] eqn:B; [|discriminate]. destruct (pf c) as [z|] eqn:C; [|discriminate].
  intros H. injection H as <-. exists a, b, c. auto.
Qed.

Lemma c45_rows : forall pf rad srt file r,
  (forall l, Permutation (srt l) l /\ by_freq (srt l)) -> read_txt pf rad srt file = Ok r ->
  exists hdr marker rows tail vals, map strip file = hdr ++ marker :: rows ++ tail /\
    (forall l, In l hdr -> contains "CALIBRATION DATA" l = false) /\ contains "CALIBRATION DATA" marker = true /\
    rows <> [] /\ (forall l, In l rows -> l <> ""%string) /\ (tail = [] \/ exists t, tail = ""%string :: t) /\
    Forall2 (row_values pf) rows vals /\
    Permutation (ct_rows r) (map (in_radians rad (String.eqb (ct_phase_unit r) "degrees")) vals) /\ by_freq (ct_rows r).
Proof.
  intros pf rad srt file r S H. unfold read_txt in H.
  apply bind_ok in H. destruct H as ([serial sensor] & _ & H). apply bind_ok in H. destruct H as (gain & _ & H).
  apply bind_ok in H. destruct H as (chop & _ & H). apply bind_ok in H. destruct H as ([mag phs] & _ & H).
  apply bind_ok in H. destruct H as (dl & Hdl & H). apply bind_ok in H. destruct H as (rows & Hr & H).
  destruct (data_lines_split _ _ Hdl) as (hdr & marker & rest & E & H1 & H2 & ->).
  destruct (until_blank_split rest) as (tail & Et & H3 & H4).
  apply mapM_ok in Hr. destruct rows as [|v0 vals]; [discriminate|].
  exists hdr, marker, (until_blank rest), tail, (v0 :: vals). rewrite <- Et. split; [exact E|]. split; [exact H1|]. split; [exact H2|].
  split; [intros K; rewrite K in Hr; inversion Hr|]. split; [exact H3|]. split; [exact H4|].
  split. { clear - Hr. induction Hr; constructor; [apply parse_row_values; assumption|assumption]. }
  assert (R : r = mkCalTxt serial sensor gain chop mag phs (srt (map (in_radians rad (String.eqb phs "degrees")) (v0 :: vals)))).
  { remember (v0 :: vals) as l. assert (HH : Ok (mkCalTxt serial sensor gain chop mag phs (srt (if String.eqb phs "degrees"
         then map (fun r : Q * Q * Q => let '(f, m, p) := r in (f, m, rad p)) l else l))) = Ok r) by (subst l; exact H).
    clear - HH. assert (K : (if String.eqb phs "degrees" then map (fun r : Q * Q * Q => let '(f, m, p) := r in (f, m, rad p)) l else l)
       = map (in_radians rad (String.eqb phs "degrees")) l).
    { destruct (String.eqb phs "degrees").
      - apply map_ext. intros [[f m] p]. reflexivity.
      - transitivity (map (fun x : Q * Q * Q => x) l); [rewrite map_id; reflexivity|]. apply map_ext. intros [[f m] p]. reflexivity. }
    rewrite K in HH. congruence. }
  subst r. cbn [ct_rows ct_phase_unit]. apply S.
Qed.

Lemma c45_header : forall pf rad srt file r, read_txt pf rad srt file = Ok r ->
  let lines := map strip file in
  last_value (mentions "magnitude unit") (fun l => l) lines "mV/nT" (ct_mag_unit r) /\
  last_value (mentions "phase unit") (fun l => l) lines "radians" (ct_phase_unit r) /\
  (((forall l, In l lines -> ~ mentions "static gain" l) /\ ct_gain r = 1%Q) \/
   exists l v, first_with (mentions "static gain") lines l /\ assigns l v /\ pf v = Some (ct_gain r)) /\
  (((forall l, In l lines -> ~ mentions "chopper" l) /\ ct_chopper r = false) \/
   exists l v, first_with (mentions "chopper") lines l /\ assigns l v /\ (ct_chopper r = true <-> v = "True"%string)) /\
  last_value (mentions "serial") lower lines "1" (ct_serial r) /\
  last_value (mentions "sensor") lower lines "" (ct_sensor r).
Proof.
  intros pf rad srt file r H lines. unfold read_txt in H. fold lines in H.
  apply bind_ok in H. destruct H as ([serial sensor] & Hs & H). apply bind_ok in H. destruct H as (gain & Hg & H).
  apply bind_ok in H. destruct H as (chop & Hc & H). apply bind_ok in H. destruct H as ([mag phs] & Hu & H).
  apply bind_ok in H. destruct H as (dl & Hdl & H). apply bind_ok in H. destruct H as (rows & Hr & H).
  destruct rows; [discriminate|].
  assert (R : exists z, r = mkCalTxt serial sensor gain chop mag phs z) by (injection H as <-; eauto). destruct R as [z ->].
  cbn [ct_mag_unit ct_phase_unit ct_gain ct_chopper ct_serial ct_sensor].
  destruct (sensor_details_spec _ _ _ _ _ Hs). destruct (units_spec _ _ _ _ _ Hu).
  split; [assumption|]. split; [assumption|]. split; [apply static_gain_spec; exact Hg|]. split; [apply chopper_spec; exact Hc|]. auto.
Qed.

(** a sort by frequency meeting the contract of DataFrame.sort_values *)
Fixpoint insert_row (x : Q * Q * Q) (l : list (Q * Q * Q)) : list (Q * Q * Q) :=
  match l with [] => [x] | y :: t => if Qle_bool (fst (fst x)) (fst (fst y)) then x :: l else y :: insert_row x t end.
Definition sort_rows (l : list (Q * Q * Q)) : list (Q * Q * Q) := fold_right insert_row [] l.
Lemma insert_row_perm x l : Permutation (insert_row x l) (x :: l).
Proof.
  induction l as [|y l IH]; cbn [insert_row]; [reflexivity|]. destruct (Qle_bool _ _); [reflexivity|].
  rewrite IH. apply perm_swap.
Qed.
Lemma insert_row_sorted x l : by_freq l -> by_freq (insert_row x l).
Proof.
  intros H. induction H as [|y l H IH F]; cbn [insert_row]; [constructor; constructor|].
  destruct (Qle_bool (fst (fst x)) (fst (fst y))) eqn:E.
  - apply Qle_bool_iff in E. constructor; [constructor; assumption|]. constructor; [exact E|].
    rewrite Forall_forall in F |- *. intros z Hz. specialize (F z Hz). cbn in F. lra.
  - assert (Hlt : ~ fst (fst x) <= fst (fst y)) by (intros K; apply Qle_bool_iff in K; congruence).
    constructor; [exact IH|]. rewrite Forall_forall in F |- *. intros z Hz. apply (Permutation_in _ (insert_row_perm x l)) in Hz.
    destruct Hz as [<-|Hz]; [lra|exact (F z Hz)].
Qed.
Lemma sort_rows_ok l : Permutation (sort_rows l) l /\ by_freq (sort_rows l).
Proof.
  unfold sort_rows. induction l as [|x l [P S]]; cbn [fold_right]; [split; constructor|].
  split; [rewrite insert_row_perm, P; reflexivity|apply insert_row_sorted, S].
Qed.
