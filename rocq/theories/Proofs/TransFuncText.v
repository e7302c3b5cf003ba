(** Proofs about the text of a transfer function. *)
From Coq Require Import String Ascii.
From Verif Require Import Base.Prelude Base.ListUtil Base.Cplx
  Model.Time Model.Calibrate Model.Gather Model.Regression Model.TransFunc
  Spec.Regression Spec.TransFunc Proofs.TimeMeta Proofs.Spectra Proofs.Calibrate Proofs.DecParams.
Open Scope list_scope. Open Scope Z_scope.

Lemma sapp_assoc a b c : ((a ++ b) ++ c = a ++ (b ++ c))%string.
Proof. induction a as [|x a IH]; [reflexivity|]. cbn. f_equal. exact IH. Qed.
Lemma sapp_nil a : (a ++ "" = a)%string.
Proof. induction a as [|x a IH]; [reflexivity|]. cbn. f_equal. exact IH. Qed.
Lemma sapp_length a b : String.length (a ++ b) = (String.length a + String.length b)%nat.
Proof. induction a as [|x a IH]; [reflexivity|]. cbn. f_equal. exact IH. Qed.
Lemma substring_full s r : substring 0 (String.length s) (s ++ r) = s.
Proof. induction s as [|x s IH]; [cbn; destruct r; reflexivity|]. cbn. f_equal. exact IH. Qed.
Lemma text_split p s r : text_at (p ++ (s ++ r)) (String.length p) s.
Proof. unfold text_at. induction p as [|x p IH]; [exact (substring_full s r)|]. cbn [append String.length substring]. exact IH. Qed.
Lemma text_split' line p s r n : line = (p ++ (s ++ r))%string -> String.length p = n -> text_at line n s.
Proof. intros -> <-. apply text_split. Qed.
Lemma spaces_length n : String.length (spaces n) = n.
Proof. induction n as [|n IH]; [reflexivity|]. cbn. f_equal. exact IH. Qed.
Lemma ljust_length w s : (String.length s <= w)%nat -> String.length (ljust w s) = w.
Proof. intros H. unfold ljust. rewrite sapp_length, spaces_length. lia. Qed.
Lemma concat_cons x l : String.concat "" (x :: l) = (x ++ String.concat "" l)%string.
Proof. destruct l as [|y l]; [cbn [String.concat]; symmetry; apply sapp_nil|]. reflexivity. Qed.
Lemma concat_nth w l j x : (forall y, In y l -> String.length y = w) -> nth_error l j = Some x ->
  exists p r, String.concat "" l = (p ++ (x ++ r))%string /\ String.length p = (j * w)%nat.
Proof.
  revert j. induction l as [|y l IH]; intros [|j] H K; try discriminate.
  - cbn [nth_error] in K. injection K as ->. exists ""%string, (String.concat "" l). rewrite concat_cons. split; reflexivity.
  - cbn [nth_error] in K. destruct (IH j (fun z Q => H z (or_intror Q)) K) as (p & r & E & L). exists (y ++ p)%string, r. rewrite concat_cons, E, sapp_assoc, sapp_length, L, (H y (or_introl eq_refl)).
    split; [reflexivity|lia].
Qed.
Lemma concat_length w l : (forall y, In y l -> String.length y = w) -> String.length (String.concat "" l) = (length l * w)%nat.
Proof. induction l as [|y l IH]; intros H; [reflexivity|]. rewrite concat_cons, sapp_length, IH, (H y (or_introl eq_refl)); [reflexivity|]. intros z Q. apply H. right. exact Q. Qed.

Lemma max_length_ge l c : In c l -> (String.length c <= max_length l)%nat.
Proof. induction l as [|x l IH]; intros []; cbn [max_length fold_right]; [subst; lia|]. specialize (IH H). unfold max_length in IH. lia. Qed.
Lemma max_length_in l : l <> [] -> exists c, In c l /\ String.length c = max_length l.
Proof.
  induction l as [|x l IH]; intros N; [congruence|]. destruct l as [|y l]; [exists x; split; [left; reflexivity|cbn; lia]|].
  destruct IH as (c & K & E); [discriminate|]. change (max_length (x :: y :: l)) with (Nat.max (String.length x) (max_length (y :: l))).
  destruct (Nat.le_gt_cases (String.length x) (max_length (y :: l))).
  - exists c. split; [right; exact K|]. rewrite E. lia.
  - exists x. split; [left; reflexivity|]. lia.
Qed.
Lemma longest_is t m : longest t m -> m = max_length (t_in t ++ t_out t).
Proof.
  intros [A (c & K & E)]. apply Nat.le_antisymm; [rewrite <- E; apply max_length_ge; exact K|].
  destruct (max_length_in (t_in t ++ t_out t)) as (c' & K' & E'); [intros N; rewrite N in K; destruct K|]. rewrite <- E'. apply A. exact K'.
Qed.

Lemma tf_lines_spec t m : counts_agree t -> longest t m ->
  let W := (2 * m + 2)%nat in let T := (W * length (t_in t) + 3)%nat in let rows := Nat.max (length (t_in t)) (length (t_out t)) in
  exists ls, tf_lines t = Ok ls /\ length ls = rows /\
  forall il line, nth_error ls il = Some line ->
    text_at line (m + 5) (if Nat.eqb il ((rows - 1) / 2) then "=" else " ") /\
    (forall o, nth_error (t_out t) il = Some o -> text_at line 0 ("| " ++ ljust m o ++ " |") /\
       forall j c, nth_error (t_in t) j = Some c -> text_at line (m + 9 + W * j) (ljust (2 * m + 1) (o ++ "_" ++ c))) /\
    ((length (t_out t) <= il)%nat -> blank line 0 (m + 4) /\ blank line (m + 7) T) /\
    (forall c, nth_error (t_in t) il = Some c -> text_at line (m + 8 + T) ("| " ++ ljust m c ++ " |") /\ String.length line = (m + 8 + T + (m + 4))%nat) /\
    ((length (t_in t) <= il)%nat -> String.length line = (m + 8 + T)%nat).
Proof.
  intros (A & B & _) LG W T rows. pose proof (longest_is t m LG) as Em. destruct LG as [LE (w & Kw & _)].
  assert (FI : forall il c, nth_error (t_in t) il = Some c -> (String.length c <= m)%nat) by (intros il c K; apply LE; apply in_or_app; left; exact (nth_error_In _ _ K)).
  assert (FO : forall il c, nth_error (t_out t) il = Some c -> (String.length c <= m)%nat) by (intros il c K; apply LE; apply in_or_app; right; exact (nth_error_In _ _ K)).
  (* the three parts *)
  set (eqs := fun il => (if Nat.eqb il ((rows - 1) / 2) then "=" else " ")%string).
  set (els := fun o => map (fun c => (ljust (2 * m + 1) (o ++ "_" ++ c) ++ " ")%string) (t_in t)).
  set (outp := fun il => match nth_error (t_out t) il with Some o => ("| " ++ ljust m o ++ " |")%string | None => spaces (m + 4) end).
  set (inp := fun il => match nth_error (t_in t) il with Some c => ("| " ++ ljust m c ++ " |")%string | None => ""%string end).
  set (tenp := fun il => match nth_error (t_out t) il with Some o => ("| " ++ String.concat "" (els o) ++ "|")%string | None => spaces T end).
  assert (EL : forall il o y, nth_error (t_out t) il = Some o -> In y (els o) -> String.length y = W).
  { intros il o y Ko Ky. unfold els in Ky. apply in_map_iff in Ky. destruct Ky as (c & <- & Kc). apply In_nth_error in Kc. destruct Kc as [j Kc]. rewrite sapp_length, ljust_length; [cbn; unfold W; lia|].
    rewrite !sapp_length. cbn [String.length]. pose proof (FO il o Ko). pose proof (FI j c Kc). lia. }
  assert (LO : forall il, String.length (outp il) = (m + 4)%nat).
  { intros il. unfold outp. destruct (nth_error (t_out t) il) as [o|] eqn:E; [|apply spaces_length]. rewrite !sapp_length, (ljust_length m o (FO il o E)). cbn. lia. }
  assert (LT : forall il, String.length (tenp il) = T).
  { intros il. unfold tenp. destruct (nth_error (t_out t) il) as [o|] eqn:E; [|apply spaces_length]. rewrite !sapp_length, (concat_length W) by (intros y; apply (EL il o y E)). unfold els. rewrite map_length. cbn [String.length]. unfold T. unfold chan in *. rewrite (Nat.mul_comm W). lia. }
  assert (OUT : forall il, out_chan_string t il m = Ok (outp il)).
  { intros il. unfold out_chan_string, outp, chan_at, nth_res. rewrite A. destruct (nth_error (t_out t) il) as [o|] eqn:E.
    - assert (il < length (t_out t))%nat by (apply nth_error_Some; congruence). destruct (Z.leb_spec (Z.of_nat (length (t_out t))) (Z.of_nat il)); [lia|]. reflexivity.
    - apply nth_error_None in E. destruct (Z.leb_spec (Z.of_nat (length (t_out t))) (Z.of_nat il)); [reflexivity|lia]. }
  assert (INS : forall il, in_chan_string t il m = Ok (inp il)).
  { intros il. unfold in_chan_string, inp, chan_at, nth_res. rewrite B. destruct (nth_error (t_in t) il) as [o|] eqn:E.
    - assert (il < length (t_in t))%nat by (apply nth_error_Some; congruence). destruct (Z.leb_spec (Z.of_nat (length (t_in t))) (Z.of_nat il)); [lia|]. reflexivity.
    - apply nth_error_None in E. destruct (Z.leb_spec (Z.of_nat (length (t_in t))) (Z.of_nat il)); [reflexivity|lia]. }
  assert (TEN : forall il, tensor_string t il m = Ok (tenp il)).
  { intros il. unfold tensor_string, tenp. rewrite A, B. destruct (nth_error (t_out t) il) as [o|] eqn:E.
    - assert (il < length (t_out t))%nat by (apply nth_error_Some; congruence). destruct (Z.leb_spec (Z.of_nat (length (t_out t))) (Z.of_nat il)); [lia|].
      rewrite (mapM_eq _ (fun c => (ljust (2 * m + 1) (o ++ "_" ++ c) ++ " ")%string)); [reflexivity|]. intros c _. unfold chan_at, nth_res. rewrite E. reflexivity.
    - apply nth_error_None in E. destruct (Z.leb_spec (Z.of_nat (length (t_out t))) (Z.of_nat il)); [|lia]. cbv zeta.
      destruct (Z.ltb_spec ((Z.of_nat m * 2 + 1 + 1) * Z.of_nat (length (t_in t)) + 3) 0); [nia|]. f_equal. f_equal. unfold T, W. lia. }
  set (line := fun il => (outp il ++ " " ++ eqs il ++ " " ++ tenp il ++ " " ++ inp il)%string).
  exists (map line (seq 0 rows)). split; [|split; [rewrite map_length, seq_length; reflexivity|]].
  { unfold tf_lines. destruct (t_in t ++ t_out t) as [|n0 names] eqn:EN; [destruct Kw|].
    rewrite <- Em. fold rows. apply mapM_eq. intros il _. unfold tf_line. rewrite OUT, INS, TEN. reflexivity. }
  intros il l K. rewrite nth_error_map in K. destruct (nth_error (seq 0 rows) il) as [il'|] eqn:E; [|discriminate]. cbn [option_map] in K. injection K as <-.
  assert (il' = il) as ->. { assert (Hl : (il < rows)%nat) by (assert (X : (il < length (seq 0 rows))%nat) by (apply nth_error_Some; congruence); rewrite seq_length in X; exact X). rewrite (nth_error_nth' _ 0%nat) in E by (rewrite seq_length; exact Hl). rewrite seq_nth in E by exact Hl. injection E as <-. reflexivity. }
  clear E. assert (LE1 : String.length (eqs il) = 1%nat) by (unfold eqs; destruct (Nat.eqb il ((rows - 1) / 2)); reflexivity).
  assert (LL : String.length (line il) = (m + 8 + T + String.length (inp il))%nat) by (unfold line; rewrite !sapp_length, LO, LT, LE1; cbn; lia).
  split; [|split; [|split; [|split]]].
  - apply (text_split' (line il) (outp il ++ " ") (eqs il) (" " ++ tenp il ++ " " ++ inp il)); [unfold line; rewrite !sapp_assoc; reflexivity|]. rewrite sapp_length, LO. cbn. lia.
  - intros o Ko. split.
    + apply (text_split' (line il) "" ("| " ++ ljust m o ++ " |") (" " ++ eqs il ++ " " ++ tenp il ++ " " ++ inp il)); [|reflexivity]. unfold line, outp. rewrite Ko. reflexivity.
    + intros j c Kc. assert (Kj : nth_error (els o) j = Some (ljust (2 * m + 1) (o ++ "_" ++ c) ++ " ")%string) by (unfold els; exact (map_nth_error _ _ _ Kc)).
      destruct (concat_nth W (els o) j _ (fun y => EL il o y Ko) Kj) as (p & r & Ec & Lp).
      apply (text_split' (line il) (outp il ++ " " ++ eqs il ++ " " ++ "| " ++ p) (ljust (2 * m + 1) (o ++ "_" ++ c)) (" " ++ r ++ "|" ++ " " ++ inp il)).
      * unfold line. unfold tenp. rewrite Ko, Ec. rewrite !sapp_assoc. reflexivity.
      * rewrite !sapp_length, LO, LE1, Lp. cbn [String.length]. unfold W. lia.
  - intros Hil. apply nth_error_None in Hil. split.
    + apply (text_split' (line il) "" (spaces (m + 4)) (" " ++ eqs il ++ " " ++ tenp il ++ " " ++ inp il)); [|reflexivity]. unfold line, outp. rewrite Hil. reflexivity.
    + apply (text_split' (line il) (outp il ++ " " ++ eqs il ++ " ") (spaces T) (" " ++ inp il)); [unfold line, tenp; rewrite Hil; rewrite !sapp_assoc; reflexivity|]. rewrite !sapp_length, LO, LE1. cbn. lia.
  - intros c Kc. split.
    + apply (text_split' (line il) (outp il ++ " " ++ eqs il ++ " " ++ tenp il ++ " ") ("| " ++ ljust m c ++ " |") ""); [unfold line, inp; rewrite Kc, sapp_nil; rewrite !sapp_assoc; reflexivity|]. rewrite !sapp_length, LO, LE1, LT. cbn. lia.
    + rewrite LL. unfold inp. rewrite Kc, !sapp_length, (ljust_length m c (FI il c Kc)). cbn. lia.
  - intros Hil. apply nth_error_None in Hil. rewrite LL. unfold inp. rewrite Hil. cbn. lia.
Qed.

(** a count of outputs above their number *)
Lemma mapM_first_err {A B} (f : A -> res B) l1 x l2 e : (forall y, In y l1 -> exists v, f y = Ok v) -> f x = Err e -> mapM f (l1 ++ x :: l2) = Err e.
Proof.
  induction l1 as [|y l1 IH]; intros H E; cbn [app mapM].
  - rewrite E. reflexivity.
  - destruct (H y (or_introl eq_refl)) as [v ->]. cbn [bind]. rewrite IH; [reflexivity| |exact E]. intros z K. apply H. right. exact K.
Qed.
Lemma stale_text t : (length (t_out t) < length (t_in t))%nat -> Z.of_nat (length (t_out t)) < t_n_out t ->
  t_n_in t = Z.of_nat (length (t_in t)) -> tf_to_string t = Err IndexError.
Proof.
  intros L N I. set (no := length (t_out t)) in *.
  assert (E : tf_lines t = Err IndexError); [|unfold tf_to_string; rewrite E; reflexivity].
  unfold tf_lines. destruct (t_in t ++ t_out t) as [|n0 names] eqn:EN; [apply app_eq_nil in EN; destruct EN as [EN _]; rewrite EN in L; cbn in L; lia|].
  fold no. set (rows := Nat.max (length (t_in t)) no). set (ml := max_length (n0 :: names)).
  assert (S : seq 0 rows = seq 0 no ++ no :: seq (S no) (rows - S no)).
  { replace rows with (no + S (rows - S no))%nat at 1 by (unfold rows, chan in *; lia). rewrite seq_app. reflexivity. }
  rewrite S. apply mapM_first_err.
  - intros il K. apply in_seq in K. destruct (nth_error (t_out t) il) as [o|] eqn:Eo; [|apply nth_error_None in Eo; unfold no, chan in *; lia].
    destruct (nth_error (t_in t) il) as [c|] eqn:Ec; [|apply nth_error_None in Ec; unfold no, chan in *; lia].
    unfold tf_line, out_chan_string, in_chan_string, tensor_string, chan_at, nth_res. rewrite Eo, Ec, I.
    destruct (Z.leb_spec (t_n_out t) (Z.of_nat il)); [lia|]. destruct (Z.leb_spec (Z.of_nat (length (t_in t))) (Z.of_nat il)); [unfold no, chan in *; lia|]. cbn [bind].
    rewrite (mapM_eq _ (fun c => (ljust (2 * ml + 1) (o ++ "_" ++ c) ++ " ")%string)); [|intros c' _; reflexivity]. cbn [bind]. eexists. reflexivity.
  - unfold tf_line, out_chan_string, chan_at, nth_res. destruct (Z.leb_spec (t_n_out t) (Z.of_nat no)); [lia|].
    assert (Eo : nth_error (t_out t) no = None) by (apply nth_error_None; unfold no; lia). rewrite Eo. reflexivity.
Qed.
