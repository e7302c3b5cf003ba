(** Proofs about datetime strings. *)
From Coq Require Import String Ascii NArith Nnat.
From Verif Require Import Base.Prelude Base.Dec Model.DateTime Spec.DateTime.
Open Scope string_scope.
Open Scope N_scope.

Lemma calendar_ok t : calendar t -> dt_ok t = true.
Proof.
  intros (Y & M & D & H & Mi & S & Yo & R1 & R2). unfold dt_ok.
  repeat (apply andb_true_iff; split); try (apply N.leb_le; lia); try (apply N.ltb_lt; lia).
  - apply Qle_bool_iff, R1.
  - apply Qltb_true, R2.
Qed.
Lemma ok_calendar t : dt_ok t = true -> 1000 <= dt_year t -> calendar t.
Proof.
  intros H Y. unfold dt_ok in H. repeat (apply andb_true_iff in H; destruct H as [H ?]).
  repeat match goal with X : (_ <=? _) = true |- _ => apply N.leb_le in X | X : (_ <? _) = true |- _ => apply N.ltb_lt in X end.
  unfold calendar. repeat match goal with |- _ /\ _ => split end; try lia.
  - apply Qle_bool_iff; assumption.
  - apply Qltb_true; assumption.
Qed.

Lemma munch_digits : forall d w r, all_digits d = true -> (String.length d <= w)%nat ->
  (String.length d = w \/ r = "" \/ exists c r', r = String c r' /\ is_digit c = false) -> munch w (d ++ r) = (d, r).
Proof.
  induction d as [|c d IH]; intros w r A L S; cbn [String.append].
  - destruct w as [|w]; [reflexivity|].
    destruct S as [S|[->|(c & r' & -> & N)]]; [discriminate|reflexivity|cbn [munch]; rewrite N; reflexivity].
  - cbn [all_digits] in A. apply andb_true_iff in A as [A1 A2]. destruct w as [|w]; [cbn in L; lia|].
    cbn [munch]. rewrite A1, (IH w r A2); [reflexivity| cbn in L; lia|]. destruct S as [S|S]; [left; cbn in S; lia|right; exact S].
Qed.
Lemma undec_of n d : (1 <= String.length d)%nat -> undec_acc 0 d = Some n -> undec d = Some n.
Proof. destruct d; cbn; [lia|intros _ H; exact H]. Qed.
Lemma fixed_nil k n t : fixed k n t = fixed k n "" ++ t.
Proof. rewrite fixed_app. reflexivity. Qed.
Lemma fixed_val k n : (1 <= k)%nat -> n < 10 ^ N.of_nat k -> undec (fixed k n "") = Some n.
Proof.
  intros K L. apply undec_of; [rewrite fixed_length; cbn; lia|]. rewrite fixed_undec. cbn [undec_acc].
  rewrite N.mod_small by exact L. f_equal.
Qed.
Lemma field_fixed lo k n r : (1 <= k)%nat -> (lo <= k)%nat -> n < 10 ^ N.of_nat k -> field lo k (fixed k n r) = Ok (n, r).
Proof.
  intros K L B. rewrite fixed_nil. unfold field.
  rewrite munch_digits; [|apply fixed_digits; reflexivity|rewrite fixed_length; cbn; lia|left; rewrite fixed_length; cbn; lia].
  rewrite fixed_length. cbn [String.length]. rewrite (proj2 (Nat.ltb_ge _ _)) by lia. rewrite fixed_val by assumption. reflexivity.
Qed.
Lemma field_f_fixed n r : n < 10 ^ 6 -> field_f (fixed 6 n r) = Ok (n, r).
Proof.
  intros B. rewrite fixed_nil. unfold field_f.
  rewrite munch_digits; [|apply fixed_digits; reflexivity|rewrite fixed_length; cbn; lia|left; rewrite fixed_length; reflexivity].
  rewrite fixed_val by (try lia; exact B). rewrite fixed_length. change (10 ^ N.of_nat (6 - (6 + String.length ""))) with 1. rewrite N.mul_1_r. reflexivity.
Qed.
Lemma dec4 n : 1000 <= n -> n <= 9999 -> dec n = fixed 4 n "".
Proof.
  intros L U.
  assert (E : exists f, dec n = digs (4 + f) n "").
  { unfold dec. assert (9 <= N.log2 n) by (apply N.log2_le_pow2; lia).
    exists (S (N.to_nat (N.log2 n)) - 4)%nat. f_equal. lia. }
  destruct E as [f ->].
  cbn [Nat.add digs fixed].
  assert (A1 : (n / 10 =? 0) = false). { apply N.eqb_neq. assert (1 <= n / 10) by (apply N.div_le_lower_bound; lia). lia. }
  rewrite A1.
  assert (A2 : (n / 10 / 10 =? 0) = false).
  { apply N.eqb_neq. rewrite N.div_div by lia. assert (1 <= n / (10*10)) by (apply N.div_le_lower_bound; lia). lia. }
  rewrite A2.
  assert (A3 : (n / 10 / 10 / 10 =? 0) = false).
  { apply N.eqb_neq. rewrite !N.div_div by lia. assert (1 <= n / (10*(10*10))) by (apply N.div_le_lower_bound; lia). lia. }
  rewrite A3.
  assert (A4 : (n / 10 / 10 / 10 / 10 =? 0) = true).
  { apply N.eqb_eq. rewrite !N.div_div by lia. apply N.div_small. lia. }
  rewrite A4. reflexivity.
Qed.
Lemma lit_here c r : lit c (String c r) = Ok r.
Proof. cbn [lit]. rewrite Ascii.eqb_refl. reflexivity. Qed.

Lemma groups y : y < 10 ^ 24 -> grp_f y * 10 ^ 18 + grp_o y * 10 ^ 12 + grp_q y * 10 ^ 6 + grp_v y = y.
Proof.
  intros B. unfold grp_f, grp_o, grp_q, grp_v.
  pose proof (N.div_mod y (10 ^ 6) ltac:(discriminate)) as E1.
  pose proof (N.div_mod (y / 10 ^ 6) (10 ^ 6) ltac:(discriminate)) as E2.
  pose proof (N.div_mod (y / 10 ^ 12) (10 ^ 6) ltac:(discriminate)) as E3.
  rewrite N.div_div in E2, E3 by discriminate.
  change (10 ^ 6 * 10 ^ 6) with (10 ^ 12) in E2. change (10 ^ 12 * 10 ^ 6) with (10 ^ 18) in E3.
  change (10 ^ 18) with (10 ^ 6 * 10 ^ 12) at 2. change (10 ^ 12) with (10 ^ 6 * 10 ^ 6) at 1 3.
  set (P := 10 ^ 6) in *. set (a := y / P) in *. set (b := y / 10 ^ 12) in *. set (c := y / 10 ^ 18) in *.
  set (u := y mod P) in *. set (v := a mod P) in *. set (w := b mod P) in *. clearbody P a b c u v w.
  change (10 ^ 12) with ((10^6) * (10^6)). subst. nia.
Qed.

Lemma grp_lt y : y < 10 ^ 24 -> grp_f y < 10 ^ 6 /\ grp_o y < 10 ^ 6 /\ grp_q y < 10 ^ 6 /\ grp_v y < 10 ^ 6.
Proof.
  intros B. unfold grp_f, grp_o, grp_q, grp_v. repeat apply conj; try (apply N.mod_lt; discriminate).
  apply N.div_lt_upper_bound; [discriminate|]. exact B.
Qed.
Lemma month_days_31 y m : month_days y m <= 31.
Proof. unfold month_days. destruct (m =? 2); [destruct (leap y); lia|]. destruct ((m =? 4) || (m =? 6) || (m =? 9) || (m =? 11))%bool; lia. Qed.

Lemma from_to t : calendar t -> datetime_from_string (datetime_to_string t) = Ok (cut t).
Proof.
  intros C. pose proof C as (Y & M & D & H & Mi & S & Yo & R1 & R2).
  destruct (grp_lt _ Yo) as (G1 & G2 & G3 & G4). pose proof (month_days_31 (dt_year t) (dt_month t)) as D31.
  unfold datetime_to_string, datetime_from_string.
  rewrite dec4 by lia. rewrite <- fixed_nil.
  rewrite field_fixed by (try lia; change (10 ^ N.of_nat 4) with 10000; lia). cbn [bind]. rewrite lit_here. cbn [bind].
  do 5 (rewrite field_fixed by (try lia; change (10 ^ N.of_nat 2) with 100; lia); cbn [bind]; rewrite lit_here; cbn [bind]).
  rewrite field_f_fixed by exact G1. cbn [bind]. rewrite lit_here. cbn [bind].
  do 2 (rewrite field_fixed by (try lia; assumption); cbn [bind]; rewrite lit_here; cbn [bind]).
  rewrite field_fixed by (try lia; assumption). cbn [bind].
  rewrite groups by exact Yo.
  change (mkDT (dt_year t) (dt_month t) (dt_day t) (dt_hour t) (dt_min t) (dt_sec t) (dt_yocto t) 0) with (cut t).
  rewrite calendar_ok; [reflexivity|].
  unfold calendar, cut; cbn [dt_year dt_month dt_day dt_hour dt_min dt_sec dt_yocto dt_rest].
  repeat apply conj; try lia; lra.
Qed.
Lemma cut_exact t : yocto_exact t -> cut t = t.
Proof. destruct t; unfold yocto_exact, cut; cbn. intros ->. reflexivity. Qed.
Lemma string_inj a b : calendar a -> calendar b -> datetime_to_string a = datetime_to_string b -> cut a = cut b.
Proof. intros A B E. pose proof (from_to a A) as H. rewrite E, (from_to b B) in H. congruence. Qed.

(** the format is the only one accepted, and what is accepted is a date *)
Lemma from_valid s t : datetime_from_string s = Ok t -> dt_ok t = true.
Proof.
  unfold datetime_from_string. intros H.
  repeat match type of H with
  | context [ bind ?r _ ] => destruct r as [[? ?]|] eqn:?; cbn [bind] in H; [|discriminate]
  | context [ bind ?r _ ] => destruct r as [?|] eqn:?; cbn [bind] in H; [|discriminate]
  end.
  match type of H with match ?s with _ => _ end = _ => destruct s; [|discriminate] end.
  match type of H with (if ?b then _ else _) = _ => destruct b eqn:E; [|discriminate] end.
  injection H as <-. exact E.
Qed.

(** ** exactly the strings of the format are read *)
Lemma munch_inv : forall w s d r, munch w s = (d, r) -> s = d ++ r /\ all_digits d = true /\ (String.length d <= w)%nat.
Proof.
  induction w as [|w IH]; intros s d r H.
  - cbn in H. destruct s; injection H as <- <-; repeat apply conj; reflexivity || (cbn; lia).
  - destruct s as [|c s]; cbn [munch] in H; [injection H as <- <-; repeat apply conj; reflexivity || (cbn; lia)|].
    destruct (is_digit c) eqn:Ec; [|injection H as <- <-; repeat apply conj; reflexivity || (cbn; lia)].
    destruct (munch w s) as [d' r'] eqn:M. injection H as <- <-. destruct (IH _ _ _ M) as (-> & A & L).
    cbn [String.append all_digits String.length]. rewrite Ec, A. repeat apply conj; [reflexivity|reflexivity|lia].
Qed.
Lemma undec_len d n : undec d = Some n -> (1 <= String.length d)%nat.
Proof. destruct d; cbn; [discriminate|lia]. Qed.
Lemma field_inv lo w s n r : field lo w s = Ok (n, r) -> exists d, s = d ++ r /\ numeral lo w n d.
Proof.
  unfold field. destruct (munch w s) as [d r'] eqn:M. destruct (munch_inv _ _ _ _ M) as (E & A & L).
  destruct (String.length d <? lo)%nat eqn:T; [discriminate|]. apply Nat.ltb_ge in T.
  destruct (undec d) as [m|] eqn:U; [|discriminate]. intros H. injection H as <- <-.
  exists d. split; [exact E|]. repeat apply conj; assumption.
Qed.
Lemma field_f_inv s n r : field_f s = Ok (n, r) ->
  exists d m, s = d ++ r /\ numeral 1 6 m d /\ n = m * 10 ^ N.of_nat (6 - String.length d).
Proof.
  unfold field_f. destruct (munch 6 s) as [d r'] eqn:M. destruct (munch_inv _ _ _ _ M) as (E & A & L).
  destruct (undec d) as [m|] eqn:U; [|discriminate]. intros H.
  assert (r' = r) by congruence. assert (n = m * 10 ^ N.of_nat (6 - String.length d)) by congruence. subst.
  exists d, m. repeat apply conj; try assumption; try reflexivity. exact (undec_len _ _ U).
Qed.
Lemma lit_inv c s r : lit c s = Ok r -> s = String c r.
Proof.
  destruct s as [|c' r']; cbn [lit]; [discriminate|]. destruct (Ascii.eqb_spec c c') as [->|]; [|discriminate].
  intros H. congruence.
Qed.
Lemma munch_sep w d c r : all_digits d = true -> (String.length d <= w)%nat -> is_digit c = false ->
  munch w (d ++ String c r) = (d, String c r).
Proof. intros A L N. apply munch_digits; [exact A|exact L|]. right. right. exists c, r. split; [reflexivity|exact N]. Qed.
Lemma field_sep lo w n d c r : numeral lo w n d -> is_digit c = false -> field lo w (d ++ String c r) = Ok (n, String c r).
Proof.
  intros ((L1 & L2) & A & U) N. unfold field. rewrite munch_sep by assumption.
  rewrite (proj2 (Nat.ltb_ge _ _)) by lia. rewrite U. reflexivity.
Qed.
Lemma field_end w n d : numeral w w n d -> field w w d = Ok (n, "").
Proof.
  intros ((L1 & L2) & A & U). unfold field.
  assert (M : munch w (d ++ "") = (d, "")) by (apply munch_digits; [exact A|lia|right; left; reflexivity]).
  assert (E : forall s, s ++ "" = s) by (induction s; cbn; [reflexivity|congruence]). rewrite E in M. rewrite M.
  rewrite (proj2 (Nat.ltb_ge _ _)) by lia. rewrite U. reflexivity.
Qed.
Lemma field_f_sep n d c r : numeral 1 6 n d -> is_digit c = false ->
  field_f (d ++ String c r) = Ok (n * 10 ^ N.of_nat (6 - String.length d), String c r).
Proof. intros ((L1 & L2) & A & U) N. unfold field_f. rewrite munch_sep by assumption. rewrite U. reflexivity. Qed.
Lemma undec_acc_lt : forall s v n, undec_acc v s = Some n -> n < (v + 1) * 10 ^ N.of_nat (String.length s).
Proof.
  induction s as [|c s IH]; intros v n H.
  - cbn in H. injection H as <-. change (10 ^ N.of_nat (String.length "")) with 1. lia.
  - cbn [undec_acc] in H. destruct ((48 <=? N_of_ascii c) && (N_of_ascii c <=? 57))%bool eqn:B; [|discriminate].
    apply andb_true_iff in B as [B1 B2]. apply N.leb_le in B1, B2. apply IH in H.
    change (String.length (String c s)) with (S (String.length s)). rewrite Nat2N.inj_succ, N.pow_succ_r'.
    set (P := 10 ^ N.of_nat (String.length s)) in *. clearbody P.
    enough ((10 * v + (N_of_ascii c - 48) + 1) * P <= (v + 1) * (10 * P)) by lia.
    replace ((v + 1) * (10 * P)) with ((10 * v + 10) * P) by lia. apply N.mul_le_mono_r. lia.
Qed.
Lemma numeral_lt lo hi n d : numeral lo hi n d -> n < 10 ^ N.of_nat (String.length d).
Proof.
  intros (_ & _ & U). destruct d as [|c d]; [discriminate|]. unfold undec in U. apply undec_acc_lt in U. lia.
Qed.
Lemma numeral_at k n d : numeral k k n d -> n < 10 ^ N.of_nat k.
Proof. intros H. pose proof (numeral_lt _ _ _ _ H) as L. destruct H as ((L1 & L2) & _). replace (String.length d) with k in L by lia. exact L. Qed.
Lemma yocto_lt a b c d : a < 10 ^ 6 -> b < 10 ^ 6 -> c < 10 ^ 6 -> d < 10 ^ 6 ->
  a * 10 ^ 18 + b * 10 ^ 12 + c * 10 ^ 6 + d < 10 ^ 24.
Proof.
  change (10 ^ 6) with 1000000. change (10 ^ 12) with 1000000000000. change (10 ^ 18) with 1000000000000000000.
  change (10 ^ 24) with 1000000000000000000000000. lia.
Qed.
Lemma frac_lt n d : numeral 1 6 n d -> n * 10 ^ N.of_nat (6 - String.length d) < 10 ^ 6.
Proof.
  intros H. pose proof (numeral_lt _ _ _ _ H) as L. destruct H as ((L1 & L2) & _).
  replace (10 ^ 6) with (10 ^ N.of_nat (String.length d) * 10 ^ N.of_nat (6 - String.length d)).
  - apply N.mul_lt_mono_pos_r; [|exact L]. apply N.neq_0_lt_0, N.pow_nonzero. discriminate.
  - rewrite <- N.pow_add_r. f_equal. lia.
Qed.
Lemma date_ok t : a_date t -> dt_yocto t < 10 ^ 24 -> yocto_exact t -> dt_ok t = true.
Proof.
  intros (Y & M & D & H & Mi & Se) Yo R. unfold dt_ok.
  repeat (apply andb_true_iff; split); try (apply N.leb_le; lia); try (apply N.ltb_lt; lia); rewrite R; reflexivity.
Qed.
Lemma ok_date t : dt_ok t = true -> a_date t.
Proof.
  intros H. unfold dt_ok in H. repeat (apply andb_true_iff in H; destruct H as [H ?]).
  repeat match goal with X : (_ <=? _) = true |- _ => apply N.leb_le in X | X : (_ <? _) = true |- _ => apply N.ltb_lt in X end.
  unfold a_date. repeat match goal with |- _ /\ _ => split end; lia.
Qed.
Lemma from_iff s t : datetime_from_string s = Ok t <-> (writes t s /\ a_date t /\ yocto_exact t).
Proof.
  split.
  - intros H. pose proof (from_valid _ _ H) as V. apply ok_date in V.
    unfold datetime_from_string in H.
    repeat match type of H with
    | context [ bind (field ?a ?b ?s) _ ] => let n := fresh "n" in let r := fresh "r" in let E := fresh "E" in
        destruct (field a b s) as [[n r]|] eqn:E; cbn [bind] in H; [|discriminate]; apply field_inv in E as (? & -> & ?)
    | context [ bind (field_f ?s) _ ] => let n := fresh "n" in let r := fresh "r" in let E := fresh "E" in
        destruct (field_f s) as [[n r]|] eqn:E; cbn [bind] in H; [|discriminate]; apply field_f_inv in E as (? & ? & -> & ? & ?)
    | context [ bind (lit ?c ?s) _ ] => let r := fresh "r" in let E := fresh "E" in
        destruct (lit c s) as [r|] eqn:E; cbn [bind] in H; [|discriminate]; apply lit_inv in E; subst
    end.
    match type of H with match ?s with _ => _ end = _ => destruct s; [|discriminate] end.
    match type of H with (if ?b then _ else _) = _ => destruct b; [|discriminate] end.
    assert (E : forall s, s ++ "" = s) by (clear; induction s; cbn; [reflexivity|congruence]). rewrite E.
    injection H as <-. split; [|split; [exact V|reflexivity]].
    do 14 eexists. split; [reflexivity|]. cbn [dt_year dt_month dt_day dt_hour dt_min dt_sec dt_yocto].
    repeat match goal with |- _ /\ _ => split; [eassumption|] end. reflexivity.
  - intros ((y & mo & d & h & mi & se & f & o & q & v & nf & no & nq & nv & -> & Hy & Hmo & Hd & Hh & Hmi & Hse & Hf & Ho & Hq & Hv & Yo) & D & X).
    unfold datetime_from_string. cbn [String.append].
    do 6 (erewrite field_sep by (eassumption || reflexivity); cbn [bind]; rewrite lit_here; cbn [bind]).
    erewrite field_f_sep by (eassumption || reflexivity). cbn [bind]. rewrite lit_here. cbn [bind].
    do 2 (erewrite field_sep by (eassumption || reflexivity); cbn [bind]; rewrite lit_here; cbn [bind]).
    erewrite field_end by eassumption. cbn [bind].
    pose proof (yocto_lt _ _ _ _ (frac_lt _ _ Hf) (numeral_at _ _ _ Ho) (numeral_at _ _ _ Hq) (numeral_at _ _ _ Hv)) as L.
    rewrite <- Yo in *. clear Yo Hy Hmo Hd Hh Hmi Hse Hf.
    destruct t as [ty tm td th tmi tse tyo tr]. unfold yocto_exact in X. cbn [dt_rest] in X. cbn [dt_yocto] in L. subst tr.
    cbn [dt_year dt_month dt_day dt_hour dt_min dt_sec dt_yocto]. rewrite date_ok; [reflexivity|exact D|exact L|reflexivity].
Qed.

(** ** the moment denoted *)
Lemma dtm_mono y : forall j k, (k < j)%nat -> days_to_month y k + month_days y (N.of_nat (S k)) <= days_to_month y j.
Proof.
  induction j as [|j IH]; intros k L; [lia|]. cbn [days_to_month].
  destruct (Nat.eq_dec k j) as [->|N]; [lia|]. specialize (IH k ltac:(lia)). lia.
Qed.
Lemma dtm_year y : days_to_month y 12 = if leap y then 366 else 365.
Proof. cbn [days_to_month N.of_nat Pos.of_succ_nat Pos.succ]. unfold month_days. cbn [N.eqb Pos.eqb orb]. destruct (leap y); reflexivity. Qed.
Lemma year_len y : 1 <= y -> days_to_year y + (if leap y then 366 else 365) = days_to_year (y + 1).
Proof.
  intros L. unfold days_to_year. replace (y + 1 - 1) with y by lia.
  assert (X : forall k, 0 < k -> y / k = (y - 1) / k + (if y mod k =? 0 then 1 else 0)).
  { intros k K. pose proof (N.div_mod y k ltac:(lia)) as E. pose proof (N.mod_lt y k ltac:(lia)) as B.
    destruct (N.eqb_spec (y mod k) 0) as [Z|Z].
    - rewrite Z in *. assert (1 <= y / k). { destruct (N.eq_dec (y / k) 0) as [F|F]; [rewrite F, N.mul_0_r in E; lia|lia]. }
      assert (D : (y - 1) / k = y / k - 1). { symmetry. apply N.div_unique with (k - 1); [lia|]. rewrite N.mul_sub_distr_l, N.mul_1_r. assert (k * 1 <= k * (y / k)) by (apply N.mul_le_mono_l; lia). lia. } lia.
    - assert (D : (y - 1) / k = y / k). { symmetry. apply N.div_unique with (y mod k - 1); [lia|]. revert E Z. generalize (k * (y / k)) (y mod k). clear. intros; lia. } lia. }
  pose proof (X 4 ltac:(lia)) as X4. pose proof (X 100 ltac:(lia)) as X100. pose proof (X 400 ltac:(lia)) as X400.
  unfold leap.
  assert (I1 : y mod 100 = 0 -> y mod 4 = 0).
  { intros Z. apply N.mod_divide; [lia|]. apply N.mod_divide in Z; [|lia]. destruct Z as [q ->]. exists (q * 25). lia. }
  assert (I2 : y mod 400 = 0 -> y mod 100 = 0).
  { intros Z. apply N.mod_divide; [lia|]. apply N.mod_divide in Z; [|lia]. destruct Z as [q ->]. exists (q * 4). lia. }
  assert (LE : (y - 1) / 100 <= (y - 1) / 4) by (apply N.div_le_compat_l; lia).
  destruct (N.eqb_spec (y mod 4) 0), (N.eqb_spec (y mod 100) 0), (N.eqb_spec (y mod 400) 0); cbn [andb orb negb]; try lia.
Qed.
Lemma dty_mono a b : 1 <= a -> a < b -> days_to_year a + (if leap a then 366 else 365) <= days_to_year b.
Proof.
  intros A L. rewrite year_len by exact A.
  assert (M : forall n : nat, days_to_year (a + 1) <= days_to_year (a + 1 + N.of_nat n)).
  { induction n as [|n IH]; [rewrite N.add_0_r; lia|].
    replace (a + 1 + N.of_nat (S n)) with ((a + 1 + N.of_nat n) + 1) by lia.
    pose proof (year_len (a + 1 + N.of_nat n) ltac:(lia)) as YL. destruct (leap (a + 1 + N.of_nat n)); lia. }
  specialize (M (N.to_nat (b - (a + 1)))). replace (a + 1 + N.of_nat (N.to_nat (b - (a + 1)))) with b in M by lia. exact M.
Qed.
Lemma day_in_year t : calendar t ->
  days_to_year (dt_year t) <= day_number t < days_to_year (dt_year t) + (if leap (dt_year t) then 366 else 365).
Proof.
  intros (Y & M & D & _). unfold day_number. split; [lia|].
  pose proof (dtm_mono (dt_year t) 12 (N.to_nat (dt_month t) - 1) ltac:(lia)) as H. rewrite dtm_year in H.
  replace (N.of_nat (S (N.to_nat (dt_month t) - 1))) with (dt_month t) in H by lia. lia.
Qed.
Lemma day_lt a b : calendar a -> calendar b ->
  dt_year a < dt_year b \/ (dt_year a = dt_year b /\ (dt_month a < dt_month b \/ (dt_month a = dt_month b /\ dt_day a < dt_day b))) ->
  day_number a < day_number b.
Proof.
  intros A B [L|[E [L|[E2 L]]]].
  - pose proof (day_in_year a A). pose proof (day_in_year b B). destruct A as (Y & _).
    pose proof (dty_mono (dt_year a) (dt_year b) ltac:(lia) L). lia.
  - destruct A as (_ & M & D & _), B as (_ & M' & D' & _). unfold day_number. rewrite <- E.
    pose proof (dtm_mono (dt_year a) (N.to_nat (dt_month b) - 1) (N.to_nat (dt_month a) - 1) ltac:(lia)) as H.
    replace (N.of_nat (S (N.to_nat (dt_month a) - 1))) with (dt_month a) in H by lia. lia.
  - destruct A as (_ & M & D & _), B as (_ & M' & D' & _). unfold day_number. rewrite <- E, <- E2. lia.
Qed.
Lemma before_instant a b : calendar a -> calendar b -> before a b -> instant a < instant b.
Proof.
  intros A B H. unfold before in H. unfold instant.
  pose proof A as (_ & _ & _ & Ha & Hb & Hc & Hd & _). pose proof B as (_ & _ & _ & Ka & Kb & Kc & Kd & _).
  assert (Step : forall x y u v w, x < y -> u < w -> x * w + u < y * w + v) by (intros; nia).
  assert (D : day_number a < day_number b \/ (dt_year a = dt_year b /\ dt_month a = dt_month b /\ dt_day a = dt_day b)).
  { destruct H as [H|[E1 [H|[E2 [H|[E3 H]]]]]]; [left; apply day_lt; auto ..|right; auto]. }
  destruct D as [D|(E1 & E2 & E3)].
  - apply Step; [|exact Hd]. apply Step; [|exact Hc]. apply Step; [|exact Hb]. apply Step; [exact D|exact Ha].
  - destruct H as [H|[_ [H|[_ [H|[_ H]]]]]]; try lia.
    assert (ED : day_number a = day_number b) by (unfold day_number; rewrite E1, E2, E3; reflexivity). rewrite ED.
    destruct H as [H|[-> [H|[-> [H|[-> H]]]]]].
    + apply Step; [|exact Hd]. apply Step; [|exact Hc]. apply Step; [|exact Hb]. lia.
    + apply Step; [|exact Hd]. apply Step; [|exact Hc]. lia.
    + apply Step; [|exact Hd]. lia.
    + lia.
Qed.
Lemma before_total a b : before a b \/ cut a = cut b \/ before b a.
Proof.
  destruct a as [a1 a2 a3 a4 a5 a6 a7 ra], b as [b1 b2 b3 b4 b5 b6 b7 rb]. unfold before, cut.
  cbn [dt_year dt_month dt_day dt_hour dt_min dt_sec dt_yocto].
  destruct (N.lt_total a1 b1) as [?|[->|?]]; [left; auto| |right; right; auto].
  destruct (N.lt_total a2 b2) as [?|[->|?]]; [left; auto| |right; right; auto].
  destruct (N.lt_total a3 b3) as [?|[->|?]]; [left; auto 10| |right; right; auto 10].
  destruct (N.lt_total a4 b4) as [?|[->|?]]; [left; auto 12| |right; right; auto 12].
  destruct (N.lt_total a5 b5) as [?|[->|?]]; [left; auto 16| |right; right; auto 16].
  destruct (N.lt_total a6 b6) as [?|[->|?]]; [left; auto 20| |right; right; auto 20].
  destruct (N.lt_total a7 b7) as [?|[->|?]]; [left; auto 24|right; left; reflexivity|right; right; auto 24].
Qed.
Lemma instant_inj a b : calendar a -> calendar b -> instant a = instant b -> cut a = cut b.
Proof.
  intros A B E. destruct (before_total a b) as [H|[H|H]]; [|exact H|].
  - pose proof (before_instant a b A B H). lia.
  - pose proof (before_instant b a B A H). lia.
Qed.

(** the only error of [datetime_from_string] *)
Definition value_error {A} (x : res A) : Prop := match x with Ok _ => True | Err e => e = ValueError end.
Lemma ve_bind {A B} (x : res A) (f : A -> res B) : value_error x -> (forall a, value_error (f a)) -> value_error (x <- x ;; f x).
Proof. destruct x as [a|e]; intros X F; [exact (F a)|exact X]. Qed.
Lemma ve_field lo w s : value_error (field lo w s).
Proof. unfold field. destruct (munch w s) as [d r]. destruct (_ <? _)%nat; [reflexivity|]. destruct (undec d); [exact I|reflexivity]. Qed.
Lemma ve_lit c s : value_error (lit c s).
Proof. unfold lit. destruct s as [|c' r]; [reflexivity|]. destruct (Ascii.eqb c c'); [exact I|reflexivity]. Qed.
Lemma ve_field_f s : value_error (field_f s).
Proof. unfold field_f. destruct (munch 6 s) as [d r]. destruct (undec d); [exact I|reflexivity]. Qed.
Lemma from_value_error s : value_error (datetime_from_string s).
Proof.
  unfold datetime_from_string.
  repeat (apply ve_bind; [first [apply ve_field|apply ve_lit|apply ve_field_f]|]; let a := fresh "a" in intros a; try match type of a with (_ * _)%type => destruct a as [? ?] end).
  match goal with |- value_error (match ?x with _ => _ end) => destruct x end; [|exact eq_refl]. destruct (dt_ok _); [exact I|exact eq_refl].
Qed.
