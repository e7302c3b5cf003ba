(** Property C88: what a transfer function says about its channels. *)
From Coq Require Import String Ascii.
From Verif Require Import Base.Prelude Base.ListUtil Base.NdArray Base.Cplx
  Model.Sampling Model.Time Model.Decimate Model.Window Model.Spectra Model.Calibrate Model.Gather Model.Regression Model.TransFunc
  Spec.Calibrate Spec.Gather Spec.Regression Spec.TransFunc
  Proofs.Regression Proofs.SolversMore Proofs.SolversEx Proofs.TransFunc Proofs.TransFuncText.
Open Scope list_scope. Open Scope Z_scope.

(** Left out, the counts are those of the lists; channels given are kept, channels left out are those of the class;
    cross channels left out are the input channels; the name is that of the class. *)
Theorem C88_counts : forall k a t, make_tf k a = Ok t ->
  (no_counts a -> counts_agree t) /\
  (forall o, a_out a = Some o -> t_out t = o) /\ (a_out a = None -> k_out k = Some (t_out t)) /\
  (forall i, a_in a = Some i -> t_in t = i) /\ (a_in a = None -> k_in k = Some (t_in t)) /\
  (forall x, a_cross a = Some x -> t_cross t = x) /\ (a_cross a = None -> t_cross t = t_in t) /\
  (String.length (t_variation t) <= 16)%nat.
Proof.
  intros k a t H. destruct (make_tf_fields k a t H) as (A & B & C & D). split; [exact (make_tf_counts k a t H)|].
  split; [intros o E; rewrite E in A; injection A as <-; reflexivity|]. split; [intros E; rewrite E in A; exact A|].
  split; [intros o E; rewrite E in B; injection B as <-; reflexivity|]. split; [intros E; rewrite E in B; exact B|].
  split; [intros x E; rewrite E in C; exact C|]. split; [intros E; rewrite E in C; exact C|exact D].
Qed.
Print Assumptions C88_counts.
(** impedance tensor and tipper are built from any variation of at most 16 characters *)
Theorem C88_accepts : forall k a o i, a_out a = Some o \/ a_out a = None /\ k_out k = Some o -> a_in a = Some i \/ a_in a = None /\ k_in k = Some i ->
  (forall v, a_variation a = Some v -> (String.length v <= 16)%nat) -> (a_variation a = None -> (String.length (k_variation k) <= 16)%nat) ->
  exists t, make_tf k a = Ok t /\ t_out t = o /\ t_in t = i /\
    (forall v, a_variation a = Some v -> t_variation t = v) /\ (forall n, a_name a = Some n -> t_name t = n) /\ (a_name a = None -> t_name t = k_name k).
Proof.
  intros k a o i A B V W.
  assert (A' : or_default (a_out a) (k_out k) = Some o) by (destruct A as [->|[-> ->]]; reflexivity).
  assert (B' : or_default (a_in a) (k_in k) = Some i) by (destruct B as [->|[-> ->]]; reflexivity).
  rewrite (make_tf_ok k a o i A' B'). cbv zeta.
  assert (L : (String.length match a_variation a with Some v => v | None => k_variation k end <= 16)%nat) by (destruct (a_variation a); [apply V; reflexivity|apply W; reflexivity]).
  destruct (Z.ltb_spec 16 (Z.of_nat (String.length match a_variation a with Some v => v | None => k_variation k end))); [lia|].
  eexists. split; [reflexivity|]. cbn [t_out t_in t_variation t_name]. split; [reflexivity|]. split; [reflexivity|].
  split; [intros v ->; reflexivity|]. split; [intros n ->; reflexivity|intros ->; reflexivity].
Qed.
Print Assumptions C88_accepts.
(** written to a dictionary and read back, whatever the class: the same transfer function *)
Theorem C88_round_trip : forall k k' a t, make_tf k a = Ok t -> make_tf k' (args_of_tf t) = Ok t.
Proof. exact make_tf_again. Qed.
Print Assumptions C88_round_trip.

(** With these counts, the regression is the one of the channel lists *)
Theorem C88_regression : forall cmul junk1 junk2 fit k a t g, make_tf k a = Ok t -> no_counts a -> good_gathered (channels t) g ->
  regression_n fit cmul junk1 junk2 t g = (r <- prepare_gathered cmul junk1 junk2 (channels t) g ;; solve fit r) /\
  forall s e, so_tf s = channels t -> sol_tensor_n t s e = sol_tensor s e.
Proof.
  intros cmul junk1 junk2 fit k a t g H N G. pose proof (make_tf_counts k a t H N) as C. split; [exact (regression_n_eq cmul junk1 junk2 fit t g C G)|].
  intros s e E. exact (sol_tensor_n_eq t s e C E).
Qed.
Print Assumptions C88_regression.
(** so that it finds the tensor the data were made with *)
Theorem C88_recovers : forall junk1 junk2 fit k a t g Zt, make_tf k a = Ok t -> no_counts a -> junk_shape junk1 junk2 -> least_squares fit ->
  good_gathered (channels t) g -> NoDup (t_out t) -> NoDup (t_in t) -> t_in t <> [] -> keys_distinct (channels t) ->
  (forall k, (k < length (cb_eval_freqs (g_out g)))%nat -> length (Zt k) = length (t_out t) /\ wide (length (t_in t)) (Zt k)) ->
  (forall k outs ins crosses, (k < length (cb_eval_freqs (g_out g)))%nat -> freq_data g k outs ins crosses ->
     generated_by (Zt k) outs ins /\ determined (length (t_in t)) ins crosses) ->
  exists s, regression_n fit ctimes junk1 junk2 t g = Ok s /\ so_freqs s = cb_eval_freqs (g_out g) /\
    forall k, (k < length (cb_eval_freqs (g_out g)))%nat -> exists m, sol_tensor_n t s (Z.of_nat k) = Ok m /\ Forall2 (Forall2 ceq) m (Zt k).
Proof. intros junk1 junk2 fit k a t g Zt H N. exact (regression_n_recovers junk1 junk2 fit t g Zt (make_tf_counts k a t H N)). Qed.
Print Assumptions C88_recovers.
(** A wrong count given by the user ends in an error, unless the list has one channel *)
Theorem C88_wrong_counts_fail : forall cmul junk1 junk2 fit t g k outs ins crosses,
  (k < length (cb_eval_freqs (g_out g)))%nat -> freq_data g k outs ins crosses -> length crosses = length ins -> wide (length (t_in t)) ins -> ins <> [] -> t_cross t <> [] ->
  t_n_cross t <> Z.of_nat (length (t_cross t)) /\ length (t_cross t) <> 1%nat \/ t_n_in t <> Z.of_nat (length (t_in t)) /\ length (t_in t) <> 1%nat ->
  exists e, regression_n fit cmul junk1 junk2 t g = Err e.
Proof.
  intros cmul junk1 junk2 fit t g k outs ins crosses Hk FD L W NI NC H. unfold regression_n.
  destruct (prepare_gathered_n cmul junk1 junk2 t g) as [r|e] eqn:E; [|exists e; reflexivity]. exfalso.
  destruct (prepare_n_counts cmul junk1 junk2 t g r k outs ins crosses E Hk FD L W NI) as [A B]. specialize (B NC). tauto.
Qed.
Print Assumptions C88_wrong_counts_fail.
(** With one input channel and n_in = n, numpy copies the channel n times (broadcasting) and the shortest solution
    is one n-th of the transfer function, in every component and at every frequency, without any error. *)
Theorem C88_single_input_refuted : forall junk1 junk2 fit t g n i s Zt, junk_shape junk1 junk2 -> shortest_solution fit ->
  t_in t = [i] -> (1 <= n)%nat -> t_n_in t = Z.of_nat n -> t_n_out t = Z.of_nat (length (t_out t)) -> t_n_cross t = Z.of_nat (length (t_cross t)) ->
  NoDup (t_out t) -> keys_distinct (channels t) -> good_gathered (channels t) g ->
  (forall k, (k < length (cb_eval_freqs (g_out g)))%nat -> length (Zt k) = length (t_out t)) ->
  (forall k outs ins crosses, (k < length (cb_eval_freqs (g_out g)))%nat -> freq_data g k outs ins crosses ->
     generated_by (map (fun z => [z]) (Zt k)) outs ins /\ determined 1 ins crosses) ->
  regression_n fit ctimes junk1 junk2 t g = Ok s ->
  forall k o oc z, (k < length (cb_eval_freqs (g_out g)))%nat -> nth_error (t_out t) o = Some oc -> nth_error (Zt k) o = Some z ->
    exists comp v, get_component s (component_key oc i) = Ok comp /\ nth_error comp k = Some v /\ ceq (cscale (inject_Z (Z.of_nat n)) v) z.
Proof. exact single_input. Qed.
Print Assumptions C88_single_input_refuted.
(** channels missing altogether: a KeyError out of a validator, not pydantic's ValidationError *)
Theorem C88_missing_channels_refuted : forall k a, k_in k = None -> a_in a = None -> a_cross a = None -> make_tf k a = Err KeyError.
Proof. intros k a A B C. unfold make_tf. rewrite A, B, C. reflexivity. Qed.
Print Assumptions C88_missing_channels_refuted.

(** The text: one line per channel of the longer list; with m the length of the longest name, W = 2m + 2 the width
    of an element, T that of the tensor, line number il has
    - the output channel il in bars at column 0, or blanks;
    - the equals sign at column m + 5 in the middle line only;
    - element out_in at column m + 9 + W j for input channel j, or blanks;
    - the input channel il in bars at column m + 8 + T, or nothing. *)
Theorem C88_text : forall t m, counts_agree t -> longest t m ->
  let W := (2 * m + 2)%nat in let T := (W * length (t_in t) + 3)%nat in let rows := Nat.max (length (t_in t)) (length (t_out t)) in
  exists ls, tf_to_string t = Ok (String.concat newline ls) /\ length ls = rows /\
  forall il line, nth_error ls il = Some line ->
    text_at line (m + 5) (if Nat.eqb il ((rows - 1) / 2) then "=" else " ") /\
    (forall o, nth_error (t_out t) il = Some o -> text_at line 0 ("| " ++ ljust m o ++ " |") /\
       forall j c, nth_error (t_in t) j = Some c -> text_at line (m + 9 + W * j) (ljust (2 * m + 1) (o ++ "_" ++ c))) /\
    ((length (t_out t) <= il)%nat -> blank line 0 (m + 4) /\ blank line (m + 7) T) /\
    (forall c, nth_error (t_in t) il = Some c -> text_at line (m + 8 + T) ("| " ++ ljust m c ++ " |") /\ String.length line = (m + 8 + T + (m + 4))%nat) /\
    ((length (t_in t) <= il)%nat -> String.length line = (m + 8 + T)%nat).
Proof.
  intros t m C L W T rows. destruct (tf_lines_spec t m C L) as (ls & A & B & D). exists ls. split; [unfold tf_to_string; rewrite A; reflexivity|]. split; [exact B|exact D].
Qed.
Print Assumptions C88_text.
(** with n_out too large and no more inputs than that, the text is an IndexError *)
Theorem C88_text_stale_count_refuted : forall t, (length (t_out t) < length (t_in t))%nat -> Z.of_nat (length (t_out t)) < t_n_out t ->
  t_n_in t = Z.of_nat (length (t_in t)) -> tf_to_string t = Err IndexError.
Proof. exact stale_text. Qed.
Print Assumptions C88_text_stale_count_refuted.

(** ** Concrete cases *)
Definition noArgs : tf_args := mkArgs None None None None None None None None.
Example C88_ex_impedance : exists t, make_tf impedance_tensor noArgs = Ok t /\ counts_agree t /\ t_n_in t = 2 /\
  t = mkTF "ImpedanceTensor" "default" ["Ex"; "Ey"]%string ["Hx"; "Hy"]%string ["Hx"; "Hy"]%string 2 2 2.
Proof. eexists. split; [reflexivity|]. split; [|split; reflexivity]. split; [reflexivity|]. split; reflexivity. Qed.
Example C88_ex_generic : make_tf generic_tf noArgs = Err KeyError /\
  make_tf generic_tf (mkArgs None (Some "a variation too long"%string) (Some []) (Some []) None None None None) = Err ValidationError /\
  make_tf tipper_tf (mkArgs None (Some "remote"%string) None None (Some ["Rx"; "Ry"; "Rz"]%string) None None None) = Ok (mkTF "Tipper" "remote" ["Hz"]%string ["Hx"; "Hy"]%string ["Rx"; "Ry"; "Rz"]%string 1 2 3).
Proof. split; [|split]; vm_compute; reflexivity. Qed.
(** the second example of the documentation, transfunc.py 108-113 *)
Definition exComb3 : transfer_function := mkTF "TransferFunction" "combined" ["Ex"; "Ey"]%string ["Hx"; "Hy"; "Hz"]%string ["Hx"; "Hy"; "Hz"]%string 2 3 3.
Example C88_ex_text : counts_agree exComb3 /\ longest exComb3 2 /\ tf_to_string exComb3 = Ok (String.concat newline
  ["| Ex |   | Ex_Hx Ex_Hy Ex_Hz | | Hx |";
   "| Ey | = | Ey_Hx Ey_Hy Ey_Hz | | Hy |";
   "                               | Hz |"])%string.
Proof.
  split; [split; [reflexivity|split; reflexivity]|]. split; [|vm_compute; reflexivity].
  split; [|exists "Hx"%string; split; [left; reflexivity|reflexivity]]. intros c K. cbn in K. repeat (destruct K as [<-|K]; [cbn; lia|]). destruct K.
Qed.
Example C88_ex_stale : tf_to_string (mkTF "t" "v" ["Ex"; "Ey"]%string ["Hx"; "Hy"; "Hz"]%string []%string 3 3 0) = Err IndexError.
Proof. vm_compute. reflexivity. Qed.
(** recovery: the data of C50 *)
Definition exT2 : transfer_function := mkTF "ImpedanceTensor" "default" ["Ex"; "Ey"]%string ["Hx"; "Hy"]%string ["Hx"; "Hy"]%string 2 2 2.
Definition exIn2 : list (list cq) := [[mkC 1 1; mkC 0 2]; [mkC 2 0; mkC 1 (-1)]].
Definition exOut2 : list (list cq) := [[mkC 1 3; mkC 0 6]; [mkC 1 3; mkC 3 (-3)]].
Definition exZ2 : list (list cq) := [[mkC 1 2; mkC 0 (-1)]; [mkC 0 0; mkC 3 0]].
Definition exCombD (chans : list chan) (x : list (list cq)) : combined cq := mkComb chans [10%Q] 1 ["m"]%string [(0%Z, x)].
Definition exG2 : gathered cq := mkGathered (exCombD ["Ex"; "Ey"]%string exOut2) (exCombD ["Hx"; "Hy"]%string exIn2) (exCombD ["Hx"; "Hy"]%string exIn2).
Definition exJ1 (n : nat) : list Q := repeat 7%Q n.
Definition exJ2 (n m : nat) : list (list Q) := repeat (repeat 7%Q m) n.
Definition red (m : list (list cq)) := map (map (fun z => (Qred (re z), Qred (im z)))) m.
Example C88_ex_recovers : exists s m, regression_n elim_fit ctimes exJ1 exJ2 exT2 exG2 = Ok s /\ sol_tensor_n exT2 s 0 = Ok m /\ red m = red exZ2.
Proof. eexists _, _. repeat match goal with |- _ /\ _ => apply conj end; vm_compute; reflexivity. Qed.
(** n_in = 3 with two input channels: an error *)
Example C88_ex_wrong : exists e, regression_n elim_fit ctimes exJ1 exJ2 (mkTF "ImpedanceTensor" "default" ["Ex"; "Ey"]%string ["Hx"; "Hy"]%string ["Hx"; "Hy"]%string 2 3 2) exG2 = Err e.
Proof.
  apply (C88_wrong_counts_fail ctimes exJ1 exJ2 elim_fit (mkTF "ImpedanceTensor" "default" ["Ex"; "Ey"]%string ["Hx"; "Hy"]%string ["Hx"; "Hy"]%string 2 3 2) exG2 0 exOut2 exIn2 exIn2).
  - cbn. lia.
  - split; [reflexivity|split; reflexivity].
  - reflexivity.
  - intros row [<-|[<-|[]]]; reflexivity.
  - discriminate.
  - discriminate.
  - right. split; [discriminate|discriminate].
Qed.
(** one input channel, n_in = 2: Ex = 2 Hx, Ey = (4 + 6i) Hx, but the result is Ex = Hx, Ey = (2 + 3i) Hx *)
Definition exT1 : transfer_function := mkTF "TransferFunction" "generic" ["Ex"; "Ey"]%string ["Hx"]%string ["Hx"]%string 2 2 1.
Definition exG1 : gathered cq := mkGathered (exCombD ["Ex"; "Ey"]%string [[mkC 2 0; mkC 4 6]]) (exCombD ["Hx"]%string [[mkC 1 0]]) (exCombD ["Hx"]%string [[mkC 1 0]]).
Definition Pq : list (list Q) := [[1; 0; 1; 0]; [0; 1; 0; 1]]%Q.
Definition same_matrix (P : list (list Q)) : bool :=
  match P with [[a; b; c; d]; [e; f; g; h]] => forallb (fun x => Qeq_bool (fst x) (snd x)) (combine [a; b; c; d; e; f; g; h] (concat Pq)) | _ => false end.
(** the shortest solution for this matrix *)
Definition fit1 (P : list (list Q)) (b : list Q) : res (list Q) :=
  if same_matrix P then match b with [p; q] => Ok [p / 2; q / 2; p / 2; q / 2]%Q | _ => Err ValueError end else Err ValueError.
Example C88_ex_fit : shortest_solution fit1.
Proof.
  intros P b x n H W L. unfold fit1 in H. destruct (same_matrix P) eqn:S; [|discriminate]. unfold same_matrix in S.
  destruct P as [|[|a [|b' [|c [|d [|? ?]]]]] [|[|e [|f [|g [|h [|? ?]]]]] [|? ?]]]; try discriminate S.
  destruct b as [|p [|q [|? ?]]]; try discriminate H. injection H as <-. rewrite <- (W _ (or_introl eq_refl)). cbn [length]. split; [reflexivity|].
  cbn [Pq concat app combine forallb fst snd] in S. rewrite !Bool.andb_true_iff in S. destruct S as (A1 & A2 & A3 & A4 & A5 & A6 & A7 & A8 & _). apply Qeq_bool_iff in A1, A2, A3, A4, A5, A6, A7, A8.
  intros _. split.
  - constructor; [|constructor; [|constructor]]; cbn [dot].
    + rewrite A1, A2, A3, A4. field.
    + rewrite A5, A6, A7, A8. field.
  - intros [|y1 [|y2 [|y3 [|y4 [|? ?]]]]] Ly Hy; try discriminate Ly. inversion Hy as [|? ? ? ? E1 Hy']; subst. inversion Hy' as [|? ? ? ? E2 _]; subst. cbn [dot] in *.
    rewrite A1, A2, A3, A4 in E1. rewrite A5, A6, A7, A8 in E2.
    assert (F1 : (p == y1 + y3)%Q) by (rewrite <- E1; ring). assert (F2 : (q == y2 + y4)%Q) by (rewrite <- E2; ring). rewrite F1, F2.
    assert (SQ : forall u : Q, (0 <= u * u)%Q) by (intros u; nra). pose proof (SQ (y1 - y3)%Q). pose proof (SQ (y2 - y4)%Q).
    apply (Qle_trans _ (y1 * y1 + y2 * y2 + y3 * y3 + y4 * y4 - (1#2) * ((y1 - y3) * (y1 - y3) + (y2 - y4) * (y2 - y4)))%Q); [apply Qle_lteq; right; field|lra].
Qed.
Example C88_ex_single : exists s ex ey, regression_n fit1 ctimes exJ1 exJ2 exT1 exG1 = Ok s /\
  get_component s "ExHx"%string = Ok ex /\ get_component s "EyHx"%string = Ok ey /\ red [ex; ey] = [[(1, 0)]; [(2, 3)]]%Q.
Proof. eexists _, _, _. repeat match goal with |- _ /\ _ => apply conj end; vm_compute; reflexivity. Qed.
Example C88_ex_single_hyps : good_gathered (channels exT1) exG1 /\ generated_by (map (fun z => [z]) [mkC 2 0; mkC 4 6]) [[mkC 2 0; mkC 4 6]] [[mkC 1 0]] /\ determined 1 [[mkC 1 0]] [[mkC 1 0]].
Proof.
  split; [|split].
  - intros k Hk. cbn in Hk. assert (k = 0%nat) as -> by lia. exists [[mkC 2 0; mkC 4 6]], [[mkC 1 0]], [[mkC 1 0]]. split; [split; [reflexivity|split; reflexivity]|].
    split; [reflexivity|]. split; [reflexivity|]. split; [|split]; intros row [<-|[]]; reflexivity.
  - intros [|[|w]] orow irow H1 H2; cbn in H1, H2; try discriminate. injection H1 as <-; injection H2 as <-. constructor; [vm_compute; split; reflexivity|]. constructor; [vm_compute; split; reflexivity|constructor].
  - intros D L H. destruct D as [|[a b] [|? ?]]; try discriminate. pose proof (H 0%nat _ _ _ eq_refl eq_refl (or_introl eq_refl)) as [A1 A2]. cbn in A1, A2.
    constructor; [|constructor]. split; cbn; lra.
Qed.
