(** C100: the whole run in other units. *)
From Coq Require Import String.
From Verif Require Import Base.Prelude Base.Rounding Base.ListUtil Base.NdArray Base.Cplx Model.Sampling Model.Time Model.Decimate Model.Window Model.Spectra
  Model.Calibrate Model.Gather Model.Regression Model.Pipeline Spec.Calibrate Spec.Gather Spec.Regression Spec.Pipeline Spec.Linear Spec.Solvers Spec.Units
  Proofs.TimeMeta Proofs.DecParams Proofs.DecFinal Proofs.Spectra Proofs.Calibrate Proofs.Gather Proofs.GatherQuick Proofs.Regression Proofs.RegressionFinal Proofs.RegressionQuick
  Proofs.PipelineShape Proofs.PipelineFinal Proofs.Linear Proofs.UnitsFit Proofs.Units Proofs.UnitsTf.
Open Scope list_scope. Open Scope Z_scope.

(** what the gathered data hold *)
Lemma gathered_rows (L : library) (c : config) name sfs p ed : let tf := cf_tf c in has_channels tf (sm_chans (sd_md ed)) ->
  dec_params_of L c sfs = Ok p -> 1 <= ds_per_level (cf_dec c) -> evaluated (length (sm_chans (sd_md ed))) p ed ->
  exists g, quick_gather name p tf ed = Ok g /\ cb_eval_freqs (g_out g) = concat (map sl_freqs (sm_levels (sd_md ed))) /\ good_gathered tf g /\
    forall k, (k < length (cb_eval_freqs (g_out g)))%nat -> exists level f outs ins crosses, level = Z.of_nat k / dp_per_level p /\ f = Z.of_nat k mod dp_per_level p /\
      0 <= level < sm_n_levels (sd_md ed) /\ 0 <= f < dp_per_level p /\ freq_data g k outs ins crosses /\
      all_rows ed (tf_out tf) level f outs /\ all_rows ed (tf_in tf) level f ins /\ all_rows ed (tf_cross tf) level f crosses /\
      (evals_determine ed tf level f -> determined (length (tf_in tf)) ins crosses).
Proof.
  intros tf HC HP HPL EV. destruct HC as (C1 & C2 & C3 & I1 & I2 & I3).
  assert (HP0 : 0 <= ds_per_level (cf_dec c)) by lia.
  assert (HC : (0 < length (sm_chans (sd_md ed)))%nat). { destruct (sm_chans (sd_md ed)) as [|q qs]; [|cbn; lia]. exfalso. destruct (tf_out tf) as [|a r]; [congruence|]. exact (I1 a (or_introl eq_refl)). }
  destruct (evaluated_good _ _ _ _ _ _ _ _ HP0 HP eq_refl HC EV) as (GE & QS & LF). destruct EV as (R1 & R2 & R3).
  assert (EP : dp_per_level p = ds_per_level (cf_dec c)). { destruct (setup_run_inv _ _ _ _ _ _ HP) as (? & ? & _ & _ & _ & _ & ->). reflexivity. }
  set (P := dp_per_level p) in *. assert (HP1 : 1 <= P) by lia.
  destruct (quick_combined_ok name p ed (tf_out tf) ltac:(lia) GE QS C1 I1) as (qo & Eo & S1 & _ & Q2).
  destruct (quick_combined_ok name p ed (tf_in tf) ltac:(lia) GE QS C2 I2) as (qi & Ei & S2 & _).
  destruct (quick_combined_ok name p ed (tf_cross tf) ltac:(lia) GE QS C3 I3) as (qc & Ec & S3 & _).
  set (g := mkGathered qo qi qc). set (ls := map sl_freqs (sm_levels (sd_md ed))).
  assert (EG : quick_gather name p tf ed = Ok g) by (unfold quick_gather; rewrite Eo; cbn [bind]; rewrite Ei; cbn [bind]; rewrite Ec; reflexivity).
  assert (NLS : forall i lf, nth_error ls i = Some lf -> level_eval_freqs p (Z.of_nat i) = Ok lf).
  { intros i lf Hi. unfold ls in Hi. rewrite nth_error_map in Hi. destruct (nth_error _ i) as [m|] eqn:E; [|discriminate]. injection Hi as <-. apply LF; [rewrite Nat2Z.id; exact E|lia]. }
  assert (LL : Z.of_nat (length ls) = sm_n_levels (sd_md ed)) by (unfold ls; rewrite map_length; unfold levels_ok in R1; lia).
  assert (LE : forall l, In l ls -> length l = Z.to_nat P).
  { intros l Hl. apply In_nth_error in Hl. destruct Hl as [i Hi]. pose proof (level_freqs_len _ _ _ _ _ _ _ _ HP0 HP (NLS _ _ Hi)) as K. unfold P. lia. }
  assert (F1 : cb_eval_freqs (g_out g) = concat ls) by exact Q2.
  assert (KEY : forall k, (k < length (concat ls))%nat -> let level := Z.of_nat k / P in let f := Z.of_nat k mod P in
     0 <= level < sm_n_levels (sd_md ed) /\ 0 <= f < P /\ Z.of_nat k = P * level + f).
  { intros k Hk level f. rewrite (concat_len (Z.to_nat P) ls LE) in Hk.
    assert (Z.of_nat k < sm_n_levels (sd_md ed) * P) by nia. pose proof (Z.div_mod (Z.of_nat k) P ltac:(lia)) as E. pose proof (Z.mod_pos_bound (Z.of_nat k) P ltac:(lia)) as B.
    fold level f in E, B. split; [|split; [exact B|exact E]]. split; [apply Z.div_pos; lia|]. apply Z.div_lt_upper_bound; lia. }
  assert (DATA : forall k, (k < length (concat ls))%nat -> exists outs ins crosses, freq_data g k outs ins crosses /\
     all_rows ed (tf_out tf) (Z.of_nat k / P) (Z.of_nat k mod P) outs /\ all_rows ed (tf_in tf) (Z.of_nat k / P) (Z.of_nat k mod P) ins /\
     all_rows ed (tf_cross tf) (Z.of_nat k / P) (Z.of_nat k mod P) crosses).
  { intros k Hk. destruct (KEY k Hk) as (K1 & K2 & K3).
    destruct (S1 _ _ K1 K2) as (o & Do & Ro). destruct (S2 _ _ K1 K2) as (i & Di & Ri). destruct (S3 _ _ K1 K2) as (x & Dx & Rx).
    fold P in Do, Di, Dx. rewrite <- K3 in Do, Di, Dx. exists o, i, x. split; [split; [exact Do|split; [exact Di|exact Dx]]|]. auto. }
  assert (LEN : forall cs cs' l f r r', all_rows ed cs l f r -> all_rows ed cs' l f r' -> length r = length r').
  { intros cs cs' l f r r' (m & Em & Lm & _) (m' & Em' & Lm' & _). assert (m' = m) as -> by congruence. lia. }
  exists g. split; [exact EG|]. split; [exact F1|]. split.
  - intros k Hk. rewrite F1 in Hk. destruct (DATA k Hk) as (outs & ins & crosses & FD & A1 & A2 & A3). exists outs, ins, crosses. split; [exact FD|].
    split; [exact (LEN _ _ _ _ _ _ A2 A1)|]. split; [exact (LEN _ _ _ _ _ _ A3 A1)|].
    split; [exact (rows_wide' _ _ _ _ _ A1)|]. split; [exact (rows_wide' _ _ _ _ _ A2)|exact (rows_wide' _ _ _ _ _ A3)].
  - intros k Hk. rewrite F1 in Hk. destruct (DATA k Hk) as (outs & ins & crosses & FD & A1 & A2 & A3). destruct (KEY k Hk) as (K1 & K2 & K3).
    exists (Z.of_nat k / P), (Z.of_nat k mod P), outs, ins, crosses. do 2 (split; [reflexivity|]). split; [exact K1|]. split; [exact K2|]. split; [exact FD|]. split; [exact A1|]. split; [exact A2|]. split; [exact A3|].
    intros HDet D LD H. apply (HDet D LD). intros w irow crow cc Hw Q1 Q3 Hcc.
    assert (IN : forall cs rows row, all_rows ed cs (Z.of_nat k / P) (Z.of_nat k mod P) rows -> window_row ed cs (Z.of_nat k / P) w (Z.of_nat k mod P) row -> cs <> [] -> nth_error rows (Z.to_nat w) = Some row).
    { intros cs rows row (n & N1 & N2 & N3) WR NC. assert (HB : w < sl_n_wins n).
      { destruct (R3 _ K1) as (n' & y & B1 & B2 & B3 & _). assert (n' = n) as -> by congruence. destruct WR as (x & Ex & Hx). assert (x = y) as -> by (apply nd3_inj; congruence).
        destruct cs as [|c1 cs]; [congruence|]. inversion Hx as [|? z ? row' (i & _ & _ & J) _]; subst. unfold coef in J. destruct (nth_error y (Z.to_nat w)) eqn:E; [|discriminate].
        assert (Z.to_nat w < length y)%nat by (apply nth_error_Some; congruence). lia. }
      destruct (nth_error rows (Z.to_nat w)) as [row'|] eqn:E; [|apply nth_error_None in E; lia]. f_equal.
      specialize (N3 _ _ E). rewrite Z2Nat.id in N3 by exact Hw. exact (window_row_fun _ _ _ _ _ _ _ N3 WR). }
    exact (H (Z.to_nat w) irow crow cc (IN _ _ _ A2 Q1 C2) (IN _ _ _ A3 Q3 C3) Hcc).
Qed.

(** determined equations have at most one solution *)
Open Scope Q_scope.
Lemma determined_injective n ins crosses : length ins = length crosses -> wide n ins -> determined n ins crosses ->
  injective (2 * n) (unpair (map vec_pair (concat (map (fun x => pw ctimes (fst x) (snd x)) (combine ins crosses))))).
Proof.
  intros L W D d Ld H. destruct (interleaved_all n d Ld) as (Z & -> & LZ). assert (F : Forall (fun z => ceq z c0) Z).
  { apply D; [exact LZ|]. intros w irow crow c Hi Hc In. set (v := map (fun x => ctimes x (conj_ c)) irow).
    assert (Lv : length v = length Z) by (unfold v; rewrite map_length, LZ; apply W; eapply nth_error_In; exact Hi).
    assert (IN : List.In v (concat (map (fun x => pw ctimes (fst x) (snd x)) (combine ins crosses)))).
    { apply in_concat. exists (pw ctimes irow crow). split; [|unfold pw; apply in_map_iff; exists c; split; [reflexivity|exact In]]. apply in_map_iff. exists (irow, crow). split; [reflexivity|]. apply (nth_error_In _ w). apply nth_combine. split; assumption. }
    destruct (dot_pair v Z Lv) as [D1 D2]. split; [rewrite <- D1|rewrite <- D2]; apply H; apply unpair_in; exists (vec_pair v); (split; [apply in_map; exact IN|auto]). }
  intros q Hq. unfold interleaved in Hq. apply in_concat in Hq. destruct Hq as (l & Hl & Hq). apply in_map_iff in Hl. destruct Hl as (z & <- & Hz). rewrite Forall_forall in F. destruct (F z Hz) as [E1 E2]. destruct Hq as [<-|[<-|[]]]; assumption.
Qed.
Lemma dup_length l : length (dup l) = (2 * length l)%nat.
Proof. unfold dup. induction l as [|q l IH]; [reflexivity|]. cbn [map concat app length]. rewrite IH. lia. Qed.
Lemma dup_in l q : In q (dup l) -> In q l.
Proof. unfold dup. intros H. apply in_concat in H. destruct H as (x & Hx & Hq). apply in_map_iff in Hx. destruct Hx as (y & <- & Hy). destruct Hq as [<-|[<-|[]]]; exact Hy. Qed.

Section Run.
  Variables (L : library) (c : config) (k : chan -> Q) (kx : Q).
  Hypothesis HL : linear_library L.
  Hypothesis HF : forall b k l, linear_routine (o_filter (l_orc L) b k l).
  Hypothesis ED : forall x, l_drnd L x == x.
  Hypothesis HU : Forall unit_proc (cf_time c).
  Hypothesis HM : l_cmul L = ctimes.
  Hypothesis HJ : junk_shape (l_junk1 L) (l_junk2 L).
  Let tf := cf_tf c.
  Hypotheses (ND1 : NoDup (tf_out tf)) (ND2 : NoDup (tf_in tf)) (KD : keys_distinct tf).
  Hypothesis KX : forall x, In x (tf_cross tf) -> k x == kx.
  Hypothesis K0 : ~ kx == 0.
  Hypothesis KI : forall x, In x (tf_in tf) -> ~ k x == 0.
  Hypothesis KO : forall x, In x (tf_out tf) -> ~ k x == 0.
  Lemma run_units name a b p ea sa sb : in_units k a b -> processable L c a -> processable L c b -> to_evals L c (first_time (meta a)) a = Ok (p, ea) ->
    quick_tf L c None name a = Ok sa -> quick_tf L c None name b = Ok sb ->
    (unit_free (l_fit L) \/ minimises (l_fit L) /\ forall level f, (0 <= level < sm_n_levels (sd_md ea))%Z -> (0 <= f < dp_per_level p)%Z -> evals_determine ea tf level f) ->
    so_freqs sb = so_freqs sa /\ forall i, (i < length (so_freqs sa))%nat -> exists ta tb, sol_tensor sa (Z.of_nat i) = Ok ta /\ sol_tensor sb (Z.of_nat i) = Ok tb /\ tensor_in_units k tf ta tb.
  Proof.
    intros U PA PB EA QA QB FIT. unfold quick_tf in QA, QB. rewrite EA in QA. cbn [bind] in QA. apply bind_ok in QB. destruct QB as ([pb eb] & EB & QB). cbn [bind] in QB.
    pose proof U as (_ & _ & FT & _). rewrite FT in EB. destruct (evals_units L c k HL HF ED HU _ _ _ _ _ _ _ U PA PB EA EB) as (-> & NDC & ST). pose proof (rows_units L c k HL HF ED HU _ _ _ _ _ _ _ U PA PB EA EB) as RU.
    destruct (to_evals_evaluated _ _ _ _ _ _ PA EA) as (a' & RA & DA & CA & _ & HCA & EVA). destruct (to_evals_evaluated _ _ _ _ _ _ PB EB) as (b' & RB & DB & CB & _ & HCB & EVB).
    assert (PL : (1 <= ds_per_level (cf_dec c))%Z) by exact (proj1 (proj2 (proj2 PA))).
    destruct (gathered_rows L c name _ p ea ltac:(rewrite CA; exact HCA) DA PL EVA) as (ga & GA & FA & GGA & DATA). destruct (gathered_rows L c name _ p eb ltac:(rewrite CB; exact HCB) DB PL EVB) as (gb & GB & FB & GGB & DATB).
    rewrite GA in QA. rewrite GB in QB. cbn [bind] in QA, QB. unfold run_regression in QA, QB. rewrite HM in QA, QB. apply bind_ok in QA. destruct QA as (ra & PRA & SA). apply bind_ok in QB. destruct QB as (rb & PRB & SB).
    assert (EF : cb_eval_freqs (g_out gb) = cb_eval_freqs (g_out ga)).
    { rewrite FA, FB. destruct ST as (_ & LV & _). rewrite LV. reflexivity. }
    refine (regress_units _ _ _ k kx tf HJ KX K0 KI ND1 ND2 KD ga gb ra rb sa sb GGA GGB EF PRA PRB SA SB _).
    intros i outs ins crosses outs' ins' crosses' Hi FDA FDB. destruct (DATA i Hi) as (lv & f & outs2 & ins2 & crosses2 & El & Ef & Bl & Bf & FD2 & A1 & A2 & A3 & DET).
    destruct (DATB i ltac:(rewrite EF; exact Hi)) as (lv' & f' & outs2' & ins2' & crosses2' & El' & Ef' & Bl' & Bf' & FD2' & B1 & B2 & B3 & _). assert (lv' = lv) as -> by congruence. assert (f' = f) as -> by congruence.
    assert (outs2 = outs /\ ins2 = ins /\ crosses2 = crosses) as (-> & -> & ->) by (destruct FDA as (X1 & X2 & X3), FD2 as (Y1 & Y2 & Y3); split; [congruence|split; congruence]).
    assert (outs2' = outs' /\ ins2' = ins' /\ crosses2' = crosses') as (-> & -> & ->) by (destruct FDB as (X1 & X2 & X3), FD2' as (Y1 & Y2 & Y3); split; [congruence|split; congruence]).
    clear FD2 FD2' El' Ef' Bl' Bf'. 
    assert (LEVELS : sm_levels (sd_md eb) = sm_levels (sd_md ea)) by (destruct ST as (_ & LV & _); exact LV).
    assert (UR : forall cs rows rows', all_rows ea cs lv f rows -> all_rows eb cs lv f rows' -> urows k cs rows rows').
    { intros cs rows rows' A B. pose proof (rows_wide' _ _ _ _ _ A) as W. destruct A as (m & M1 & M2 & M3), B as (m' & M1' & M2' & M3'). assert (m' = m) as -> by congruence. split; [lia|]. split; [exact W|].
      intros w r r' Hr Hr'. exact (RU cs lv (Z.of_nat w) f r r' (M3 w r Hr) (M3' w r' Hr')). }
    split; [exact (UR _ _ _ A1 B1)|]. split; [exact (UR _ _ _ A2 B2)|]. split; [exact (UR _ _ _ A3 B3)|]. intros o oc x x' Ho Pm Pm' bm bm' CC TC LB Fx Fx'.
    assert (NZ : forall q, In q (dup (qs k kx tf)) -> ~ q == 0).
    { intros q Hq. apply dup_in in Hq. unfold qs in Hq. apply in_map_iff in Hq. destruct Hq as (ic & <- & Hic). intros E. apply Qmult_integral in E. destruct E as [E|E]; [exact (KI ic Hic E)|exact (K0 E)]. }
    assert (NC : ~ k oc * kx == 0) by (intros E; apply Qmult_integral in E; destruct E as [E|E]; [exact (KO oc (nth_error_In _ _ Ho) E)|exact (K0 E)]).
    destruct FIT as [UF|[MF HD]]; [exact (UF _ _ _ _ _ _ _ _ NZ NC CC TC Fx Fx')|].
    assert (LW : length ins = length crosses) by (destruct A2 as (m & M1 & M2 & _), A3 as (m' & M1' & M2' & _); assert (m' = m) as -> by congruence; lia).
    assert (LQ : length (dup (qs k kx tf)) = (2 * length (tf_in tf))%nat) by (rewrite dup_length; unfold qs; rewrite map_length; reflexivity).
    refine (minimises_units _ _ _ _ _ _ _ _ _ MF _ NZ NC CC TC LB _ Fx Fx').
    - intros E. rewrite E in LQ. destruct HCA as (_ & C2 & _). fold tf in C2. destruct (tf_in tf); [congruence|cbn in LQ; lia].
    - rewrite LQ. exact (determined_injective _ _ _ LW (rows_wide' _ _ _ _ _ A2) (DET (HD _ _ Bl Bf))).
  Qed.
End Run.
