(** Property C100: the transfer function in other units of the channels. *)
From Coq Require Import String.
From Verif Require Import Base.Prelude Base.Rounding Base.ListUtil Base.NdArray Base.Cplx
  Model.Sampling Model.Time Model.Decimate Model.Window Model.Spectra Model.Calibrate Model.Gather Model.Regression Model.Pipeline
  Spec.Calibrate Spec.Gather Spec.Regression Spec.Pipeline Spec.Linear Spec.Solvers Spec.Units
  Proofs.Toy Proofs.EvalFreqs Proofs.SolversMore Proofs.Linear Proofs.Units Proofs.UnitsFit Proofs.UnitsTf Proofs.UnitsRun Proofs.UnitsEx Proofs.UnitsCalRun Props.Pipeline Props.Linear.
Open Scope list_scope. Open Scope Q_scope.

(** ** C100 *)
(** the spectra: the coefficients of every channel are multiplied by the unit of the channel, with the same decimation
    parameters, levels, windows and evaluation frequencies *)
Theorem C100_spectra : forall (L : library) (c : config) (k : chan -> Q) ref a b pa pb ea eb,
  linear_library L -> (forall b k l, linear_routine (o_filter (l_orc L) b k l)) -> (forall x, l_drnd L x == x) -> Forall unit_proc (cf_time c) ->
  in_units k a b -> processable L c a -> processable L c b -> to_evals L c ref a = Ok (pa, ea) -> to_evals L c ref b = Ok (pb, eb) ->
  pb = pa /\ sm_levels (sd_md eb) = sm_levels (sd_md ea) /\ sm_chans (sd_md eb) = sm_chans (sd_md ea) /\
  forall cs level w f ra rb, window_row ea cs level w f ra -> window_row eb cs level w f rb ->
    Forall2 (fun cx y => ceq y (cscale (k (fst cx)) (snd cx))) (combine cs ra) rb.
Proof.
  intros L c k ref a b pa pb ea eb HL HF ED HU U PA PB EA EB. destruct (evals_units L c k HL HF ED HU _ _ _ _ _ _ _ U PA PB EA EB) as (E & _ & _ & E2 & E3 & _).
  split; [exact E|]. split; [exact E2|]. split; [exact E3|]. exact (rows_units L c k HL HF ED HU _ _ _ _ _ _ _ U PA PB EA EB).
Qed.
Print Assumptions C100_spectra.
(** the transfer function by least squares: the entry from input i to output o is multiplied by the unit of o over the
    unit of i, when the cross channels share one unit and the windows determine the unknowns *)
Theorem C100_least_squares : forall (L : library) (c : config) (k : chan -> Q) (kx : Q) name a b p ea sa sb, let tf := cf_tf c in
  linear_library L -> (forall b k l, linear_routine (o_filter (l_orc L) b k l)) -> (forall x, l_drnd L x == x) -> Forall unit_proc (cf_time c) ->
  l_cmul L = ctimes -> junk_shape (l_junk1 L) (l_junk2 L) -> minimises (l_fit L) -> NoDup (tf_out tf) -> NoDup (tf_in tf) -> keys_distinct tf ->
  (forall x, In x (tf_in tf) -> ~ k x == 0) -> (forall x, In x (tf_out tf) -> ~ k x == 0) -> (forall x, In x (tf_cross tf) -> k x == kx) -> ~ kx == 0 ->
  in_units k a b -> processable L c a -> processable L c b -> to_evals L c (first_time (meta a)) a = Ok (p, ea) ->
  (forall level f, (0 <= level < sm_n_levels (sd_md ea))%Z -> (0 <= f < dp_per_level p)%Z -> evals_determine ea tf level f) ->
  quick_tf L c None name a = Ok sa -> quick_tf L c None name b = Ok sb ->
  so_freqs sb = so_freqs sa /\ forall i, (i < length (so_freqs sa))%nat ->
    exists ta tb, sol_tensor sa (Z.of_nat i) = Ok ta /\ sol_tensor sb (Z.of_nat i) = Ok tb /\ tensor_in_units k tf ta tb.
Proof. intros. eapply (run_units L c k kx); try eassumption. right. split; assumption. Qed.
Print Assumptions C100_least_squares.
(** any fit that has no preference for units *)
Theorem C100_unit_free : forall (L : library) (c : config) (k : chan -> Q) (kx : Q) name a b p ea sa sb, let tf := cf_tf c in
  linear_library L -> (forall b k l, linear_routine (o_filter (l_orc L) b k l)) -> (forall x, l_drnd L x == x) -> Forall unit_proc (cf_time c) ->
  l_cmul L = ctimes -> junk_shape (l_junk1 L) (l_junk2 L) -> unit_free (l_fit L) -> NoDup (tf_out tf) -> NoDup (tf_in tf) -> keys_distinct tf ->
  (forall x, In x (tf_in tf) -> ~ k x == 0) -> (forall x, In x (tf_out tf) -> ~ k x == 0) -> (forall x, In x (tf_cross tf) -> k x == kx) -> ~ kx == 0 ->
  in_units k a b -> processable L c a -> processable L c b -> to_evals L c (first_time (meta a)) a = Ok (p, ea) ->
  quick_tf L c None name a = Ok sa -> quick_tf L c None name b = Ok sb ->
  so_freqs sb = so_freqs sa /\ forall i, (i < length (so_freqs sa))%nat ->
    exists ta tb, sol_tensor sa (Z.of_nat i) = Ok ta /\ sol_tensor sb (Z.of_nat i) = Ok tb /\ tensor_in_units k tf ta tb.
Proof. intros. eapply (run_units L c k kx); try eassumption. left. assumption. Qed.
Print Assumptions C100_unit_free.

(** with sensor calibration: the calibration divides the coefficients of a channel by a function of the frequency, whatever
    the unit of the channel is, so that the calibrated transfer function changes in the same way *)
Theorem C100_calibrated : forall (L : library) (c : config) (k : chan -> Q) (kx : Q) readers name a b p e0 ea sa sb, let tf := cf_tf c in
  linear_library L -> (forall b k l, linear_routine (o_filter (l_orc L) b k l)) -> (forall x, l_drnd L x == x) -> divides_units (l_cdiv L) -> Forall unit_proc (cf_time c) ->
  l_cmul L = ctimes -> junk_shape (l_junk1 L) (l_junk2 L) -> NoDup (tf_out tf) -> NoDup (tf_in tf) -> keys_distinct tf ->
  (forall x, In x (tf_in tf) -> ~ k x == 0) -> (forall x, In x (tf_out tf) -> ~ k x == 0) -> (forall x, In x (tf_cross tf) -> k x == kx) -> ~ kx == 0 ->
  in_units k a b -> processable L c a -> processable L c b -> to_evals L c (first_time (meta a)) a = Ok (p, e0) -> run_calibration L c readers e0 = Ok ea ->
  unit_free (l_fit L) \/
    minimises (l_fit L) /\ (forall level f, (0 <= level < sm_n_levels (sd_md ea))%Z -> (0 <= f < dp_per_level p)%Z -> evals_determine ea tf level f) ->
  quick_tf L c (Some readers) name a = Ok sa -> quick_tf L c (Some readers) name b = Ok sb ->
  so_freqs sb = so_freqs sa /\ forall i, (i < length (so_freqs sa))%nat ->
    exists ta tb, sol_tensor sa (Z.of_nat i) = Ok ta /\ sol_tensor sb (Z.of_nat i) = Ok tb /\ tensor_in_units k tf ta tb.
Proof.
  intros L c k kx readers name a b p e0 ea sa sb tf HL HF ED HD HU HM HJ N1 N2 KD KI KO KX K0 U PA PB EA CA FIT QA QB.
  refine (run_units_cal L c k kx HL HF ED HU HM HJ N1 N2 KD KX K0 KI KO (Some readers) name a b p e0 ea sa sb (or_intror HD) U PA PB EA CA QA QB FIT).
Qed.
Print Assumptions C100_calibrated.

(** the same claim for commands on a project: one site with one measurement *)
Theorem C100_project : forall (L : library) (c : config) (k : chan -> Q) (kx : Q) readers proj proj' site meas a b s s1 s' s2 p e0 ea sa sb, let tf := cf_tf c in
  linear_library L -> (forall b k l, linear_routine (o_filter (l_orc L) b k l)) -> (forall x, l_drnd L x == x) -> divides_units (l_cdiv L) -> Forall unit_proc (cf_time c) ->
  l_cmul L = ctimes -> junk_shape (l_junk1 L) (l_junk2 L) -> junk_rows L -> NoDup (tf_out tf) -> NoDup (tf_in tf) -> keys_distinct tf ->
  (forall x, In x (tf_in tf) -> ~ k x == 0) -> (forall x, In x (tf_out tf) -> ~ k x == 0) -> (forall x, In x (tf_cross tf) -> k x == kx) -> ~ kx == 0 ->
  find (fun x : string * raw_site => String.eqb (fst x) site) proj = Some (site, [(meas, (fs (meta a), Ok a))]) ->
  find (fun x : string * raw_site => String.eqb (fst x) site) proj' = Some (site, [(meas, (fs (meta b), Ok b))]) ->
  in_units k a b -> processable L c a -> processable L c b -> keeps_fs L c a -> keeps_fs L c b ->
  to_evals L c (first_time (meta a)) a = Ok (p, e0) -> run_calibration L c readers e0 = Ok ea ->
  unit_free (l_fit L) \/
    minimises (l_fit L) /\ (forall level f, (0 <= level < sm_n_levels (sd_md ea))%Z -> (0 <= f < dp_per_level p)%Z -> evals_determine ea tf level f) ->
  process_time_to_evals L c readers (first_time (meta a)) proj site meas s = (s1, Ok tt) -> process_evals_to_tf L c proj s1 (fs (meta a)) site None None = Ok sa ->
  process_time_to_evals L c readers (first_time (meta b)) proj' site meas s' = (s2, Ok tt) -> process_evals_to_tf L c proj' s2 (fs (meta b)) site None None = Ok sb ->
  so_freqs sb = so_freqs sa /\ forall i, (i < length (so_freqs sa))%nat ->
    exists ta tb, sol_tensor sa (Z.of_nat i) = Ok ta /\ sol_tensor sb (Z.of_nat i) = Ok tb /\ tensor_in_units k tf ta tb.
Proof.
  intros L c k kx readers proj proj' site meas a b s s1 s' s2 p e0 ea sa sb tf HL HF ED HD HU HM HJ HR N1 N2 KD KI KO KX K0 HF1 HF2 U PA PB FA FB EA CA FIT T1 QA T2 QB.
  pose proof (C67_project_equals_quick L c readers (Some readers) proj site meas a s s1 (Ok tt) HF1 PA FA (or_introl eq_refl) HR T1) as E1. cbn beta iota in E1.
  pose proof (C67_project_equals_quick L c readers (Some readers) proj' site meas b s' s2 (Ok tt) HF2 PB FB (or_introl eq_refl) HR T2) as E2. cbn beta iota in E2.
  apply (C100_calibrated L c k kx readers meas a b p e0 ea sa sb); try assumption; congruence.
Qed.
Print Assumptions C100_project.

(** ** a recording in other units *)
Definition uniL : library := mkLib (l_rnd linL) (l_drnd linL) (l_orc linL) (l_pw linL) (l_fuel linL) (l_ns_time linL) (l_ns_delta linL) (l_next_fast_len linL) (l_transform linL)
  (l_uniform linL) (l_gaussian linL) (l_cis linL) (l_cdiv linL) (l_cmul linL) (l_junk linL) (l_junk1 linL) (l_junk2 linL) normal_fit.
Definition uniC : config :=
  mkConfig "uni" [PRemoveMean; PMultiply (ADict [("Ex"%string, 10)])] (mkDecSetup 2 1 8 2 (Some [2; 1])) false 13 (mkWinSetup 8 2 4 (1#4) 2 None None) None [SUniform (1#10)] None
    (mkTf ["Ex"%string] ["Hx"; "Hy"]%string ["Hx"; "Hy"]%string).
Definition uniRow (k : chan -> Q) (c : chan) (m : Z -> Z) : list cell := map Some (map (fun i => k c * inject_Z (m i)) (arange 40)).
Definition uniTd (k : chan -> Q) : tdata :=
  mkData (mkMeta 8 ["Ex"; "Hx"; "Hy"]%string 3 40 100 (100 + inject_Z 39 * (1#8)) "" [] []) "float64"
    [uniRow k "Ex"%string (fun i => 3 * i mod 11)%Z; uniRow k "Hx"%string (fun i => i * i mod 7)%Z; uniRow k "Hy"%string (fun i => i mod 5)%Z].
Definition one : chan -> Q := fun _ => 1.
(** the electric channel in thousandths, the magnetic channels in multiples of two *)
Definition uniK : chan -> Q := fun c => if String.eqb c "Ex"%string then 1000 else 1 # 2.
(** only Hy in other units *)
Definition oddK : chan -> Q := fun c => if String.eqb c "Hy"%string then 2 else 1.
Lemma uni_in_units k : in_units k (uniTd one) (uniTd k).
Proof.
  do 6 (split; [reflexivity|]). split.
  { constructor; [intros [F|[F|[]]]; discriminate F|]. constructor; [intros [F|[]]; discriminate F|]. constructor; [intros []|constructor]. }
  split; [reflexivity|]. split; [reflexivity|].
  assert (T : forall c m, times_c (k c) (map (fun i => one c * inject_Z (m i)) (arange 40)) (map (fun i => k c * inject_Z (m i)) (arange 40))).
  { intros c m. induction (arange 40) as [|i l IH]; constructor; [unfold one; ring|exact IH]. }
  intros c [<-|[<-|[<-|[]]]]; eexists _, _; (split; [|split; [|apply T]]); [exists 0%nat|exists 0%nat|exists 1%nat|exists 1%nat|exists 2%nat|exists 2%nat]; split; reflexivity.
Qed.
Lemma uni_processable k : k = one \/ k = uniK \/ k = oddK -> processable uniL uniC (uniTd k).
Proof.
  intros HK. split; [reflexivity|]. split; [cbn; lia|]. split; [cbn; lia|]. intros td' p dd wp H1 H2 H3 H4.
  destruct HK as [-> | [-> | ->]]; vm_compute in H1; injection H1 as <-; vm_compute in H2; injection H2 as <-; vm_compute in H3; injection H3 as <-; vm_compute in H4; injection H4 as <-;
  (split; [cbn; lia|]; split; [repeat split; try discriminate; intros x; cbn; intuition (subst; auto)|]; split;
  [intros [|[|[|i]]] m Hm; cbn in Hm; try discriminate; try (destruct i; discriminate); injection Hm as <-; eexists; (split; [vm_compute; reflexivity|]); (split; [reflexivity|]); intros r [<-|[<-|[<-|[]]]]; reflexivity
  |intros [|[|[|i]]] m w Hm Hw; cbn in Hm, Hw; try discriminate; try (destruct i; discriminate); injection Hm as <-; injection Hw as <-; cbn; lia]).
Qed.
Definition uniPE : dec_params * spec_data cq :=
  match to_evals uniL uniC 100 (uniTd one) with Ok pe => pe | Err _ => (mkDecParams 0 0 0 0 [] [] [] [], mkSpec (mkSpecMd [] [] 0 0 0 "" [] 0 []) []) end.
Example C100_ex_evals : to_evals uniL uniC (first_time (meta (uniTd one))) (uniTd one) = Ok uniPE.
Proof. vm_compute. reflexivity. Qed.
Definition uni_array (level : Z) : list (list (list cq)) :=
  match sd_at (snd uniPE) level with
  | Ok (Ax l) => map (fun w => match w with Ax m => map (fun r => match r with Ax v => match scalars v with Some s => s | None => [] end | Sc _ => [] end) m | Sc _ => [] end) l
  | _ => []
  end.
Definition uni_coef (level : Z) (w i : nat) (f : Z) : cq := nth (Z.to_nat f) (nth i (nth w (uni_array level) []) []) c0.
Definition uni_row (level : Z) (w : nat) (f : Z) : list cq := [uni_coef level w 1 f; uni_coef level w 2 f].
Lemma cmul_zero_l (d t : cq) : ceq (ctimes d t) c0 -> ~ normsq t == 0 -> ceq d c0.
Proof.
  destruct d as [a b], t as [p q]. intros [H1 H2] NZ. cbn in H1, H2. unfold normsq in NZ. cbn [re im] in NZ.
  assert (A : a * (p * p + q * q) == 0). { transitivity (p * (a * p - b * q) + q * (a * q + b * p)); [ring|]. rewrite H1, H2. ring. }
  assert (B : b * (p * p + q * q) == 0). { transitivity (p * (a * q + b * p) - q * (a * p - b * q)); [ring|]. rewrite H1, H2. ring. }
  split; cbn; [destruct (Qmult_integral _ _ A); [assumption|contradiction]|destruct (Qmult_integral _ _ B); [assumption|contradiction]].
Qed.
(** two windows whose coefficients are independent determine two unknowns *)
Lemma two_inputs_determine ed tf level f w1 w2 x1 y1 x2 y2 : (0 <= w1)%Z -> (0 <= w2)%Z -> tf_cross tf = tf_in tf -> length (tf_in tf) = 2%nat ->
  window_row ed (tf_in tf) level w1 f [x1; y1] -> window_row ed (tf_in tf) level w2 f [x2; y2] -> ~ normsq x1 == 0 -> ~ normsq x2 == 0 ->
  ~ normsq (cplus (ctimes y2 x1) (cscale (-1) (ctimes y1 x2))) == 0 -> evals_determine ed tf level f.
Proof.
  intros W1 W2 EC L2 R1 R2 N1 N2 ND D LD H. rewrite L2 in LD. destruct D as [|d [|e [|]]]; try discriminate. rewrite EC in H.
  pose proof (H w1 _ _ x1 W1 R1 R1 (or_introl eq_refl)) as E1. pose proof (H w2 _ _ x2 W2 R2 R2 (or_introl eq_refl)) as E2. clear H.
  assert (F : forall u v x, ~ normsq x == 0 -> ceq (cdot [d; e] (map (fun z => ctimes z (conj_ x)) [u; v])) c0 -> ceq (cplus (ctimes d u) (ctimes e v)) c0).
  { intros u v x NX K. apply (cmul_zero_l _ (conj_ x)); [|unfold normsq in *; cbn [re im conj_] in *; intros K'; apply NX; rewrite <- K'; ring].
    cbn [map cdot] in K. destruct K as [K1 K2]. destruct d, e, u, v, x. split; [rewrite <- K1|rewrite <- K2]; cbn; ring. }
  apply F in E1; [|exact N1]. apply F in E2; [|exact N2].
  assert (Z2 : ceq e c0).
  { apply (cmul_zero_l _ (cplus (ctimes y2 x1) (cscale (-1) (ctimes y1 x2)))); [|exact ND]. destruct d as [d1 d2], e as [e1 e2], x1 as [p1 q1], y1 as [r1 s1], x2 as [p2 q2], y2 as [r2 s2], E1 as [A1 A2], E2 as [B1 B2]. cbn in A1, A2, B1, B2.
    assert (I1 : (d1 * p2 - d2 * q2 + (e1 * r2 - e2 * s2)) * p1 - (d1 * q2 + d2 * p2 + (e1 * s2 + e2 * r2)) * q1 - ((d1 * p1 - d2 * q1 + (e1 * r1 - e2 * s1)) * p2 - (d1 * q1 + d2 * p1 + (e1 * s1 + e2 * r1)) * q2) == 0) by (rewrite A1, A2, B1, B2; ring).
    assert (I2 : (d1 * p2 - d2 * q2 + (e1 * r2 - e2 * s2)) * q1 + (d1 * q2 + d2 * p2 + (e1 * s2 + e2 * r2)) * p1 - ((d1 * p1 - d2 * q1 + (e1 * r1 - e2 * s1)) * q2 + (d1 * q1 + d2 * p1 + (e1 * s1 + e2 * r1)) * p2) == 0) by (rewrite A1, A2, B1, B2; ring).
    split; cbn; [rewrite <- I1|rewrite <- I2]; ring. }
  assert (Z1 : ceq d c0).
  { apply (cmul_zero_l _ x1); [|exact N1]. destruct Z2 as [Z2 Z3]. destruct d as [d1 d2], e as [e1 e2], x1 as [p1 q1], y1 as [r1 s1], E1 as [A1 A2]. cbn in *. split; cbn; [rewrite <- A1|rewrite <- A2]; rewrite Z2, Z3; ring. }
  constructor; [exact Z1|]. constructor; [exact Z2|constructor].
Qed.
Lemma uni_window level w f : (0 <= level < 2)%Z -> (0 <= f < 1)%Z -> (w < 2)%nat -> window_row (snd uniPE) ["Hx"; "Hy"]%string level (Z.of_nat w) f (uni_row level w f).
Proof.
  intros Hl Hf Hw. assert (A : sd_at (snd uniPE) level = Ok (nd3 (uni_array level))) by (assert (level = 0 \/ level = 1)%Z as [-> | ->] by lia; vm_compute; reflexivity).
  exists (uni_array level). split; [exact A|].
  constructor; [exists 1%nat|constructor; [exists 2%nat|constructor]]; (split; [vm_compute; reflexivity|]); (split; [intros [|[|j]] Hj; try lia; vm_compute; discriminate|]);
    assert (level = 0 \/ level = 1)%Z as [-> | ->] by lia; assert (f = 0)%Z as -> by lia; assert (w = 0 \/ w = 1)%nat as [-> | ->] by lia; vm_compute; reflexivity.
Qed.
Example C100_ex_determined : forall level f, (0 <= level < sm_n_levels (sd_md (snd uniPE)))%Z -> (0 <= f < dp_per_level (fst uniPE))%Z -> evals_determine (snd uniPE) (cf_tf uniC) level f.
Proof.
  intros level f Hl Hf. assert (E1 : sm_n_levels (sd_md (snd uniPE)) = 2%Z) by (vm_compute; reflexivity). assert (E2 : dp_per_level (fst uniPE) = 1%Z) by (vm_compute; reflexivity).
  rewrite E1 in Hl. rewrite E2 in Hf. refine (two_inputs_determine (snd uniPE) (cf_tf uniC) level f 0 1 _ _ _ _ _ _ eq_refl eq_refl (uni_window level 0 f Hl Hf ltac:(lia)) (uni_window level 1 f Hl Hf ltac:(lia)) _ _ _); try lia;
  (assert (level = 0 \/ level = 1)%Z as [-> | ->] by lia; assert (f = 0)%Z as -> by lia; vm_compute; discriminate).
Qed.
Lemma uni_library : linear_library uniL /\ (forall b k l, linear_routine (o_filter (l_orc uniL) b k l)) /\ (forall x, l_drnd uniL x == x) /\ l_cmul uniL = ctimes /\ junk_shape (l_junk1 uniL) (l_junk2 uniL) /\ minimises (l_fit uniL).
Proof. destruct C87_ex_library as (A1 & A2 & A3 & A4 & A5 & _). do 5 (split; [assumption|]). exact normal_minimises. Qed.
Lemma uni_procs : Forall unit_proc (cf_time uniC).
Proof. constructor; [left; exact I|]. constructor; [right; right; eexists; reflexivity|constructor]. Qed.
Lemma uni_keys : NoDup (tf_out (cf_tf uniC)) /\ NoDup (tf_in (cf_tf uniC)) /\ keys_distinct (cf_tf uniC).
Proof.
  split; [constructor; [intros []|constructor]|]. split; [constructor; [intros [F|[]]; discriminate F|constructor; [intros []|constructor]]|].
  intros o i o' i' [<-|[]] [<-|[<-|[]]] [<-|[]] [<-|[<-|[]]] E; split; try reflexivity; exfalso; vm_compute in E; discriminate E.
Qed.
Definition uniSol (k : chan -> Q) : solution := match quick_tf uniL uniC None "m" (uniTd k) with Ok s => s | Err _ => mkSol (mkTf [] [] []) [] [] end.
Lemma uni_runs : quick_tf uniL uniC None "m" (uniTd one) = Ok (uniSol one) /\ quick_tf uniL uniC None "m" (uniTd uniK) = Ok (uniSol uniK) /\ quick_tf uniL uniC None "m" (uniTd oddK) = Ok (uniSol oddK).
Proof. repeat match goal with |- _ /\ _ => apply conj end; vm_compute; reflexivity. Qed.
Definition entry_at (s : solution) (i : Z) (o j : nat) : option cq := match sol_tensor s i with Ok t => entry2 t o j | Err _ => None end.
(** the theorem applied to a recording whose electric channel is not a combination of the magnetic ones *)
Example C100_ex : so_freqs (uniSol uniK) = so_freqs (uniSol one) /\ length (so_freqs (uniSol one)) = 2%nat /\
  (forall i, (i < length (so_freqs (uniSol one)))%nat -> exists ta tb, sol_tensor (uniSol one) (Z.of_nat i) = Ok ta /\ sol_tensor (uniSol uniK) (Z.of_nat i) = Ok tb /\ tensor_in_units uniK (cf_tf uniC) ta tb) /\
  entry_at (uniSol one) 0 0 0 = Some (mkC (-6395282665210 # 718313435239) (33454252070840 # 5028194046673)) /\
  entry_at (uniSol uniK) 0 0 0 = Some (mkC (-12790565330420000 # 718313435239) (66908504141680000 # 5028194046673)).
Proof.
  destruct uni_library as (A1 & A2 & A3 & A4 & A5 & A6). destruct uni_keys as (N1 & N2 & N3). destruct uni_runs as (R1 & R2 & _).
  destruct (C100_least_squares uniL uniC uniK (1 # 2) "m" (uniTd one) (uniTd uniK) (fst uniPE) (snd uniPE) (uniSol one) (uniSol uniK) A1 A2 A3 uni_procs A4 A5 A6 N1 N2 N3) as (E & H); try assumption.
  - intros x [<-|[<-|[]]]; vm_compute; discriminate.
  - intros x [<-|[]]; vm_compute; discriminate.
  - intros x [<-|[<-|[]]]; vm_compute; reflexivity.
  - vm_compute. discriminate.
  - exact (uni_in_units uniK).
  - apply uni_processable. left. reflexivity.
  - apply uni_processable. right. left. reflexivity.
  - rewrite C100_ex_evals. destruct uniPE. reflexivity.
  - exact C100_ex_determined.
  - split; [exact E|]. split; [vm_compute; reflexivity|]. split; [exact H|]. split; vm_compute; reflexivity.
Qed.
(** ** cross channels in different units *)
(** The observations are multiplied by the conjugates of the cross channels before the fit: with Hx and Hy in different
    units the equations get other weights, and the transfer function is another one: without the hypothesis that the cross
    channels share one unit, the claim is false. *)
Theorem C100_cross_units_refuted : ~ (forall (L : library) (c : config) (k : chan -> Q) name a b p ea sa sb, let tf := cf_tf c in
  linear_library L -> (forall b k l, linear_routine (o_filter (l_orc L) b k l)) -> (forall x, l_drnd L x == x) -> Forall unit_proc (cf_time c) ->
  l_cmul L = ctimes -> junk_shape (l_junk1 L) (l_junk2 L) -> minimises (l_fit L) -> NoDup (tf_out tf) -> NoDup (tf_in tf) -> keys_distinct tf ->
  (forall x, In x (tf_in tf) -> ~ k x == 0) -> (forall x, In x (tf_out tf) -> ~ k x == 0) -> (forall x, In x (tf_cross tf) -> ~ k x == 0) ->
  in_units k a b -> processable L c a -> processable L c b -> to_evals L c (first_time (meta a)) a = Ok (p, ea) ->
  (forall level f, (0 <= level < sm_n_levels (sd_md ea))%Z -> (0 <= f < dp_per_level p)%Z -> evals_determine ea tf level f) ->
  quick_tf L c None name a = Ok sa -> quick_tf L c None name b = Ok sb ->
  so_freqs sb = so_freqs sa /\ forall i, (i < length (so_freqs sa))%nat ->
    exists ta tb, sol_tensor sa (Z.of_nat i) = Ok ta /\ sol_tensor sb (Z.of_nat i) = Ok tb /\ tensor_in_units k tf ta tb).
Proof.
  intros H. destruct uni_library as (A1 & A2 & A3 & A4 & A5 & A6). destruct uni_keys as (N1 & N2 & N3). destruct uni_runs as (R1 & _ & R2).
  destruct (H uniL uniC oddK "m"%string (uniTd one) (uniTd oddK) (fst uniPE) (snd uniPE) (uniSol one) (uniSol oddK) A1 A2 A3 uni_procs A4 A5 A6 N1 N2 N3) as (_ & K); try assumption.
  - intros x [<-|[<-|[]]]; vm_compute; discriminate.
  - intros x [<-|[]]; vm_compute; discriminate.
  - intros x [<-|[<-|[]]]; vm_compute; discriminate.
  - exact (uni_in_units oddK).
  - apply uni_processable. left. reflexivity.
  - apply uni_processable. right. right. reflexivity.
  - rewrite C100_ex_evals. destruct uniPE. reflexivity.
  - exact C100_ex_determined.
  - assert (L : (0 < length (so_freqs (uniSol one)))%nat) by (apply Nat.ltb_lt; vm_compute; reflexivity). destruct (K 0%nat L) as (ta & tb & Ta & Tb & U). destruct (U 0%nat 0%nat _ _ eq_refl eq_refl) as (za & zb & Za & Zb & [E _]).
    assert (B1 : entry_at (uniSol one) 0 0 0 = Some za) by (unfold entry_at; change (Z.of_nat 0) with 0%Z in Ta; rewrite Ta; exact Za). assert (B2 : entry_at (uniSol oddK) 0 0 0 = Some zb) by (unfold entry_at; change (Z.of_nat 0) with 0%Z in Tb; rewrite Tb; exact Zb).
    vm_compute in B1. injection B1 as <-. vm_compute in B2. injection B2 as <-. vm_compute in E. discriminate E.
Qed.
Print Assumptions C100_cross_units_refuted.
(** ** a fit without preference for units *)
Definition uniL1 : library := mkLib (l_rnd linL) (l_drnd linL) (l_orc linL) (l_pw linL) (l_fuel linL) (l_ns_time linL) (l_ns_delta linL) (l_next_fast_len linL) (l_transform linL)
  (l_uniform linL) (l_gaussian linL) (l_cis linL) (l_cdiv linL) (l_cmul linL) (l_junk linL) (l_junk1 linL) (l_junk2 linL) cramer.
Definition uniC1 : config := mkConfig "uni" (cf_time uniC) (cf_dec uniC) (cf_resample uniC) (cf_max_single uniC) (cf_win uniC) None [SUniform (1#10)] None (mkTf ["Ex"%string] ["Hy"%string] ["Hx"%string]).
Lemma uni_processable1 k : k = one \/ k = oddK -> processable uniL1 uniC1 (uniTd k).
Proof.
  intros HK. split; [reflexivity|]. split; [cbn; lia|]. split; [cbn; lia|]. intros td' p dd wp H1 H2 H3 H4.
  destruct HK as [-> | ->]; vm_compute in H1; injection H1 as <-; vm_compute in H2; injection H2 as <-; vm_compute in H3; injection H3 as <-; vm_compute in H4; injection H4 as <-;
  (split; [cbn; lia|]; split; [repeat split; try discriminate; intros x; cbn; intuition (subst; auto)|]; split;
  [intros [|[|[|i]]] m Hm; cbn in Hm; try discriminate; try (destruct i; discriminate); injection Hm as <-; eexists; (split; [vm_compute; reflexivity|]); (split; [reflexivity|]); intros r [<-|[<-|[<-|[]]]]; reflexivity
  |intros [|[|[|i]]] m w Hm Hw; cbn in Hm, Hw; try discriminate; try (destruct i; discriminate); injection Hm as <-; injection Hw as <-; cbn; lia]).
Qed.
Definition uniSol1 (k : chan -> Q) : solution := match quick_tf uniL1 uniC1 None "m" (uniTd k) with Ok s => s | Err _ => mkSol (mkTf [] [] []) [] [] end.
Lemma uni_runs1 : quick_tf uniL1 uniC1 None "m" (uniTd one) = Ok (uniSol1 one) /\ quick_tf uniL1 uniC1 None "m" (uniTd oddK) = Ok (uniSol1 oddK).
Proof. repeat match goal with |- _ /\ _ => apply conj end; vm_compute; reflexivity. Qed.
Definition uniPE1 : dec_params * spec_data cq :=
  match to_evals uniL1 uniC1 100 (uniTd one) with Ok pe => pe | Err _ => (mkDecParams 0 0 0 0 [] [] [] [], mkSpec (mkSpecMd [] [] 0 0 0 "" [] 0 []) []) end.
Lemma uni_evals1 : to_evals uniL1 uniC1 (first_time (meta (uniTd one))) (uniTd one) = Ok uniPE1.
Proof. vm_compute. reflexivity. Qed.
Example C100_ex_unit_free : so_freqs (uniSol1 oddK) = so_freqs (uniSol1 one) /\ length (so_freqs (uniSol1 one)) = 2%nat /\
  forall i, (i < length (so_freqs (uniSol1 one)))%nat -> exists ta tb, sol_tensor (uniSol1 one) (Z.of_nat i) = Ok ta /\ sol_tensor (uniSol1 oddK) (Z.of_nat i) = Ok tb /\ tensor_in_units oddK (cf_tf uniC1) ta tb.
Proof.
  destruct uni_library as (A1 & A2 & A3 & A4 & A5 & _). destruct uni_runs1 as (R1 & R2).
  destruct (C100_unit_free uniL1 uniC1 oddK 1 "m" (uniTd one) (uniTd oddK) (fst uniPE1) (snd uniPE1) (uniSol1 one) (uniSol1 oddK) A1 A2 A3 uni_procs A4 A5 cramer_unit_free) as (E & H).
  - constructor; [intros []|constructor].
  - constructor; [intros []|constructor].
  - intros o i o' i' [<-|[]] [<-|[]] [<-|[]] [<-|[]] _. split; reflexivity.
  - intros x [<-|[]]; vm_compute; discriminate.
  - intros x [<-|[]]; vm_compute; discriminate.
  - intros x [<-|[]]; vm_compute; reflexivity.
  - discriminate.
  - exact (uni_in_units oddK).
  - apply uni_processable1. left. reflexivity.
  - apply uni_processable1. right. reflexivity.
  - rewrite uni_evals1. destruct uniPE1. reflexivity.
  - exact R1.
  - exact R2.
  - split; [exact E|]. split; [vm_compute; reflexivity|exact H].
Qed.

(** ** a calibrated run *)
(** the exact complex quotient is such a division *)
Definition quotient (z t : cq) : cq := cscale (/ normsq t) (ctimes z (conj_ t)).
Lemma quotient_units : divides_units quotient.
Proof. intros q [a b] [a' b'] [x y] [E1 E2]. cbn in E1, E2. split; cbn; rewrite E1, E2; ring. Qed.
Definition calL : library := mkLib (l_rnd linL) (l_drnd linL) (l_orc linL) (l_pw linL) (l_fuel linL) (l_ns_time linL) (l_ns_delta linL) (l_next_fast_len linL) (l_transform linL)
  (l_uniform linL) (l_gaussian linL) (l_cis linL) quotient (l_cmul linL) (l_junk linL) (l_junk1 linL) (l_junk2 linL) normal_fit.
Definition calC : config := mkConfig "uni" (cf_time uniC) (mkDecSetup 1 2 8 2 (Some [2; 1])) (cf_resample uniC) (cf_max_single uniC) (cf_win uniC) None [SUniform (1#10)] None (mkTf ["Ex"%string] ["Hy"%string] ["Hx"%string]).
(** calibration data for the channel Hy *)
Definition calR : list (chan -> res cal_data) := [fun c => if String.eqb c "Hy" then Ok (mkCal [1; 3] [2; 4] [0; 1]) else Err ReadError].
Lemma cal_processable k : k = one \/ k = uniK -> processable calL calC (uniTd k).
Proof.
  intros HK. split; [reflexivity|]. split; [cbn; lia|]. split; [cbn; lia|]. intros td' p dd wp H1 H2 H3 H4.
  destruct HK as [-> | ->]; vm_compute in H1; injection H1 as <-; vm_compute in H2; injection H2 as <-; vm_compute in H3; injection H3 as <-; vm_compute in H4; injection H4 as <-;
  (split; [cbn; lia|]; split; [repeat split; try discriminate; intros x; cbn; intuition (subst; auto)|]; split;
  [intros [|[|[|i]]] m Hm; cbn in Hm; try discriminate; try (destruct i; discriminate); injection Hm as <-; eexists; (split; [vm_compute; reflexivity|]); (split; [reflexivity|]); intros r [<-|[<-|[<-|[]]]]; reflexivity
  |intros [|[|[|i]]] m w Hm Hw; cbn in Hm, Hw; try discriminate; try (destruct i; discriminate); injection Hm as <-; injection Hw as <-; cbn; lia]).
Qed.
Definition calSol (k : chan -> Q) : solution := match quick_tf calL calC (Some calR) "m" (uniTd k) with Ok s => s | Err _ => mkSol (mkTf [] [] []) [] [] end.
Lemma cal_runs : quick_tf calL calC (Some calR) "m" (uniTd one) = Ok (calSol one) /\ quick_tf calL calC (Some calR) "m" (uniTd uniK) = Ok (calSol uniK).
Proof. apply conj; vm_compute; reflexivity. Qed.
Definition calPE : dec_params * spec_data cq :=
  match to_evals calL calC 100 (uniTd one) with Ok pe => pe | Err _ => (mkDecParams 0 0 0 0 [] [] [] [], mkSpec (mkSpecMd [] [] 0 0 0 "" [] 0 []) []) end.
Definition calE : spec_data cq := match run_calibration calL calC calR (snd calPE) with Ok d => d | Err _ => snd calPE end.
Lemma cal_evals : to_evals calL calC (first_time (meta (uniTd one))) (uniTd one) = Ok calPE /\ run_calibration calL calC calR (snd calPE) = Ok calE.
Proof. apply conj; vm_compute; reflexivity. Qed.
Definition cal_array : list (list (list cq)) :=
  match sd_at calE 0 with
  | Ok (Ax l) => map (fun w => match w with Ax m => map (fun r => match r with Ax v => match scalars v with Some s => s | None => [] end | Sc _ => [] end) m | Sc _ => [] end) l
  | _ => []
  end.
Definition cal_coef (i : nat) (f : Z) : cq := nth (Z.to_nat f) (nth i (nth 0 cal_array []) []) c0.
Lemma cal_window f : (0 <= f < 2)%Z -> forall c i, c = "Hy"%string /\ i = 2%nat \/ c = "Hx"%string /\ i = 1%nat -> window_row calE [c] 0 0 f [cal_coef i f].
Proof.
  intros Hf c i H. assert (A : sd_at calE 0 = Ok (nd3 cal_array)) by (vm_compute; reflexivity). exists cal_array. split; [exact A|]. constructor; [|constructor]. exists i.
  destruct H as [[-> ->] | [-> ->]]; (split; [vm_compute; reflexivity|]); (split; [intros [|[|j]] Hj; try lia; vm_compute; discriminate|]); assert (f = 0 \/ f = 1)%Z as [-> | ->] by lia; vm_compute; reflexivity.
Qed.
Example C100_ex_calibrated : so_freqs (calSol uniK) = so_freqs (calSol one) /\ length (so_freqs (calSol one)) = 2%nat /\
  (forall i, (i < length (so_freqs (calSol one)))%nat -> exists ta tb, sol_tensor (calSol one) (Z.of_nat i) = Ok ta /\ sol_tensor (calSol uniK) (Z.of_nat i) = Ok tb /\ tensor_in_units uniK (cf_tf calC) ta tb) /\
  sd_at calE 0 <> sd_at (snd calPE) 0.
Proof.
  destruct uni_library as (A1 & A2 & A3 & A4 & A5 & A6). destruct cal_runs as (R1 & R2). destruct cal_evals as (E1 & E2).
  destruct (C100_calibrated calL calC uniK (1 # 2) calR "m" (uniTd one) (uniTd uniK) (fst calPE) (snd calPE) calE (calSol one) (calSol uniK) A1 A2 A3 quotient_units uni_procs A4 A5) as (E & H).
  - constructor; [intros []|constructor].
  - constructor; [intros []|constructor].
  - intros o i o' i' [<-|[]] [<-|[]] [<-|[]] [<-|[]] _. split; reflexivity.
  - intros x [<-|[]]; vm_compute; discriminate.
  - intros x [<-|[]]; vm_compute; discriminate.
  - intros x [<-|[]]; vm_compute; reflexivity.
  - discriminate.
  - exact (uni_in_units uniK).
  - apply cal_processable. left. reflexivity.
  - apply cal_processable. right. reflexivity.
  - rewrite E1. destruct calPE. reflexivity.
  - exact E2.
  - right. split; [exact A6|]. intros level f Hl Hf D LD K. assert (N1 : sm_n_levels (sd_md calE) = 1%Z) by (vm_compute; reflexivity). assert (N2 : dp_per_level (fst calPE) = 2%Z) by (vm_compute; reflexivity).
    rewrite N1 in Hl. rewrite N2 in Hf. assert (level = 0%Z) as -> by lia. change (length (tf_in (cf_tf calC))) with 1%nat in LD. destruct D as [|d [|d2 D]]; [discriminate LD| |discriminate LD].
    pose proof (K 0%Z _ _ (cal_coef 1 f) ltac:(lia) (cal_window f Hf "Hy"%string 2%nat (or_introl (conj eq_refl eq_refl))) (cal_window f Hf "Hx"%string 1%nat (or_intror (conj eq_refl eq_refl))) (or_introl eq_refl)) as Z0.
    constructor; [|constructor]. apply (cmul_zero_l _ (ctimes (cal_coef 2 f) (conj_ (cal_coef 1 f)))).
    + revert Z0. generalize (cal_coef 1 f), (cal_coef 2 f). intros [a b] [x y]. destruct d as [d1 d2]. cbn. intros [Z1 Z2]. cbn in Z1, Z2. split; cbn; [rewrite <- Z1|rewrite <- Z2]; ring.
    + clear - Hf. intros Z. assert (f = 0 \/ f = 1)%Z as [-> | ->] by lia; vm_compute in Z; discriminate Z.
  - exact R1.
  - exact R2.
  - split; [exact E|]. split; [vm_compute; reflexivity|]. split; [exact H|]. vm_compute. discriminate.
Qed.
(** the two recordings as the only measurement of a project each *)
Definition uniProj (td : tdata) : raw_project := [("A"%string, [("m"%string, (8, Ok td))])].
Example C100_ex_project : forall k, k = one \/ k = uniK -> keeps_fs calL calC (uniTd k) /\ junk_rows calL /\
  find (fun x : string * raw_site => String.eqb (fst x) "A") (uniProj (uniTd k)) = Some ("A"%string, [("m"%string, (fs (meta (uniTd k)), Ok (uniTd k)))]) /\
  exists s, process_time_to_evals calL calC calR (first_time (meta (uniTd k))) (uniProj (uniTd k)) "A" "m" [] = (s, Ok tt) /\
    process_evals_to_tf calL calC (uniProj (uniTd k)) s (fs (meta (uniTd k))) "A" None None = Ok (calSol k).
Proof.
  intros k Hk. split; [destruct Hk as [-> | ->]; intros td' H; vm_compute in H; injection H as <-; reflexivity|]. split; [intros a b c; apply repeat_length|].
  split; [reflexivity|]. destruct Hk as [-> | ->]; eexists; (split; [vm_compute; reflexivity|]); vm_compute; reflexivity.
Qed.
