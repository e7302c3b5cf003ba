(** Proofs for C89: the curves and sections of the spectra figures. *)
From Coq Require Import String Sorted.
From Verif Require Import Base.Prelude Base.B32 Base.ListUtil Base.NdArray Base.Cplx Model.Sampling Model.Time Model.Decimate Model.Window
  Model.Spectra Model.Display Model.SpectraPlot Spec.Display Spec.Calibrate Spec.Gather Spec.SpectraPlot
  Proofs.Sampling Proofs.Spectra Proofs.Calibrate Proofs.CalibrateFinal Proofs.DecParams Proofs.Display Proofs.TimeMeta Proofs.PipelineShape Proofs.GatherQuick.
Open Scope list_scope. Open Scope Z_scope.

(** ** arrays *)
Lemma all_some_map {A B} (f : A -> option B) (g : A -> B) l : (forall a, In a l -> f a = Some (g a)) -> all_some (map f l) = Some (map g l).
Proof.
  induction l as [|a t IH]; intros H; [reflexivity|]. cbn. rewrite (H a (or_introl eq_refl)), IH; [reflexivity|]. intros; apply H; right; assumption.
Qed.
Lemma as3_nd3 {A} (x : list (list (list A))) : as3 (nd3 x) = Some x.
Proof.
  cbn [as3 nd3]. rewrite map_map, (all_some_map _ (fun m => m)), map_id; [reflexivity|]. intros m _. cbn [as2 nd2].
  rewrite map_map, (all_some_map _ (fun v => v)), map_id; [reflexivity|]. intros v _. cbn [as1 nd1]. apply scalars_map.
Qed.
Lemma three_nd3 (x : list (list (list cq))) : three (nd3 x) = Ok x.
Proof. unfold three. rewrite as3_nd3. reflexivity. Qed.
Lemma zip_nth {A B C} (f : A -> B -> C) a : forall b i,
  nth_error (zip f a b) i = match nth_error a i, nth_error b i with Some x, Some y => Some (f x y) | _, _ => None end.
Proof.
  induction a as [|x a IH]; intros b i; [destruct i; reflexivity|]. destruct b as [|y b]; [destruct i; cbn; [reflexivity|destruct (nth_error a i); reflexivity]|].
  destruct i; [reflexivity|]. cbn. apply IH.
Qed.
Lemma zip_length {A B C} (f : A -> B -> C) a : forall b, length (zip f a b) = Nat.min (length a) (length b).
Proof. induction a as [|x a IH]; intros [|y b]; [reflexivity..|]. cbn. f_equal. apply IH. Qed.
Definition entry {A} (m : list (list A)) (c f : nat) : option A := match nth_error m c with Some r => nth_error r f | None => None end.
Definition rect {A} (C F : nat) (m : list (list A)) : Prop := length m = C /\ forall r, In r m -> length r = F.
Lemma rect_entry {A} C F (m : list (list A)) c f : rect C F m -> (c < C)%nat -> (f < F)%nat -> exists v, entry m c f = Some v.
Proof.
  intros [L R] Hc Hf. unfold entry. destruct (nth_error m c) as [r|] eqn:E; [|apply nth_error_None in E; lia].
  apply nth_error_In, R in E. destruct (nth_error r f) as [v|] eqn:E'; [eauto|apply nth_error_None in E'; lia].
Qed.
Lemma rect_map {A B} (g : A -> B) C F m : rect C F m -> rect C F (map (map g) m).
Proof. intros [L R]. split; [rewrite map_length; exact L|]. intros r Hr. apply in_map_iff in Hr. destruct Hr as (r0 & <- & H). rewrite map_length. exact (R r0 H). Qed.
Lemma entry_map {A B} (g : A -> B) m c f : entry (map (map g) m) c f = option_map g (entry m c f).
Proof. unfold entry. rewrite nth_error_map. destruct (nth_error m c); [|reflexivity]. cbn. apply nth_error_map. Qed.
Lemma rect_zip {A} (g : A -> A -> A) C F a b : rect C F a -> rect C F b -> rect C F (zip (zip g) a b).
Proof.
  intros [L R] [L' R']. split; [rewrite zip_length; lia|]. intros r Hr. apply In_nth_error in Hr. destruct Hr as (i & Hi). rewrite zip_nth in Hi.
  destruct (nth_error a i) as [ra|] eqn:Ea; [|discriminate]. destruct (nth_error b i) as [rb|] eqn:Eb; [|discriminate]. injection Hi as <-.
  rewrite zip_length. rewrite (R _ (nth_error_In _ _ Ea)), (R' _ (nth_error_In _ _ Eb)). lia.
Qed.
Lemma entry_zip {A} (g : A -> A -> A) a b c f u v : entry a c f = Some u -> entry b c f = Some v -> entry (zip (zip g) a b) c f = Some (g u v).
Proof.
  unfold entry. rewrite zip_nth. destruct (nth_error a c) as [ra|]; [|discriminate]. destruct (nth_error b c) as [rb|]; [|discriminate].
  intros E1 E2. rewrite zip_nth, E1, E2. reflexivity.
Qed.
Lemma fold_zip C F t : forall w, rect C F w -> (forall u, In u t -> rect C F u) ->
  rect C F (fold_left (zip (zip Qplus)) t w) /\
  forall c f, (c < C)%nat -> (f < F)%nat -> exists a vs s, entry w c f = Some a /\ Forall2 (fun u v => entry u c f = Some v) t vs /\
    entry (fold_left (zip (zip Qplus)) t w) c f = Some s /\ (s == a + sum vs)%Q.
Proof.
  induction t as [|u t IH]; intros w W T.
  - split; [exact W|]. intros c f Hc Hf. destruct (rect_entry _ _ _ _ _ W Hc Hf) as (a & Ha). exists a, [], a. repeat (split; [assumption || constructor|]). cbn. ring.
  - cbn [fold_left]. assert (U : rect C F u) by (apply T; left; reflexivity).
    destruct (IH _ (rect_zip Qplus _ _ _ _ W U)) as [R E]; [intros; apply T; right; assumption|]. split; [exact R|].
    intros c f Hc Hf. destruct (E c f Hc Hf) as (a & vs & s & A & V & S & Q). destruct (rect_entry _ _ _ _ _ W Hc Hf) as (aw & Ha).
    destruct (rect_entry _ _ _ _ _ U Hc Hf) as (au & Hu). rewrite (entry_zip _ _ _ _ _ _ _ Ha Hu) in A. injection A as <-.
    exists aw, (au :: vs), s. split; [exact Ha|]. split; [constructor; assumption|]. split; [exact S|]. change (sum (au :: vs)) with (au + sum vs)%Q. rewrite Q. ring.
Qed.
Lemma Forall2_map_entry (cabs : cq -> Q) ws c f : forall vs, Forall2 (fun u v => entry u c f = Some v) (map (map (map cabs)) ws) vs ->
  exists zs, Forall2 (fun u z => entry u c f = Some z) ws zs /\ vs = map cabs zs.
Proof.
  induction ws as [|w ws IH]; intros vs H; inversion H as [|? ? ? ? E T]; subst; [exists []; split; [constructor|reflexivity]|].
  destruct (IH _ T) as (zs & Z & ->). rewrite entry_map in E. destruct (entry w c f) as [z|] eqn:Ez; [|discriminate]. injection E as <-.
  exists (z :: zs). split; [constructor; assumption|reflexivity].
Qed.
Lemma mean_amplitude_spec cabs C F ws : ws <> [] -> (forall u, In u ws -> rect C F u) -> exists m, mean_amplitude cabs ws = Some m /\ rect C F m /\
  forall c f v, entry m c f = Some v -> exists zs, Forall2 (fun u z => entry u c f = Some z) ws zs /\
    (v == sum (map cabs zs) / inject_Z (Z.of_nat (length ws)))%Q.
Proof.
  intros N R. destruct ws as [|w t]; [congruence|]. unfold mean_amplitude. cbn [map].
  destruct (fold_zip C F (map (map (map cabs)) t) (map (map cabs) w)) as [RR E].
  - apply rect_map, R. left; reflexivity.
  - intros u Hu. apply in_map_iff in Hu. destruct Hu as (u0 & <- & H). apply rect_map, R. right; exact H.
  - eexists. split; [reflexivity|]. split; [apply rect_map; exact RR|]. intros c f v Hv. rewrite entry_map in Hv.
    destruct (entry (fold_left _ _ _) c f) as [s|] eqn:Es; [|discriminate]. injection Hv as <-.
    assert (Hcf : (c < C)%nat /\ (f < F)%nat).
    { unfold entry in Es. destruct (nth_error _ c) as [r|] eqn:Er; [|discriminate]. split.
      - rewrite <- (proj1 RR). apply nth_error_Some. congruence.
      - rewrite <- (proj2 RR r (nth_error_In _ _ Er)). apply nth_error_Some. congruence. }
    destruct (E c f (proj1 Hcf) (proj2 Hcf)) as (a & vs & s' & A & V & S & Q). rewrite Es in S. injection S as <-.
    destruct (Forall2_map_entry cabs (w :: t) c f (a :: vs)) as (zs & Z & EQ); [constructor; assumption|].
    exists zs. split; [exact Z|]. rewrite <- EQ. change (sum (a :: vs)) with (a + sum vs)%Q. rewrite Q. reflexivity.
Qed.
(** windows picked by position *)
Lemma pick_windows_spec (x : list (list (list cq))) is : (forall i, In i is -> 0 <= i < Z.of_nat (length x)) ->
  exists ws, pick_windows x is = Ok ws /\ Forall2 (fun i u => nth_error x (Z.to_nat i) = Some u) is ws.
Proof.
  intros H. unfold pick_windows. destruct (mapM_total (fun i => match py_nth x i with Some w => Ok w | None => Err IndexError end) is) as (ws & E).
  - intros i Hi. rewrite py_nth_nat by (apply H in Hi; lia). destruct (nth_error x (Z.to_nat i)) as [w|] eqn:E; [eauto|]. apply nth_error_None in E. apply H in Hi. lia.
  - exists ws. split; [exact E|]. apply mapM_ok in E. assert (P : forall i, In i is -> 0 <= i) by (intros i Hi; apply H in Hi; lia). clear H.
    induction E as [|i u is ws Ei E IH]; constructor; [|apply IH; intros; apply P; right; assumption].
    rewrite py_nth_nat in Ei by (apply P; left; reflexivity). destruct (nth_error x (Z.to_nat i)); congruence.
Qed.
Lemma mean_of_windows cabs (x ws : list (list (list cq))) is C F : shaped x C F -> is <> [] ->
  Forall2 (fun i u => nth_error x (Z.to_nat i) = Some u) is ws ->
  exists m, mean_amplitude cabs ws = Some m /\ rect C F m /\ forall c f v, entry m c f = Some v -> mean_modulus cabs x (map Z.to_nat is) c f v.
Proof.
  intros S N P. assert (L := Forall2_length' _ _ _ P). destruct (mean_amplitude_spec cabs C F ws) as (m & M & R & E).
  - intros ->. destruct is; [congruence|discriminate L].
  - intros u Hu. clear -S P Hu. induction P as [|i v is ws Ei P IH]; [contradiction|]. destruct Hu as [->|Hu]; [|exact (IH Hu)]. apply S. exact (nth_error_In _ _ Ei).
  - exists m. split; [exact M|]. split; [exact R|]. intros c f v Hv. destruct (E c f v Hv) as (zs & Z & Q). split; [destruct is; [congruence|discriminate]|].
    exists zs. split; [|rewrite map_length, L; exact Q]. clear -P Z. revert zs Z. induction P as [|i u is ws Ei P IH]; intros zs Z; inversion Z; subst; cbn [map]; constructor.
    + unfold coef. rewrite Ei. assumption.
    + apply IH. assumption.
Qed.

(** ** one curve *)
Section Curve.
  Variables (lttbc : list Q -> list Q -> Z -> res (list Q * list Q)) (ycast : Q -> Q).
  Hypothesis P : picks_points lttbc.
  Lemma take_freqs (freqs : list Q) ps : (forall p, In p ps -> (p < length freqs)%nat) ->
    mapM (fun i => match py_nth freqs i with Some f => Ok f | None => Err IndexError end) (map Z.of_nat ps) = Ok (map (fun p => nth p freqs 0%Q) ps).
  Proof.
    induction ps as [|p ps IH]; intros H; [reflexivity|]. cbn [map mapM]. rewrite py_nth_nat by lia. rewrite Nat2Z.id.
    rewrite (nth_error_nth' _ 0%Q) by (apply H; left; reflexivity). cbn [bind]. rewrite IH by (intros; apply H; right; assumption). reflexivity.
  Qed.
  Lemma all_points (data : list Q) : map (fun p => nth p data 0%Q) (seq 0 (length data)) = data.
  Proof.
    apply nth_error_ext'. intros i. rewrite nth_error_map. destruct (Nat.lt_ge_cases i (length data)) as [I|I].
    - rewrite (nth_error_nth' _ 0%nat) by (rewrite seq_length; exact I). rewrite seq_nth by exact I. cbn [option_map plus]. symmetry. apply nth_error_nth'. exact I.
    - rewrite (proj2 (nth_error_None _ _)) by (rewrite seq_length; exact I). symmetry. apply nth_error_None. exact I.
  Qed.
  Lemma lttb_points data max_pts : limit_ok max_pts (length data) -> Z.of_nat (length data) <= 2 ^ 24 ->
    exists ps conv, points ycast max_pts (length data) ps conv /\ (forall p, In p ps -> (p < length data)%nat) /\
      apply_lttb b32 lttbc ycast data max_pts = Ok (map Z.of_nat ps, map (fun p => conv (nth p data 0%Q)) ps).
  Proof.
    intros K N. assert (ALL : forall p, In p (seq 0 (length data)) -> (p < length data)%nat) by (intros p Hp; apply in_seq in Hp; lia).
    destruct max_pts as [k|].
    - cbn [points limit_ok] in *. destruct (Z.leb_spec (Z.of_nat (length data)) k) as [L|L].
      + exists (seq 0 (length data)), (fun v => v). split; [split; reflexivity|]. split; [exact ALL|]. unfold apply_lttb, lttb_downsample.
        rewrite arange_length, Nat2Z.id, Nat.eqb_refl. cbn [negb]. replace (k >=? Z.of_nat (length data)) with true by lia. rewrite all_points.
        unfold arange. rewrite Nat2Z.id. reflexivity.
      + destruct (lttb_spec lttbc ycast data k P ltac:(lia)) as (ps & C & R). exists ps, (fun v => ycast (b32 v)). split; [split; [exact C|reflexivity]|].
        assert (I := C). destruct I as (_ & _ & _ & _ & I). split; [exact I|]. rewrite R. f_equal. f_equal. apply map_ext_in. intros p Hp. specialize (I p Hp).
        apply trunc_int, b32_int. lia.
    - exists (seq 0 (length data)), (fun v => v). split; [split; reflexivity|]. split; [exact ALL|]. rewrite lttb_none, all_points. reflexivity.
  Qed.
  (** the curves of one stack *)
  Lemma add_stack_spec cabs (x ws : list (list (list cq))) is C freqs lg colour max_pts : shaped x C (length freqs) -> is <> [] ->
    Forall2 (fun i u => nth_error x (Z.to_nat i) = Some u) is ws -> limit_ok max_pts (length freqs) -> Z.of_nat (length freqs) <= 2 ^ 24 ->
    exists ts, add_stack_data b32 lttbc ycast freqs (stack_rows cabs x ws) lg colour max_pts = Ok ts /\ length ts = C /\
      forall c t, nth_error ts c = Some t -> tr_row t = Z.of_nat c + 1 /\ tr_legend t = lg /\ tr_colour t = colour /\
        tr_show t = Nat.eqb c 0 /\ shows cabs ycast max_pts x (map Z.to_nat is) c freqs t.
  Proof.
    intros S N PW K B. destruct (mean_of_windows cabs x ws is C (length freqs) S N PW) as (m & M & [RL RR] & E).
    unfold add_stack_data, stack_rows. rewrite M, map_length, RL.
    assert (T : forall c row, nth_error m c = Some row -> exists t, stack_trace b32 lttbc ycast freqs lg colour max_pts (Z.of_nat c) (Some row) = Ok t /\
      tr_row t = Z.of_nat c + 1 /\ tr_legend t = lg /\ tr_colour t = colour /\ tr_show t = Nat.eqb c 0 /\ shows cabs ycast max_pts x (map Z.to_nat is) c freqs t).
    { intros c row Hc. assert (LR := RR row (nth_error_In _ _ Hc)). destruct (lttb_points row max_pts) as (ps & conv & PT & I & AL); [rewrite LR; assumption..|].
      unfold stack_trace. rewrite AL. cbn [bind]. rewrite LR in *. rewrite take_freqs by exact I. cbn [bind]. eexists. split; [reflexivity|]. cbn.
      split; [reflexivity|]. split; [reflexivity|]. split; [reflexivity|]. split; [destruct c; reflexivity|]. exists ps, conv, row. split; [exact PT|]. split; [exact LR|]. split; [|split; reflexivity].
      intros f v Hv. apply E. unfold entry. rewrite Hc. exact Hv. }
    destruct (mapM_total (fun ir : Z * option (list Q) => stack_trace b32 lttbc ycast freqs lg colour max_pts (fst ir) (snd ir))
       (combine (arange (Z.of_nat C)) (map Some m))) as (ts & Hts).
    - intros [i row] Hi. apply In_nth_error in Hi. destruct Hi as (c & Hc). apply (proj1 (nth_combine _ _ _ _ _)) in Hc. destruct Hc as [Hc1 Hc2].
      rewrite nth_error_map in Hc2. destruct (nth_error m c) as [r|] eqn:Er; [|discriminate]. injection Hc2 as <-.
      assert (c < C)%nat by (rewrite <- RL; apply nth_error_Some; congruence). rewrite arange_nth in Hc1 by lia. injection Hc1 as <-.
      destruct (T c r Er) as (t & Ht & _). eauto.
    - exists ts. split; [exact Hts|]. split; [rewrite (mapM_length _ _ _ Hts), combine_length, arange_length, map_length, RL; lia|].
      intros c t Ht. assert (HC : (c < C)%nat).
      { replace C with (length ts) by (rewrite (mapM_length _ _ _ Hts), combine_length, arange_length, map_length, RL; lia). apply nth_error_Some. congruence. }
      destruct (nth_error m c) as [r|] eqn:Er; [|apply nth_error_None in Er; lia].
      destruct (mapM_nth _ _ _ c (Z.of_nat c, Some r) Hts) as (t' & Ht' & Hf).
      { apply nth_combine. rewrite arange_nth by lia. rewrite nth_error_map, Er. split; reflexivity. }
      rewrite Ht in Ht'. injection Ht' as <-. destruct (T c r Er) as (t' & A & B'). cbn [fst snd] in Hf. rewrite A in Hf. injection Hf as ->. exact B'.
  Qed.
End Curve.

(** ** groups of windows *)
Lemma sorted_arange n : StronglySorted Z.lt (arange n).
Proof.
  unfold arange. generalize 0%nat. induction (Z.to_nat n) as [|k IH]; intros b; cbn; constructor; [apply IH|].
  apply Forall_forall. intros y Hy. apply in_map_iff in Hy. destruct Hy as (j & <- & Hj). apply in_seq in Hj. lia.
Qed.
Lemma sorted_filter_fst {B} (p : Z * B -> bool) l : StronglySorted Z.lt (map fst l) -> StronglySorted Z.lt (map fst (filter p l)).
Proof.
  induction l as [|a t IH]; intros H; [constructor|]. cbn [map] in H. inversion H as [|? ? S F]; subst. cbn [filter]. destruct (p a); [|exact (IH S)].
  cbn [map]. constructor; [exact (IH S)|]. rewrite Forall_forall in *. intros y Hy. apply F. apply in_map_iff in Hy. destruct Hy as (z & <- & Hz).
  apply filter_In in Hz. apply in_map. exact (proj1 Hz).
Qed.
Lemma map_fst_combine {A B} (a : list A) : forall (b : list B), length a = length b -> map fst (combine a b) = a.
Proof. induction a as [|x a IH]; intros [|y b] H; [reflexivity|discriminate|discriminate|]. cbn. f_equal. apply IH. injection H as H. exact H. Qed.
Lemma sorted_last l : forall d, StronglySorted Z.le l -> (forall t, In t l -> t <= last l d) /\ (l <> [] -> In (last l d) l).
Proof.
  induction l as [|a t IH]; intros d H; [split; [contradiction|congruence]|]. inversion H as [|? ? S F]; subst. destruct (IH d S) as [A B].
  destruct t as [|b t]; [cbn; split; [intros t [<-|[]]; lia|intros _; left; reflexivity]|].
  change (last (a :: b :: t) d) with (last (b :: t) d). split; [|intros _; right; apply B; discriminate].
  intros u [<-|Hu]; [|exact (A u Hu)]. rewrite Forall_forall in F. apply F. apply B. discriminate.
Qed.
Lemma floor_day_midnight t : midnight_before t (t / day_ns * day_ns).
Proof.
  unfold midnight_before, day_ns. split; [eexists; reflexivity|]. assert (H := Z.div_mod t 86400000000000). assert (M := Z.mod_pos_bound t 86400000000000). lia.
Qed.
Lemma members_in e freq times k : In k (map fst (filter (fun kt : Z * Z => (e <=? snd kt) && (snd kt <? e + freq)) (combine (arange (Z.of_nat (length times))) times))) <->
  0 <= k /\ exists t, nth_error times (Z.to_nat k) = Some t /\ e <= t < e + freq.
Proof.
  rewrite in_map_iff. split.
  - intros ([k' t] & <- & H). apply filter_In in H. destruct H as [H C]. cbn [fst snd] in *. apply In_nth_error in H. destruct H as (i & Hi).
    apply (proj1 (nth_combine _ _ _ _ _)) in Hi. destruct Hi as [Hi Ht]. assert (i < length times)%nat by (apply nth_error_Some; congruence).
    rewrite arange_nth in Hi by lia. injection Hi as <-. split; [lia|]. exists t. rewrite Nat2Z.id. split; [exact Ht|]. apply andb_true_iff in C. lia.
  - intros (K & t & Ht & C). exists (k, t). split; [reflexivity|]. apply filter_In. split; [|cbn [snd]; lia].
    apply nth_error_In with (Z.to_nat k). apply nth_combine. split; [|exact Ht]. assert (Z.to_nat k < length times)%nat by (apply nth_error_Some; congruence).
    rewrite arange_nth by lia. f_equal. lia.
Qed.
Lemma group_bins_spec freq offset times : 0 < freq -> times <> [] -> StronglySorted Z.le times ->
  exists groups, group_bins freq offset times = Ok groups /\ groups <> [] /\ consecutive_groups freq offset times groups /\ every_time_grouped times groups /\ no_group_after times groups.
Proof.
  intros F N S. unfold group_bins. destruct (Z.leb_spec freq 0) as [?|_]; [lia|]. destruct times as [|first rest] eqn:ET; [congruence|]. rewrite <- ET in *. cbv zeta.
  set (origin := first / day_ns * day_ns + offset). set (edge := first - (first - origin) mod freq). set (n := (last times first - edge) / freq + 1).
  assert (MB := Z.mod_pos_bound (first - origin) freq F). assert (HE : edge <= first < edge + freq) by (unfold edge; lia).
  destruct (sorted_last times first S) as [LM LI]. assert (FI : In first times) by (rewrite ET; left; reflexivity). assert (FL := LM first FI).
  assert (N1 : 1 <= n) by (unfold n; assert (0 <= (last times first - edge) / freq) by (apply Z.div_pos; lia); lia).
  assert (NTH : forall i g, nth_error (map (fun i => let e := edge + i * freq in (e, map fst (filter (fun kt : Z * Z => (e <=? snd kt) && (snd kt <? e + freq)) (combine (arange (Z.of_nat (length times))) times)))) (arange n)) i = Some g ->
     Z.of_nat i < n /\ g = let e := edge + Z.of_nat i * freq in (e, map fst (filter (fun kt : Z * Z => (e <=? snd kt) && (snd kt <? e + freq)) (combine (arange (Z.of_nat (length times))) times)))).
  { intros i g H. rewrite nth_error_map in H. destruct (nth_error (arange n) i) as [j|] eqn:Ej; [|discriminate].
    assert (I : (i < Z.to_nat n)%nat) by (rewrite <- arange_length; apply nth_error_Some; congruence). rewrite arange_nth in Ej by exact I. injection Ej as <-.
    split; [lia|]. injection H as <-. reflexivity. }
  eexists. split; [reflexivity|]. split; [|split; [|split]].
  - unfold arange. destruct (Z.to_nat n) as [|k] eqn:E; [lia|]. cbn. discriminate.
  - exists first, (first / day_ns * day_ns), edge. split; [rewrite ET; reflexivity|]. split; [apply floor_day_midnight|]. split.
    + exists ((first - origin) / freq). assert (D := Z.div_mod (first - origin) freq ltac:(lia)). fold origin. unfold edge.
      generalize dependent ((first - origin) / freq). generalize dependent ((first - origin) mod freq). intros r _ _ _ _ _ _ q D. lia.
    + split; [exact HE|]. intros i label ks H. destruct (NTH _ _ H) as (_ & G). cbv zeta in G. injection G as -> ->. split; [reflexivity|]. split.
      * apply sorted_filter_fst. rewrite map_fst_combine by (rewrite arange_length; lia). apply sorted_arange.
      * intros k. apply members_in.
  - intros k Hk. destruct (nth_error times k) as [t|] eqn:Et; [|apply nth_error_None in Et; lia]. assert (TI := nth_error_In _ _ Et).
    assert (FT : first <= t). { rewrite ET in S, TI. inversion S as [|? ? S' FA]; subst. destruct TI as [->|TI]; [lia|]. rewrite Forall_forall in FA. exact (FA _ TI). }
    set (i := (t - edge) / freq). assert (I0 : 0 <= i) by (apply Z.div_pos; lia).
    assert (I1 : i <= (last times first - edge) / freq) by (apply Z.div_le_mono; [lia|]; specialize (LM _ TI); lia).
    eexists. split; [apply in_map with (x := i); apply arange_in; unfold n; lia|]. cbn [snd]. apply members_in. split; [lia|]. exists t. rewrite Nat2Z.id. split; [exact Et|].
    assert (D := Z.div_mod (t - edge) freq ltac:(lia)). assert (M := Z.mod_pos_bound (t - edge) freq F). fold i in D. lia.
  - intros i label ks H. destruct (NTH _ _ H) as (I & G). cbv zeta in G. injection G as -> _. exists (last times first). split; [apply LI; exact N|].
    assert (Z.of_nat i <= (last times first - edge) / freq) by (unfold n in I; lia).
    assert (D := Z.mul_div_le (last times first - edge) freq F). nia.
Qed.

(** ** the figures *)
Section Figures.
  Variables (rnd : Q -> Q) (nt ndl : Q -> Z) (lttbc : list Q -> list Q -> Z -> res (list Q * list Q)) (ycast : Q -> Q) (cabs : cq -> Q).
  Hypothesis P : picks_points lttbc.
  Lemma seq_windows (x : list (list (list cq))) : Forall2 (fun i u => nth_error x (Z.to_nat i) = Some u) (map Z.of_nat (seq 0 (length x))) x.
  Proof.
    assert (G : forall pre t, x = pre ++ t -> Forall2 (fun i u => nth_error x (Z.to_nat i) = Some u) (map Z.of_nat (seq (length pre) (length t))) t).
    { intros pre t. revert pre. induction t as [|a t IH]; intros pre E; cbn; constructor.
      - rewrite Nat2Z.id, E, nth_error_app2, Nat.sub_diag by lia. reflexivity.
      - replace (S (length pre)) with (length (pre ++ [a])) by (rewrite app_length; cbn; lia). apply IH. rewrite E, <- app_assoc. reflexivity. }
    exact (G [] x eq_refl).
  Qed.
  Lemma plot_level_spec d max_pts l m x : l < 10 -> spectra_level d l m x -> limit_ok max_pts (length (sl_freqs m)) ->
    exists ts, plot_level b32 lttbc ycast cabs d max_pts l = Ok ts /\ length ts = length (sm_chans (sd_md d)) /\
      forall c t, nth_error ts c = Some t -> tr_row t = Z.of_nat c + 1 /\ tr_legend t = LLevel l (sl_fs m) /\ tr_colour t = l /\
        tr_show t = Nat.eqb c 0 /\ shows cabs ycast max_pts x (seq 0 (length x)) c (sl_freqs m) t.
  Proof.
    intros L10 (L & M & A & NW & S & NE & B) K. unfold plot_level. rewrite (proj2 (level_md_nth d l m ltac:(lia)) M). cbn [bind]. rewrite A. cbn [bind].
    rewrite three_nd3. cbn [bind]. unfold next_colour, n_colours. destruct (Z.ltb_spec l 10); [|lia]. cbn [bind].
    destruct (add_stack_spec lttbc ycast P cabs x x (map Z.of_nat (seq 0 (length x))) _ (sl_freqs m) (LLevel l (sl_fs m)) l max_pts S) as (ts & T & LT & E).
    - destruct x; [congruence|discriminate].
    - apply seq_windows.
    - exact K.
    - exact B.
    - exists ts. split; [exact T|]. split; [exact LT|]. intros c t Ht. destruct (E c t Ht) as (E1 & E2 & E3 & E4 & E5). repeat (split; [assumption|]).
      rewrite map_map in E5. rewrite (map_ext _ (fun i => i)), map_id in E5; [exact E5|]. intros i. apply Nat2Z.id.
  Qed.
  Lemma plot_spec d max_pts : sm_n_levels (sd_md d) <= 10 ->
    (forall l, 0 <= l < sm_n_levels (sd_md d) -> exists m x, spectra_level d l m x /\ limit_ok max_pts (length (sl_freqs m))) ->
    exists tss, plot b32 lttbc ycast cabs d max_pts = Ok (concat tss) /\ Z.of_nat (length tss) = Z.max 0 (sm_n_levels (sd_md d)) /\
      forall l ts m x, nth_error tss l = Some ts -> spectra_level d (Z.of_nat l) m x -> length ts = length (sm_chans (sd_md d)) /\
        forall c t, nth_error ts c = Some t -> tr_row t = Z.of_nat c + 1 /\ tr_legend t = LLevel (Z.of_nat l) (sl_fs m) /\ tr_colour t = Z.of_nat l /\
          tr_show t = Nat.eqb c 0 /\ shows cabs ycast max_pts x (seq 0 (length x)) c (sl_freqs m) t.
  Proof.
    intros N H. unfold plot. destruct (mapM_total (plot_level b32 lttbc ycast cabs d max_pts) (arange (sm_n_levels (sd_md d)))) as (tss & T).
    - intros l Hl. apply arange_in in Hl. destruct (H l Hl) as (m & x & S & K). destruct (plot_level_spec d max_pts l m x ltac:(lia) S K) as (ts & T & _). eauto.
    - exists tss. rewrite T. cbn [bind]. split; [reflexivity|]. split; [rewrite (mapM_length _ _ _ T), arange_length; lia|].
      intros l ts m x Hl S. assert (B := S). destruct B as (B & M & A & _). destruct (H _ B) as (m' & x' & S' & K). assert (B' := S'). destruct B' as (_ & M' & A' & _).
      rewrite M in M'. injection M' as <-.
      destruct (plot_level_spec d max_pts (Z.of_nat l) m x ltac:(lia) S K) as (ts' & T' & LT & E).
      destruct (mapM_nth _ _ _ l (Z.of_nat l) T) as (ts2 & H2 & E2); [apply arange_nth; lia|]. rewrite Hl in H2. injection H2 as <-. rewrite T' in E2. injection E2 as ->.
      split; [exact LT|exact E].
  Qed.
  Lemma mapM_first_err {A B} (f : A -> res B) l1 a l2 e : (forall b, In b l1 -> exists y, f b = Ok y) -> f a = Err e -> mapM f (l1 ++ a :: l2) = Err e.
  Proof.
    induction l1 as [|b l1 IH]; intros H E; cbn [app mapM]; [rewrite E; reflexivity|]. destruct (H b (or_introl eq_refl)) as (y & ->). cbn [bind].
    rewrite IH; [reflexivity|intros; apply H; right; assumption|exact E].
  Qed.
  Lemma arange_split n k : 0 <= k < n -> exists l2, arange n = arange k ++ k :: l2.
  Proof.
    intros H. exists (map Z.of_nat (seq (S (Z.to_nat k)) (Z.to_nat n - S (Z.to_nat k)))). unfold arange. rewrite <- (Z2Nat.id k) at 2 by lia.
    change (Z.of_nat (Z.to_nat k) :: map Z.of_nat (seq (S (Z.to_nat k)) (Z.to_nat n - S (Z.to_nat k)))) with (map Z.of_nat (seq (Z.to_nat k) (S (Z.to_nat n - S (Z.to_nat k))))).
    rewrite <- map_app. replace (seq (Z.to_nat k)) with (seq (0 + Z.to_nat k)) by reflexivity. rewrite <- seq_app. do 2 f_equal. lia.
  Qed.
  Lemma plot_many_levels d max_pts : 10 < sm_n_levels (sd_md d) ->
    (forall l, 0 <= l < sm_n_levels (sd_md d) -> exists m x, spectra_level d l m x /\ limit_ok max_pts (length (sl_freqs m))) ->
    plot b32 lttbc ycast cabs d max_pts = Err StopIteration.
  Proof.
    intros N H. unfold plot. destruct (arange_split (sm_n_levels (sd_md d)) 10 ltac:(lia)) as (l2 & ->). rewrite (mapM_first_err _ _ _ _ StopIteration); [reflexivity| |].
    - intros l Hl. apply arange_in in Hl. destruct (H l ltac:(lia)) as (m & x & S & K). destruct (plot_level_spec d max_pts l m x ltac:(lia) S K) as (ts & T & _). eauto.
    - destruct (H 10 ltac:(lia)) as (m & x & (L & M & A & _) & _). unfold plot_level. rewrite (proj2 (level_md_nth d 10 m ltac:(lia)) M). cbn [bind]. rewrite A. cbn [bind].
      rewrite three_nd3. reflexivity.
  Qed.
  Lemma timestamps_length {A} (d : spec_data A) l m times : 0 <= l -> nth_error (sm_levels (sd_md d)) (Z.to_nat l) = Some m ->
    sd_get_timestamps rnd nt ndl d l = Ok times -> Z.of_nat (length times) = sl_n_wins m.
  Proof.
    intros L M H. unfold sd_get_timestamps in H. destruct (_ >=? _); [discriminate|]. rewrite (proj2 (level_md_nth d l m L) M) in H. cbn [bind] in H.
    unfold get_win_starts in H. destruct (Qeq_bool (sl_fs m) 0); [discriminate|]. cbv zeta in H. destruct (_ =? 0); [discriminate|].
    unfold datetime_array_estimate in H. destruct (Qeq_bool _ 0); [discriminate|]. destruct (Z.ltb_spec (sl_n_wins m) 0); [discriminate|]. injection H as <-.
    rewrite map_length, arange_length. lia.
  Qed.
  Lemma groups_in_range times groups freq offset label ks : consecutive_groups freq offset times groups -> In (label, ks) groups ->
    forall k, In k ks -> 0 <= k < Z.of_nat (length times).
  Proof.
    intros (first & mid & e & _ & _ & _ & _ & H) I k Hk. apply In_nth_error in I. destruct I as (i & Hi). destruct (H _ _ _ Hi) as (_ & _ & M). apply (proj1 (M k)) in Hk.
    destruct Hk as (K & t & Ht & _). split; [exact K|]. assert (Z.to_nat k < length times)%nat by (apply nth_error_Some; congruence). lia.
  Qed.
  Lemma rows_none (freqs : list Q) lg colour max_pts n : exists ts,
    add_stack_data b32 lttbc ycast freqs (map (fun _ : list cq => None) n) lg colour max_pts = Ok ts /\ length ts = length n /\
    forall c t, nth_error ts c = Some t -> tr_row t = Z.of_nat c + 1 /\ tr_legend t = lg /\ tr_colour t = colour /\ tr_show t = Nat.eqb c 0 /\ tr_x t = freqs /\ tr_y t = None.
  Proof.
    unfold add_stack_data. rewrite map_length. assert (C : forall c r, nth_error (combine (arange (Z.of_nat (length n))) (map (fun _ : list cq => @None (list Q)) n)) c = Some r -> r = (Z.of_nat c, None)).
    { intros c [i r] H. apply (proj1 (nth_combine _ _ _ _ _)) in H. destruct H as [H1 H2]. assert (c < length n)%nat by (rewrite <- (map_length (fun _ : list cq => @None (list Q))); apply nth_error_Some; congruence).
      rewrite arange_nth in H1 by lia. injection H1 as <-. rewrite nth_error_map in H2. destruct (nth_error n c); [|discriminate]. injection H2 as <-. reflexivity. }
    match goal with |- context [mapM ?f ?l] => destruct (mapM_total f l) as (ts & T) end.
    - intros r Hr. apply In_nth_error in Hr. destruct Hr as (c & Hc). rewrite (C _ _ Hc). eexists. reflexivity.
    - exists ts. split; [exact T|]. assert (LT : length ts = length n) by (rewrite (mapM_length _ _ _ T), combine_length, arange_length, map_length; lia). split; [exact LT|].
      intros c t Ht. destruct (nth_error (combine (arange (Z.of_nat (length n))) (map (fun _ : list cq => @None (list Q)) n)) c) as [r|] eqn:Er.
      + destruct (mapM_nth _ _ _ _ _ T Er) as (t' & Ht' & E). rewrite Ht in Ht'. injection Ht' as <-. rewrite (C _ _ Er) in E. cbn in E. injection E as <-.
        cbn. repeat (split; [reflexivity|]). split; [destruct c; reflexivity|]. split; reflexivity.
      + apply nth_error_None in Er. rewrite combine_length, arange_length, map_length in Er. assert (c < length ts)%nat by (apply nth_error_Some; congruence). lia.
  Qed.

  Lemma ceil_day_spec t : (exists q, ceil_day t = q * 86400000000000) /\ ceil_day t - 86400000000000 < t <= ceil_day t.
  Proof.
    unfold ceil_day, day_ns. split; [eexists; reflexivity|]. assert (D := Z.div_mod (- t) 86400000000000). assert (M := Z.mod_pos_bound (- t) 86400000000000). lia.
  Qed.
  Lemma midnight_unique t a b : midnight_before t a -> midnight_before t b -> a = b.
  Proof. intros [[p ->] A] [[q ->] B]. lia. Qed.
  Lemma stack_len_eq d grouping freq : stack_len nt d grouping freq ->
    match grouping with Some g => g | None => ceil_day (nt (sm_last (sd_md d))) - floor_day (nt (sm_first (sd_md d))) end = freq.
  Proof.
    destruct grouping as [g|]; cbn; [congruence|]. intros (a & b & A & [q ->] & B & ->). rewrite (midnight_unique _ _ _ A (floor_day_midnight _)).
    fold (floor_day (nt (sm_first (sd_md d)))). destruct (ceil_day_spec (nt (sm_last (sd_md d)))) as [[q' E] C]. rewrite E in *. f_equal. lia.
  Qed.
  Lemma level_stack_spec d level max_pts grouping offset freq m x times : stack_len nt d grouping freq -> 0 < freq ->
    spectra_level d level m x -> limit_ok max_pts (length (sl_freqs m)) ->
    sd_get_timestamps rnd nt ndl d level = Ok times -> StronglySorted Z.le times ->
    exists groups, groups <> [] /\ consecutive_groups freq offset times groups /\ every_time_grouped times groups /\ no_group_after times groups /\
      ((10 < length groups)%nat -> plot_level_stack rnd nt ndl b32 lttbc ycast cabs d level max_pts grouping offset = Err StopIteration) /\
      ((length groups <= 10)%nat -> exists tss, plot_level_stack rnd nt ndl b32 lttbc ycast cabs d level max_pts grouping offset = Ok (concat tss) /\
         length tss = length groups /\
         forall i label ks ts, nth_error groups i = Some (label, ks) -> nth_error tss i = Some ts -> length ts = length (sm_chans (sd_md d)) /\
           forall c t, nth_error ts c = Some t -> tr_row t = Z.of_nat c + 1 /\ tr_legend t = LTime label /\ tr_colour t = Z.of_nat i /\ tr_show t = Nat.eqb c 0 /\
             (ks <> [] -> shows cabs ycast max_pts x (map Z.to_nat ks) c (sl_freqs m) t) /\ (ks = [] -> tr_y t = None)).
  Proof.
    intros SL F SP K T ST. assert (SP' := SP). destruct SP' as (L & M & A & NW & S & NE & B).
    assert (TL := timestamps_length d level m times ltac:(lia) M T).
    destruct (group_bins_spec freq offset times F) as (groups & G & NG & CG & EG & AG); [intros ->; cbn in TL; destruct x; [congruence|cbn in NW; lia]|exact ST|].
    exists groups. split; [exact NG|]. split; [exact CG|]. split; [exact EG|]. split; [exact AG|].
    unfold plot_level_stack. cbv zeta. rewrite (stack_len_eq d grouping freq SL). rewrite (proj2 (level_md_nth d level m ltac:(lia)) M). cbn [bind]. rewrite T. cbn [bind]. rewrite G. cbn [bind].
    set (f := fun kg : Z * (Z * list Z) => _).
    assert (FK : forall k label ks, In (label, ks) groups -> k < 10 -> exists ts, f (k, (label, ks)) = Ok ts /\ length ts = length (sm_chans (sd_md d)) /\
      forall c t, nth_error ts c = Some t -> tr_row t = Z.of_nat c + 1 /\ tr_legend t = LTime label /\ tr_colour t = k /\ tr_show t = Nat.eqb c 0 /\
             (ks <> [] -> shows cabs ycast max_pts x (map Z.to_nat ks) c (sl_freqs m) t) /\ (ks = [] -> tr_y t = None)).
    { intros k label ks I Hk. unfold f. cbn [fst snd]. rewrite A. cbn [bind]. rewrite three_nd3. cbn [bind].
      destruct (pick_windows_spec x ks) as (ws & W & PW); [intros i Hi; rewrite NW, <- TL; exact (groups_in_range _ _ _ _ _ _ CG I i Hi)|]. rewrite W. cbn [bind].
      unfold next_colour, n_colours. destruct (Z.ltb_spec k 10); [|lia]. cbn [bind]. destruct ks as [|k0 ks0] eqn:EK.
      - inversion PW; subst ws. unfold stack_rows, mean_amplitude. cbn [map]. destruct x as [|w x']; [congruence|].
        destruct (rows_none (sl_freqs m) (LTime label) k max_pts w) as (ts & E1 & E2 & E3). exists ts. split; [exact E1|].
        split; [rewrite E2; apply S; left; reflexivity|]. intros c t Ht. destruct (E3 c t Ht) as (H1 & H2 & H3 & H4 & H5 & H6). repeat (split; [assumption|]). split; [congruence|]. intros _. exact H6.
      - rewrite <- EK in *. assert (KN : ks <> []) by (rewrite EK; discriminate).
        destruct (add_stack_spec lttbc ycast P cabs x ws ks _ (sl_freqs m) (LTime label) k max_pts S KN PW K B) as (ts & E1 & E2 & E3). exists ts. split; [exact E1|]. split; [exact E2|].
        intros c t Ht. destruct (E3 c t Ht) as (H1 & H2 & H3 & H4 & H5). repeat (split; [assumption|]). split; [intros _; exact H5|congruence]. }
    assert (CN : forall i g, nth_error groups i = Some g -> nth_error (combine (arange (Z.of_nat (length groups))) groups) i = Some (Z.of_nat i, g)).
    { intros i g Hi. apply nth_combine. split; [|exact Hi]. assert (i < length groups)%nat by (apply nth_error_Some; congruence). rewrite arange_nth by lia. reflexivity. }
    assert (CI : forall k g, In (k, g) (combine (arange (Z.of_nat (length groups))) groups) -> In g groups /\ 0 <= k < Z.of_nat (length groups)).
    { intros k g H. split; [exact (in_combine_r _ _ _ _ H)|]. apply in_combine_l in H. apply arange_in in H. exact H. }
    split.
    - intros MANY. destruct (nth_error groups 10) as [[label ks]|] eqn:E10; [|apply nth_error_None in E10; lia]. assert (C10 := CN _ _ E10).
      apply nth_error_split in C10. destruct C10 as (l1 & l2 & EC & L1). rewrite EC. rewrite (mapM_first_err f l1 _ l2 StopIteration); [reflexivity| |].
      + intros [k [lb kk]] Hb. assert (Hk : k < 10).
        { apply In_nth_error in Hb. destruct Hb as (i & Hi). assert (I10 : (i < 10)%nat) by (rewrite <- L1; apply nth_error_Some; congruence).
          assert (Hi' : nth_error (combine (arange (Z.of_nat (length groups))) groups) i = Some (k, (lb, kk))) by (rewrite EC, nth_error_app1 by lia; exact Hi).
          apply (proj1 (nth_combine _ _ _ _ _)) in Hi'. destruct Hi' as [Hi' _]. rewrite arange_nth in Hi' by lia. injection Hi' as <-. lia. }
        assert (HI : In (k, (lb, kk)) (combine (arange (Z.of_nat (length groups))) groups)) by (rewrite EC; apply in_or_app; left; exact Hb).
        destruct (FK k lb kk (proj1 (CI _ _ HI)) Hk) as (ts & E & _). eauto.
      + unfold f. cbn [fst snd]. rewrite A. cbn [bind]. rewrite three_nd3. cbn [bind].
        destruct (pick_windows_spec x ks) as (ws & W & PW); [intros i Hi; rewrite NW, <- TL; exact (groups_in_range _ _ _ _ _ _ CG (nth_error_In _ _ E10) i Hi)|]. rewrite W. reflexivity.
    - intros FEW. destruct (mapM_total f (combine (arange (Z.of_nat (length groups))) groups)) as (tss & TS).
      + intros [k [lb kk]] H. destruct (CI _ _ H) as [H1 H2]. destruct (FK k lb kk H1 ltac:(lia)) as (ts & E & _). eauto.
      + exists tss. rewrite TS. cbn [bind]. split; [reflexivity|]. split; [rewrite (mapM_length _ _ _ TS), combine_length, arange_length; lia|].
        intros i label ks ts Hi Hts. assert (i < length groups)%nat by (apply nth_error_Some; congruence). destruct (mapM_nth _ _ _ _ _ TS (CN _ _ Hi)) as (ts' & H1 & H2). rewrite Hts in H1. injection H1 as <-.
        destruct (FK (Z.of_nat i) label ks (nth_error_In _ _ Hi) ltac:(lia)) as (ts' & E1 & E2). rewrite E1 in H2. injection H2 as ->. exact E2.
  Qed.
  (** the default grouping: one group with every window *)
  Lemma one_group first last freq times : covering_days first last freq -> (forall t, In t times -> first <= t < last) ->
    forall groups, groups <> [] -> consecutive_groups freq 0 times groups -> every_time_grouped times groups -> no_group_after times groups ->
    length groups = 1%nat.
  Proof.
    intros (a & b & A & [q ->] & B & ->) T groups NG (t0 & mid & e & F0 & MF & [p E] & FE & H) EG AG.
    assert (T0I := T t0 (nth_error_In _ _ F0)). destruct A as [[r ->] A]. destruct MF as [[s ->] MF].
    set (day := 86400000000000) in *. assert (DP : 0 < day) by reflexivity.
    assert (FL : day <= q * day - r * day) by nia. assert (SR : r <= s) by nia.
    assert (PZ : p = 0).
    { set (fr := q * day - r * day) in *. assert (FE' : e <= t0 < e + fr) by exact FE. rewrite E in FE'. replace (s * day + 0 + p * fr) with (s * day + p * fr) in FE' by lia. nia. }
    subst p. assert (e = s * day) by lia. subst e.
    destruct groups as [|g1 [|[lb ks] rest]]; [congruence|reflexivity|exfalso].
    destruct (H 1%nat lb ks eq_refl) as (LB & _). destruct (AG 1%nat lb ks eq_refl) as (t & TI & TL). specialize (T t TI). nia.
  Qed.
  Lemma default_stack_spec d level max_pts m x times : spectra_level d level m x -> limit_ok max_pts (length (sl_freqs m)) ->
    sd_get_timestamps rnd nt ndl d level = Ok times -> StronglySorted Z.le times ->
    (forall t, In t times -> nt (sm_first (sd_md d)) <= t < nt (sm_last (sd_md d))) ->
    exists ts label, plot_level_stack rnd nt ndl b32 lttbc ycast cabs d level max_pts None 0 = Ok ts /\ length ts = length (sm_chans (sd_md d)) /\
      forall c t, nth_error ts c = Some t -> tr_row t = Z.of_nat c + 1 /\ tr_legend t = LTime label /\
        shows cabs ycast max_pts x (seq 0 (length x)) c (sl_freqs m) t.
  Proof.
    intros SP K T ST IN. assert (SP' := SP). destruct SP' as (L & M & A & NW & S & NE & B).
    assert (TL := timestamps_length d level m times ltac:(lia) M T).
    set (first := nt (sm_first (sd_md d))) in *. set (lst := nt (sm_last (sd_md d))) in *.
    assert (CD : covering_days first lst (ceil_day lst - floor_day first)).
    { exists (floor_day first), (ceil_day lst). split; [apply floor_day_midnight|]. destruct (ceil_day_spec lst) as [E C]. split; [exact E|]. split; [exact C|reflexivity]. }
    assert (FL : first < lst). { destruct times as [|t0 tt]; [cbn in TL; destruct x; [congruence|cbn in NW; lia]|]. specialize (IN t0 (or_introl eq_refl)). lia. }
    assert (F0 : 0 < ceil_day lst - floor_day first).
    { destruct (ceil_day_spec lst) as [_ C]. destruct (floor_day_midnight first) as [_ D]. unfold floor_day. lia. }
    destruct (level_stack_spec d level max_pts None 0 _ m x times CD F0 SP K T ST) as (groups & NG & CG & EG & AG & _ & OK).
    assert (G1 := one_group _ _ _ _ CD IN groups NG CG EG AG). destruct (OK ltac:(lia)) as (tss & R & LT & E). rewrite G1 in LT.
    destruct tss as [|ts [|? ?]]; [discriminate|clear LT|discriminate]. destruct groups as [|[label ks] [|? ?]]; [discriminate|clear G1|discriminate].
    exists ts, label. cbn [concat] in R. rewrite app_nil_r in R. split; [exact R|]. destruct (E 0%nat label ks ts eq_refl eq_refl) as [LT E']. split; [exact LT|].
    assert (KS : ks = arange (Z.of_nat (length x))).
    { destruct CG as (f0 & mid & e & _ & _ & _ & _ & H). destruct (H 0%nat label ks eq_refl) as (_ & SS & MM). apply sorted_unique_z; [exact SS|apply sorted_arange|].
      intros k. rewrite arange_in. split.
      - intros HK. apply (proj1 (MM k)) in HK. destruct HK as (K0 & t & Ht & _). assert (Z.to_nat k < length times)%nat by (apply nth_error_Some; congruence). lia.
      - intros HK. destruct (EG (Z.to_nat k) ltac:(lia)) as (g & [<-|[]] & GK). cbn [snd] in GK. rewrite Z2Nat.id in GK by lia. exact GK. }
    intros c t Ht. destruct (E' c t Ht) as (E1 & E2 & _ & _ & E5 & _). split; [exact E1|]. split; [exact E2|].
    rewrite KS in E5. unfold arange in E5. rewrite Nat2Z.id, map_map in E5. rewrite (map_ext _ (fun i => i)), map_id in E5 by (intros i; apply Nat2Z.id).
    apply E5. destruct x; [congruence|discriminate].
  Qed.
End Figures.

(** ** sections *)
Lemma qmins_spec l : forall d, In (qmins l d) (d :: l) /\ forall v, In v (d :: l) -> (qmins l d <= v)%Q.
Proof.
  induction l as [|b l IH]; intros d; [cbn; split; [left; reflexivity|intros v [->|[]]; apply Qle_refl]|].
  unfold qmins. cbn [fold_left]. fold (qmins l (if Qltb b d then b else d)). destruct (IH (if Qltb b d then b else d)) as [A B]. destruct (Qltb b d) eqn:E.
  - apply Qltb_true in E. split; [destruct A as [A|A]; [right; left; exact A|right; right; exact A]|]. intros v [->|[->|H]]; [|apply B; left; reflexivity|apply B; right; exact H].
    apply Qle_trans with b; [apply B; left; reflexivity|apply Qlt_le_weak; exact E].
  - apply Qltb_false in E. split; [destruct A as [A|A]; [left; exact A|right; right; exact A]|]. intros v [->|[->|H]]; [apply B; left; reflexivity| |apply B; right; exact H].
    apply Qle_trans with d; [apply B; left; reflexivity|exact E].
Qed.
Lemma qmaxs_spec l : forall d, In (qmaxs l d) (d :: l) /\ forall v, In v (d :: l) -> (v <= qmaxs l d)%Q.
Proof.
  induction l as [|b l IH]; intros d; [cbn; split; [left; reflexivity|intros v [->|[]]; apply Qle_refl]|].
  unfold qmaxs. cbn [fold_left]. fold (qmaxs l (if Qltb d b then b else d)). destruct (IH (if Qltb d b then b else d)) as [A B]. destruct (Qltb d b) eqn:E.
  - apply Qltb_true in E. split; [destruct A as [A|A]; [right; left; exact A|right; right; exact A]|]. intros v [->|[->|H]]; [|apply B; left; reflexivity|apply B; right; exact H].
    apply Qle_trans with b; [apply Qlt_le_weak; exact E|apply B; left; reflexivity].
  - apply Qltb_false in E. split; [destruct A as [A|A]; [left; exact A|right; right; exact A]|]. intros v [->|[->|H]]; [apply B; left; reflexivity| |apply B; right; exact H].
    apply Qle_trans with d; [exact E|apply B; left; reflexivity].
Qed.
Lemma ceil_le_iff q k : qceil q <= k <-> (q <= inject_Z k)%Q.
Proof.
  destruct (qceil_spec q) as [A B]. split; intros H.
  - apply Qle_trans with (inject_Z (qceil q)); [exact B|]. rewrite <- Zle_Qle. exact H.
  - destruct (Z.le_gt_cases (qceil q) k) as [L|L]; [exact L|exfalso]. assert (C : (inject_Z k <= inject_Z (qceil q) - 1)%Q).
    { change 1%Q with (inject_Z 1). unfold Qminus. rewrite <- inject_Z_opp, <- inject_Z_plus, <- Zle_Qle. lia. } lra.
Qed.
Lemma floor_le_iff q k : k <= qfloor q <-> (inject_Z k <= q)%Q.
Proof.
  destruct (qfloor_spec q) as [A B]. split; intros H.
  - apply Qle_trans with (inject_Z (qfloor q)); [|exact A]. rewrite <- Zle_Qle. exact H.
  - destruct (Z.le_gt_cases k (qfloor q)) as [L|L]; [exact L|exfalso]. assert (C : (inject_Z (qfloor q) + 1 <= inject_Z k)%Q).
    { change 1%Q with (inject_Z 1). rewrite <- inject_Z_plus, <- Zle_Qle. lia. } lra.
Qed.
Section Sections.
  Variables (rnd : Q -> Q) (nt ndl : Q -> Z) (cabs : cq -> Q) (log10 : Q -> Q).
  (** one channel *)
  Lemma channel_section_spec (freqs : list Q) freq C (stacks : list (Z * option (list (list Q)))) idx : freqs <> [] -> stacks <> [] -> (idx < C)%nat ->
    (forall s, In s stacks -> exists m, snd s = Some m /\ rect C (length freqs) m /\ forall c f v, entry m c f = Some v -> (0 < v)%Q) ->
    exists h, channel_section log10 freqs freq stacks idx = Ok h /\ hm_row h = Z.of_nat idx + 1 /\ hm_y h = freqs /\ hm_x h = map (fun s => fst s + freq / 2) stacks /\
      length (hm_z h) = length freqs /\ (forall r, In r (hm_z h) -> length r = length stacks) /\
      (forall f g s m z, nth_error stacks g = Some s -> snd s = Some m -> cell_of (hm_z h) f g = Some z -> exists v, entry m idx f = Some v /\ z = log10 v) /\
      (forall k, In k (hm_ticks h) <-> (exists r z, In r (hm_z h) /\ In z r /\ z <= inject_Z k)%Q /\ (exists r z, In r (hm_z h) /\ In z r /\ inject_Z k <= z)%Q).
  Proof.
    intros NF NS HI H. unfold channel_section.
    match goal with |- context [mapM ?f stacks] => set (col := f) end.
    assert (CO : forall s m, In s stacks -> snd s = Some m -> exists r, nth_error m idx = Some r /\ length r = length freqs /\ col s = Ok (map Some r)).
    { intros s m Hs Em. destruct (H s Hs) as (m' & Em' & [R1 R2] & _). rewrite Em in Em'. injection Em' as <-. unfold col. rewrite Em.
      destruct (nth_error m idx) as [r|] eqn:Er; [|apply nth_error_None in Er; lia]. exists r. split; [reflexivity|]. split; [exact (R2 r (nth_error_In _ _ Er))|]. rewrite (R2 r (nth_error_In _ _ Er)), Nat.eqb_refl. reflexivity. }
    destruct (mapM_total col stacks) as (cols & EC).
    { intros s Hs. destruct (H s Hs) as (m & Em & _). destruct (CO s m Hs Em) as (r & _ & _ & E). eauto. }
    rewrite EC. cbn [bind]. set (row := fun i => mapM (fun c : list (option Q) => log_value log10 (nth i c None)) cols).
    assert (LC := mapM_length _ _ _ EC).
    (* every cell *)
    assert (CELL : forall i c, (i < length freqs)%nat -> In c cols -> exists v, nth i c None = Some v /\ (0 < v)%Q).
    { intros i c Hi Hc. apply In_nth_error in Hc. destruct Hc as (g & Hg). apply mapM_ok in EC. destruct (nth_error stacks g) as [s|] eqn:Es; [|apply nth_error_None in Es; assert (g < length cols)%nat by (apply nth_error_Some; congruence); lia].
      destruct (Forall2_nth_error _ _ _ _ _ EC Es) as (c' & Hc' & Ec). rewrite Hg in Hc'. injection Hc' as <-. destruct (H s (nth_error_In _ _ Es)) as (m & Em & _ & POS).
      destruct (CO s m (nth_error_In _ _ Es) Em) as (r & Hr & Lr & E). rewrite Ec in E. injection E as ->.
      exists (nth i r 0%Q). split.
      - rewrite nth_indep with (d' := Some 0%Q) by (rewrite map_length; lia). apply List.map_nth.
      - apply (POS idx i). unfold entry. rewrite Hr. apply nth_error_nth'. lia. }
    destruct (mapM_total row (seq 0 (length freqs))) as (z & EZ).
    { intros i Hi. apply in_seq in Hi. unfold row. apply mapM_total. intros c Hc. destruct (CELL i c ltac:(lia) Hc) as (v & -> & PV). unfold log_value.
      destruct (Qltb 0 v) eqn:E; [eauto|]. apply Qltb_false in E. exfalso. lra. }
    rewrite EZ. cbn [bind]. assert (LZ := mapM_length _ _ _ EZ). rewrite seq_length in LZ.
    assert (ROW : forall f r, nth_error z f = Some r -> row f = Ok r).
    { intros f r Hf. assert (I : (f < length freqs)%nat) by (rewrite <- LZ; apply nth_error_Some; congruence). destruct (mapM_nth _ _ _ f f EZ) as (r' & Hr' & E).
      - rewrite (nth_error_nth' _ 0%nat) by (rewrite seq_length; exact I). rewrite seq_nth by exact I. reflexivity.
      - congruence. }
    assert (RL : forall r, In r z -> length r = length stacks).
    { intros r Hr. apply In_nth_error in Hr. destruct Hr as (f & Hf). apply ROW in Hf. rewrite (mapM_length _ _ _ Hf). exact LC. }
    destruct (concat z) as [|v t] eqn:CZ.
    { exfalso. destruct freqs as [|f0 fr]; [congruence|]. destruct z as [|r z']; [discriminate LZ|]. cbn in CZ. apply app_eq_nil in CZ. destruct CZ as [-> _].
      assert (Q := RL [] (or_introl eq_refl)). destruct stacks; [congruence|discriminate Q]. }
    cbv zeta. eexists. split; [reflexivity|]. cbn [hm_row hm_y hm_x hm_z hm_ticks]. do 3 (split; [reflexivity|]). split; [exact LZ|]. split; [exact RL|]. split.
    - intros f g s m z0 Hg Em Hz. unfold cell_of in Hz. destruct (nth_error z f) as [r|] eqn:Er; [|discriminate]. assert (RR := ROW _ _ Er). assert (I : (f < length freqs)%nat) by (rewrite <- LZ; apply nth_error_Some; congruence).
      destruct (CO s m (nth_error_In _ _ Hg) Em) as (rm & Hr & Lr & E). destruct (mapM_nth _ _ _ g s EC Hg) as (c & Hc & Ec). rewrite E in Ec. injection Ec as <-.
      destruct (mapM_nth _ _ _ g _ RR Hc) as (z1 & Hz1 & LV). rewrite Hz in Hz1. injection Hz1 as <-.
      rewrite nth_indep with (d' := Some 0%Q) in LV by (rewrite map_length; lia). rewrite List.map_nth in LV. unfold log_value in LV. destruct (Qltb 0 (nth f rm 0%Q)); [|discriminate]. injection LV as <-.
      exists (nth f rm 0%Q). split; [|reflexivity]. unfold entry. rewrite Hr. apply nth_error_nth'. lia.
    - intros k. rewrite in_map_iff. destruct (qmins_spec t v) as [M1 M2]. destruct (qmaxs_spec t v) as [X1 X2].
      assert (IC : forall w, In w (v :: t) <-> exists r, In r z /\ In w r). { intros w. rewrite <- CZ. rewrite in_concat. split; intros (r & A & B); exists r; tauto. }
      split.
      + intros (j & <- & Hj). apply arange_in in Hj. split.
        * apply (proj1 (IC _)) in M1. destruct M1 as (r & A & B). exists r, (qmins t v). split; [exact A|]. split; [exact B|]. apply (proj1 (ceil_le_iff _ _)). lia.
        * apply (proj1 (IC _)) in X1. destruct X1 as (r & A & B). exists r, (qmaxs t v). split; [exact A|]. split; [exact B|]. apply (proj1 (floor_le_iff _ _)). lia.
      + intros [(r & w & A & B & Hw) (r' & w' & A' & B' & Hw')]. exists (k - qceil (qmins t v)). split; [lia|]. apply arange_in.
        assert (qceil (qmins t v) <= k). { apply ceil_le_iff. apply Qle_trans with w; [|exact Hw]. apply M2. apply IC. eauto. }
        assert (k <= qfloor (qmaxs t v)). { apply floor_le_iff. apply Qle_trans with w'; [exact Hw'|]. apply X2. apply IC. eauto. } lia.
  Qed.
  (** a group without windows, or a zero mean: not a number *)
  Lemma channel_section_gap (freqs : list Q) freq C (stacks : list (Z * option (list (list Q)))) idx label : freqs <> [] -> (idx < C)%nat ->
    (forall s m, In s stacks -> snd s = Some m -> rect C (length freqs) m) -> In (label, None) stacks ->
    channel_section log10 freqs freq stacks idx = Err ValueError.
  Proof.
    intros NF HI H G. unfold channel_section. match goal with |- context [mapM ?f stacks] => set (col := f) end.
    destruct (mapM_total col stacks) as (cols & EC).
    { intros [l [m|]] Hs; unfold col; cbn [snd]; [|eauto]. destruct (H _ m Hs eq_refl) as [R1 R2]. destruct (nth_error m idx) as [r|] eqn:Er; [|apply nth_error_None in Er; lia].
      rewrite (R2 r (nth_error_In _ _ Er)), Nat.eqb_refl. eauto. }
    rewrite EC. cbn [bind]. destruct freqs as [|f0 fr]; [congruence|]. cbn [length seq mapM].
    set (r0 := mapM _ cols). assert (E : r0 = Err ValueError); [|rewrite E; reflexivity].
    unfold r0. apply In_nth_error in G. destruct G as (g & Hg). destruct (mapM_nth _ _ _ g _ EC Hg) as (c & Hc & Ec). unfold col in Ec. cbn [snd] in Ec. assert (c = map (fun _ => None) (f0 :: fr)) by congruence. subst c. clear Ec.
    apply nth_error_In in Hc. clear -Hc. induction cols as [|c cols IH]; [contradiction|]. cbn [mapM]. destruct Hc as [E|Hc].
    - rewrite E. reflexivity.
    - rewrite (IH Hc). unfold log_value. destruct (nth 0 c None) as [v|]; [|reflexivity]. destruct (Qltb 0 v); reflexivity.
  Qed.
  Lemma positive_mean (x : list (list (list cq))) ws c f v : (forall w c f z, coef x w c f = Some z -> (0 < cabs z)%Q) -> mean_modulus cabs x ws c f v -> (0 < v)%Q.
  Proof.
    intros H (N & zs & Z & E). rewrite E. assert (S : (0 < sum (map cabs zs))%Q).
    { clear E. destruct ws as [|w ws]; [congruence|]. clear N. revert w ws Z. induction zs as [|z zs IH]; intros w ws Z; inversion Z as [|? ? ? ? C Z']; subst.
      change (sum (map cabs (z :: zs))) with (cabs z + sum (map cabs zs))%Q. assert (P := H _ _ _ _ C). destruct ws as [|w' ws].
      - inversion Z'; subst. cbn. lra.
      - specialize (IH _ _ Z'). lra. }
    apply Qlt_shift_div_l; [|lra]. change 0%Q with (inject_Z 0). rewrite <- Zlt_Qlt. destruct ws; [congruence|cbn; lia].
  Qed.
  Lemma level_section_spec d level freq m x times : 0 < freq -> (2 <= length (sm_chans (sd_md d)))%nat -> sl_freqs m <> [] -> spectra_level d level m x ->
    (forall w c f z, coef x w c f = Some z -> (0 < cabs z)%Q) ->
    sd_get_timestamps rnd nt ndl d level = Ok times -> StronglySorted Z.le times ->
    exists groups, groups <> [] /\ consecutive_groups freq 0 times groups /\ every_time_grouped times groups /\ no_group_after times groups /\
      ((exists g, In g groups /\ snd g = []) -> plot_level_section rnd nt ndl cabs log10 d level freq = Err ValueError) /\
      ((forall g, In g groups -> snd g <> []) -> exists hs, plot_level_section rnd nt ndl cabs log10 d level freq = Ok hs /\ length hs = length (sm_chans (sd_md d)) /\
        forall c h, nth_error hs c = Some h -> section_of cabs log10 x (sl_freqs m) freq groups c h).
  Proof.
    intros F C2 NF SP POS T ST. assert (SP' := SP). destruct SP' as (L & M & A & NW & S & NE & B).
    assert (TL := timestamps_length rnd nt ndl d level m times ltac:(lia) M T).
    destruct (group_bins_spec freq 0 times F) as (groups & G & NG & CG & EG & AG); [intros ->; cbn in TL; destruct x; [congruence|cbn in NW; lia]|exact ST|].
    exists groups. split; [exact NG|]. split; [exact CG|]. split; [exact EG|]. split; [exact AG|].
    unfold plot_level_section. rewrite (proj2 (level_md_nth d level m ltac:(lia)) M). cbn [bind]. rewrite T. cbn [bind].
    destruct (Z.eqb_spec (Z.of_nat (length (sm_chans (sd_md d)))) 1); [lia|]. destruct (Z.eqb_spec (Z.of_nat (length (sm_chans (sd_md d)))) 0); [lia|]. cbn [orb]. rewrite G. cbn [bind].
    set (C := length (sm_chans (sd_md d))) in *. match goal with |- context [mapM ?f groups] => set (stk := f) end.
    assert (SK : forall label ks, In (label, ks) groups -> exists r, stk (label, ks) = Ok (label, r) /\ (ks = [] -> r = None) /\
       (ks <> [] -> exists mm, r = Some mm /\ rect C (length (sl_freqs m)) mm /\ forall c f v, entry mm c f = Some v -> mean_modulus cabs x (map Z.to_nat ks) c f v)).
    { intros label ks I. unfold stk. cbn [fst snd]. rewrite A. cbn [bind]. rewrite three_nd3. cbn [bind].
      destruct (pick_windows_spec x ks) as (ws & W & PW); [intros i Hi; rewrite NW, <- TL; exact (groups_in_range _ _ _ _ _ _ CG I i Hi)|]. rewrite W. cbn [bind].
      eexists. split; [reflexivity|]. split.
      - intros ->. inversion PW; subst. reflexivity.
      - intros KN. exact (mean_of_windows cabs x ws ks C _ S KN PW). }
    destruct (mapM_total stk groups) as (stacks & ES).
    { intros [label ks] I. destruct (SK label ks I) as (r & E & _). eauto. }
    rewrite ES. cbn [bind].
    assert (SN : forall g s, nth_error stacks g = Some s -> exists label ks, nth_error groups g = Some (label, ks) /\ stk (label, ks) = Ok s).
    { intros g s Hs. destruct (nth_error groups g) as [[label ks]|] eqn:Eg; [|apply nth_error_None in Eg; assert (g < length stacks)%nat by (apply nth_error_Some; congruence); rewrite (mapM_length _ _ _ ES) in *; lia].
      exists label, ks. split; [reflexivity|]. destruct (mapM_nth _ _ _ g _ ES Eg) as (s' & Hs' & E). congruence. }
    split.
    - intros (g & GI & GE). assert (SR : forall s mm, In s stacks -> snd s = Some mm -> rect C (length (sl_freqs m)) mm).
      { intros s mm Hs Em. apply In_nth_error in Hs. destruct Hs as (i & Hi). destruct (SN i s Hi) as (label & ks & Hg & E). destruct (SK _ _ (nth_error_In _ _ Hg)) as (r & E' & E0 & E1). rewrite E in E'. injection E' as ->.
        cbn in Em. subst r. destruct ks as [|k ks]; [discriminate (E0 eq_refl)|]. destruct (E1 ltac:(discriminate)) as (mm' & EM & R & _). injection EM as ->. exact R. }
      assert (GN : exists label, In (label, None) stacks).
      { apply In_nth_error in GI. destruct GI as (i & Hi). destruct g as [label ks]. cbn in GE. subst ks. destruct (mapM_nth _ _ _ i _ ES Hi) as (s & Hs & E). destruct (SK _ _ (nth_error_In _ _ Hi)) as (r & E' & E0 & _). rewrite E in E'. injection E' as ->.
        rewrite (E0 eq_refl) in Hs. exists label. exact (nth_error_In _ _ Hs). }
      destruct GN as (label & GN). destruct C as [|C']; [lia|]. cbn [seq mapM]. rewrite (channel_section_gap (sl_freqs m) freq (Datatypes.S C') stacks 0 label NF ltac:(lia) SR GN). reflexivity.
    - intros FULL.
      assert (GOOD : forall s, In s stacks -> exists mm, snd s = Some mm /\ rect C (length (sl_freqs m)) mm /\ forall c f v, entry mm c f = Some v -> (0 < v)%Q).
      { intros s Hs. apply In_nth_error in Hs. destruct Hs as (i & Hi). destruct (SN i s Hi) as (label & ks & Hg & E). destruct (SK _ _ (nth_error_In _ _ Hg)) as (r & E' & _ & E1). rewrite E in E'. injection E' as ->.
        assert (KN := FULL _ (nth_error_In _ _ Hg)). destruct (E1 KN) as (mm & -> & R & V). exists mm. split; [reflexivity|]. split; [exact R|]. intros c f v Hv. exact (positive_mean x _ _ _ _ POS (V _ _ _ Hv)). }
      assert (SNE : stacks <> []) by (intros E0; apply (f_equal (@length _)) in E0; rewrite (mapM_length _ _ _ ES) in E0; destruct groups; [congruence|discriminate E0]).
      destruct (mapM_total (channel_section log10 (sl_freqs m) freq stacks) (seq 0 C)) as (hs & EH).
      { intros c Hc. apply in_seq in Hc. destruct (channel_section_spec (sl_freqs m) freq C stacks c NF SNE ltac:(lia) GOOD) as (h & E & _). eauto. }
      exists hs. split; [exact EH|]. split; [rewrite (mapM_length _ _ _ EH), seq_length; reflexivity|]. intros c h Hh.
      assert (HC : (c < C)%nat) by (replace C with (length hs) by (rewrite (mapM_length _ _ _ EH), seq_length; reflexivity); apply nth_error_Some; congruence).
      destruct (mapM_nth _ _ _ c c EH) as (h' & Hh' & E). { rewrite (nth_error_nth' _ 0%nat) by (rewrite seq_length; exact HC). rewrite seq_nth by exact HC. reflexivity. }
      rewrite Hh in Hh'. injection Hh' as <-. destruct (channel_section_spec (sl_freqs m) freq C stacks c NF SNE HC GOOD) as (h' & E' & H1 & H2 & H3 & H4 & H5 & H6 & H7). rewrite E in E'. injection E' as <-.
      assert (LS := mapM_length _ _ _ ES).
      split; [exact H1|]. split; [exact H2|]. split; [|split; [exact H4|split; [|split; [|exact H7]]]].
      + rewrite H3. apply nth_error_ext'. intros i. rewrite !nth_error_map. destruct (nth_error stacks i) as [s|] eqn:Es.
        * destruct (SN i s Es) as (label & ks & Hg & Ek). destruct (SK _ _ (nth_error_In _ _ Hg)) as (r & Er & _). rewrite Ek in Er. injection Er as ->. rewrite Hg. reflexivity.
        * apply nth_error_None in Es. rewrite (proj2 (nth_error_None groups i)) by lia. reflexivity.
      + intros r Hr. rewrite <- LS. exact (H5 r Hr).
      + intros f g label ks z Hg Hz. destruct (mapM_nth _ _ _ g _ ES Hg) as (s & Hs & Ek). destruct (SK _ _ (nth_error_In _ _ Hg)) as (r & Er & _ & E1). rewrite Ek in Er. injection Er as ->.
        destruct (E1 (FULL _ (nth_error_In _ _ Hg))) as (mm & -> & R & V). destruct (H6 f g _ mm z Hs eq_refl Hz) as (v & Hv & ->). exists v. split; [exact (V _ _ _ Hv)|reflexivity].
  Qed.
  Lemma section_one_channel d level freq m times : 0 <= level -> nth_error (sm_levels (sd_md d)) (Z.to_nat level) = Some m -> sd_get_timestamps rnd nt ndl d level = Ok times ->
    length (sm_chans (sd_md d)) = 1%nat -> plot_level_section rnd nt ndl cabs log10 d level freq = Err ZeroDivisionError.
  Proof.
    intros L M T E. unfold plot_level_section. rewrite (proj2 (level_md_nth d level m L) M). cbn [bind]. rewrite T. cbn [bind]. rewrite E. reflexivity.
  Qed.
End Sections.
(** consecutive times more than two intervals apart leave an empty group *)
Lemma gap_group freq offset times groups i a b : 0 < freq -> StronglySorted Z.le times -> consecutive_groups freq offset times groups -> every_time_grouped times groups ->
  nth_error times i = Some a -> nth_error times (S i) = Some b -> 2 * freq <= b - a -> exists g, In g groups /\ snd g = [].
Proof.
  intros F S (first & mid & e & F0 & _ & _ & FE & H) EG Ha Hb D.
  assert (SB : forall j k u v, (j <= k)%nat -> nth_error times j = Some u -> nth_error times k = Some v -> u <= v).
  { clear -S. induction S as [|t l S IH FA]; intros j k u v J U V; [destruct j; discriminate|]. destruct j as [|j].
    - cbn in U. injection U as <-. destruct k as [|k]; [cbn in V; injection V as <-; lia|]. rewrite Forall_forall in FA. apply FA. exact (nth_error_In l k V).
    - destruct k as [|k]; [lia|]. exact (IH j k u v ltac:(lia) U V). }
  destruct (EG (Datatypes.S i)) as ([lb ks] & GI & KI); [apply nth_error_Some; congruence|]. cbn [snd] in KI. apply In_nth_error in GI. destruct GI as (g & Hg).
  destruct (H _ _ _ Hg) as (LB & _ & M). apply (proj1 (M _)) in KI. rewrite Nat2Z.id in KI. destruct KI as (_ & t & Ht & C). rewrite Hb in Ht. injection Ht as <-.
  assert (FA := SB 0%nat i first a ltac:(lia) F0 Ha). destruct g as [|g]; [lia|].
  destruct (nth_error groups g) as [[lb' ks']|] eqn:Eg; [|apply nth_error_None in Eg; assert (Datatypes.S g < length groups)%nat by (apply nth_error_Some; congruence); lia].
  exists (lb', ks'). split; [exact (nth_error_In _ _ Eg)|]. cbn [snd]. destruct (H _ _ _ Eg) as (LB' & _ & M'). destruct ks' as [|k ks']; [reflexivity|exfalso].
  destruct (proj1 (M' k) (or_introl eq_refl)) as (K & t & Ht & C'). assert (LL : lb = lb' + freq) by lia.
  destruct (Nat.le_gt_cases (Z.to_nat k) i) as [I|I].
  - assert (X := SB _ _ _ _ I Ht Ha). lia.
  - assert (X := SB (Datatypes.S i) (Z.to_nat k) _ _ ltac:(lia) Hb Ht). lia.
Qed.
