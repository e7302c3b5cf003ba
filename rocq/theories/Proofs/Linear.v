(** Linear relations between the channels survive the processing. *)
From Coq Require Import String.
From Verif Require Import Base.Prelude Base.Rounding Base.ListUtil Base.Interp Base.NdArray Base.Cplx
  Model.Sampling Model.Time Model.Decimate Model.Window Model.Spectra Model.Calibrate Model.Gather Model.Regression Model.Pipeline
  Spec.Calibrate Spec.Gather Spec.Regression Spec.Pipeline Spec.Linear
  Proofs.Sampling Proofs.TimeMeta Proofs.DecParams Proofs.DecFinal Proofs.WindowRun Proofs.WindowFinal Proofs.Spectra Proofs.SpectraFreqs Proofs.Calibrate Proofs.CalibrateFinal Proofs.Gather Proofs.GatherQuick
  Proofs.RegressionFinal Proofs.RegressionQuick Proofs.PipelineShape Proofs.PipelineFinal.
Open Scope list_scope. Open Scope Q_scope.

(** ** linear maps keep combinations *)
Section Mix.
  Context {V1 V2 : Type} (e1 : V1 -> V1 -> Prop) (p1 : V1 -> V1 -> V1) (s1 : Q -> V1 -> V1) (o1 : V1)
    (e2 : V2 -> V2 -> Prop) (p2 : V2 -> V2 -> V2) (s2 : Q -> V2 -> V2) (o2 : V2).
  Definition vdot {V} (p : V -> V -> V) (s : Q -> V -> V) (o : V) : list Q -> list V -> V :=
    fix go (zs : list Q) (vs : list V) : V := match zs, vs with z :: zs, v :: vs => p (s z v) (go zs vs) | _, _ => o end.
  Definition vaxpy {V} (e : V -> V -> Prop) (p : V -> V -> V) (s : Q -> V -> V) (a : Q) (u v w : list V) : Prop :=
    length u = length w /\ length v = length w /\
    forall k x y z, nth_error u k = Some x -> nth_error v k = Some y -> nth_error w k = Some z -> e z (p (s a x) y).
  Definition vmixes {V} (e : V -> V -> Prop) (p : V -> V -> V) (s : Q -> V -> V) (o : V) (zs : list Q) (ins : list (list V)) (out : list V) : Prop :=
    (forall u, In u ins -> length u = length out) /\
    forall k x, nth_error out k = Some x -> e x (vdot p s o zs (map (fun u => nth k u o) ins)).
  Hypothesis R1 : forall x, e1 x x.
  Hypothesis T1 : forall x y z, e1 x y -> e1 y z -> e1 x z.
  Hypothesis Z1 : forall x, e1 x o1 -> e1 x (p1 (s1 (-1) x) x).
  Hypothesis T2 : forall x y z, e2 x y -> e2 y z -> e2 x z.
  Hypothesis P2 : forall a x y y', e2 y y' -> e2 (p2 (s2 a x) y) (p2 (s2 a x) y').
  Hypothesis Z2 : forall x, e2 x (p2 (s2 (-1) x) x) -> e2 x o2.
  Variable f : list V1 -> list V2.
  Variable n : nat.
  Hypothesis HF : forall a u v w, length w = n -> vaxpy e1 p1 s1 a u v w -> vaxpy e2 p2 s2 a (f u) (f v) (f w).
  Lemma nth_error_nth' {A} (l : list A) k d : (k < length l)%nat -> nth_error l k = Some (nth k l d).
  Proof. revert k. induction l as [|x l IH]; intros [|k] H; cbn in *; try lia; [reflexivity|]. apply IH. lia. Qed.
  Lemma linear_mixes : forall zs ins out, length zs = length ins -> length out = n ->
    vmixes e1 p1 s1 o1 zs ins out -> vmixes e2 p2 s2 o2 zs (map f ins) (f out).
  Proof.
    intros zs ins. revert zs. induction ins as [|u ins IH]; intros zs out LZ LO [HL HM].
    - destruct zs; [|discriminate]. split; [intros v []|]. intros k x Hk. cbn [map vdot].
      apply Z2. assert (A : vaxpy e1 p1 s1 (-1) out out out).
      { split; [reflexivity|]. split; [reflexivity|]. intros j a b c Ha Hb Hc. assert (b = a) as -> by congruence. assert (c = a) as -> by congruence.
        apply Z1. exact (HM j a Ha). }
      apply HF in A; [|exact LO]. destruct A as (_ & _ & A). exact (A k x x x Hk Hk Hk).
    - destruct zs as [|z zs]; [discriminate|]. cbn in LZ.
      set (out' := map (fun k => vdot p1 s1 o1 zs (map (fun v => nth k v o1) ins)) (seq 0 n)).
      assert (LO' : length out' = n) by (unfold out'; rewrite map_length, seq_length; reflexivity).
      assert (NO : forall k, (k < n)%nat -> nth_error out' k = Some (vdot p1 s1 o1 zs (map (fun v => nth k v o1) ins))).
      { intros k Hk. unfold out'. rewrite nth_error_map. rewrite (nth_error_nth' _ _ 0%nat) by (rewrite seq_length; exact Hk). rewrite seq_nth by exact Hk. reflexivity. }
      pose proof (HL u (or_introl eq_refl)) as LU.
      assert (A : vaxpy e1 p1 s1 z u out' out).
      { split; [exact LU|]. split; [congruence|]. intros k x y w Hx Hy Hw.
        assert (Hk : (k < n)%nat) by (rewrite <- LO; apply nth_error_Some; congruence).
        rewrite NO in Hy by exact Hk. injection Hy as <-. pose proof (HM k w Hw) as E. cbn [map vdot] in E.
        rewrite (nth_error_nth' u k o1) in Hx by lia. injection Hx as <-. exact E. }
      apply HF in A; [|exact LO]. destruct A as (A1 & A2 & A3).
      destruct (IH zs out' ltac:(lia) LO') as [B1 B2].
      { split; [intros v Hv; rewrite LO', <- LO; apply HL; right; exact Hv|]. intros k x Hk.
        assert (Hk' : (k < n)%nat) by (rewrite <- LO'; apply nth_error_Some; congruence). rewrite NO in Hk by exact Hk'. injection Hk as <-. apply R1. }
      split.
      { intros v [<-|Hv]; [exact A1|]. rewrite <- A2. apply B1. exact Hv. }
      intros k x Hk. cbn [map vdot]. assert (Hk' : (k < length (f out))%nat) by (apply nth_error_Some; congruence).
      eapply T2; [exact (A3 k _ _ _ (nth_error_nth' (f u) k o2 ltac:(lia)) (nth_error_nth' (f out') k o2 ltac:(lia)) Hk)|].
      apply P2. apply (B2 k). apply nth_error_nth'. lia.
  Qed.
End Mix.

(** complex combinations with real coefficients *)
Definition cmixes (zs : list Q) (ins : list (list cq)) (out : list cq) : Prop := vmixes ceq cplus cscale c0 zs ins out.
Lemma mixes_rr f n zs ins out : (forall a u v w, length w = n -> axpy a u v w -> axpy a (f u) (f v) (f w)) ->
  length zs = length ins -> length out = n -> mixes zs ins out -> mixes zs (map f ins) (f out).
Proof.
  intros HF LZ LO HM. refine (linear_mixes Qeq Qplus Qmult 0 Qeq Qplus Qmult 0 _ _ _ _ _ f n HF zs ins out LZ LO HM).
  - reflexivity.
  - intros x H. rewrite H. reflexivity.
  - intros x y z A B. rewrite A. exact B.
  - intros a x y y' H. rewrite H. reflexivity.
  - intros x H. lra.
Qed.
Lemma mixes_rc f n zs ins out : (forall a u v w, length w = n -> axpy a u v w -> caxpy a (f u) (f v) (f w)) ->
  length zs = length ins -> length out = n -> mixes zs ins out -> cmixes zs (map f ins) (f out).
Proof.
  intros HF LZ LO HM. refine (linear_mixes Qeq Qplus Qmult 0 ceq cplus cscale c0 _ _ _ _ _ f n HF zs ins out LZ LO HM).
  - reflexivity.
  - intros x H. rewrite H. reflexivity.
  - intros x y z A B. rewrite A. exact B.
  - intros a x y y' H. rewrite H. reflexivity.
  - intros x [A B]. cbn in A, B. split; cbn; lra.
Qed.
Lemma mixes_cc f n zs ins out : (forall a u v w, length w = n -> caxpy a u v w -> caxpy a (f u) (f v) (f w)) ->
  length zs = length ins -> length out = n -> cmixes zs ins out -> cmixes zs (map f ins) (f out).
Proof.
  intros HF LZ LO HM. refine (linear_mixes ceq cplus cscale c0 ceq cplus cscale c0 _ _ _ _ _ f n HF zs ins out LZ LO HM).
  - reflexivity.
  - intros x [A B]. cbn in A, B. split; cbn; rewrite ?A, ?B; ring.
  - intros x y z A B. rewrite A. exact B.
  - intros a x y y' H. rewrite H. reflexivity.
  - intros x [A B]. cbn in A, B. split; cbn; lra.
Qed.

(** ** samples *)
(** row [o] is the combination of the rows [is] *)
Definition rmix (zs : list Q) (o : nat) (is : list nat) (rows : list (list cell)) : Prop :=
  exists out ins, nth_error rows o = Some (map Some out) /\ Forall2 (fun i u => nth_error rows i = Some (map Some u)) is ins /\ mixes zs ins out.

Lemma mixes_len zs ins out : mixes zs ins out -> Forall (fun u => length u = length out) ins.
Proof. intros [H _]. apply Forall_forall. exact H. Qed.
Lemma Forall2_map_r {A B C} (R : A -> C -> Prop) (g : B -> C) l l' : Forall2 (fun x y => R x (g y)) l l' -> Forall2 R l (map g l').
Proof. induction 1; cbn; constructor; assumption. Qed.
Lemma map_Some_inj {A} (u v : list A) : map Some u = map Some v -> u = v.
Proof. revert v. induction u as [|x u IH]; intros [|y v] H; cbn in H; try discriminate; [reflexivity|]. f_equal; [congruence|]. apply IH. congruence. Qed.

Lemma routine_mix T zs o is rows rows' : linear_routine T -> length zs = length is -> mapM T rows = Ok rows' -> rmix zs o is rows -> rmix zs o is rows'.
Proof.
  intros HT LZ HM (out & ins & Ho & Hi & Hmix). apply mapM_ok in HM.
  destruct (Forall2_nth_error _ _ _ _ _ HM Ho) as (yo & Hyo & Eo).
  destruct (HT (length out)) as [F|(f & F1 & F2)].
  { destruct (F out eq_refl) as [e E]. congruence. }
  exists (f out), (map f ins). split; [rewrite F1 in Eo by reflexivity; injection Eo as <-; exact Hyo|].
  pose proof (mixes_len _ _ _ Hmix) as LL. split.
  - apply Forall2_map_r. clear -HM Hi LL F1. induction Hi as [|i u is ins Hx Hr IH]; [constructor|]. inversion LL as [|? ? L1 L2]; subst. constructor; [|apply IH; exact L2].
    destruct (Forall2_nth_error _ _ _ _ _ HM Hx) as (y & Hy & Ey). rewrite F1 in Ey by exact L1. injection Ey as <-. exact Hy.
  - apply (mixes_rr f (length out)); [exact F2| |reflexivity|exact Hmix]. rewrite LZ. exact (Forall2_length' _ _ _ Hi).
Qed.

(** slices *)
Lemma slice_map {A B} (g : A -> B) a b l : slice a b (map g l) = map g (slice a b l).
Proof. unfold slice. rewrite skipn_map, firstn_map. reflexivity. Qed.
Lemma nth_nth_error {A} (l : list A) k d : nth k l d = match nth_error l k with Some x => x | None => d end.
Proof. revert k. induction l as [|x l IH]; intros [|k]; cbn; auto. Qed.
Lemma slice_mixes a b zs ins out : mixes zs ins out -> mixes zs (map (slice a b) ins) (slice a b out).
Proof.
  intros [HL HM]. split.
  - intros u Hu. apply in_map_iff in Hu. destruct Hu as (v & <- & Hv). unfold slice. rewrite !firstn_length, !skipn_length, (HL v Hv). reflexivity.
  - intros k x Hk. unfold slice in Hk. rewrite nth_error_firstn, nth_error_skipn in Hk. destruct (Nat.ltb_spec k (Z.to_nat (b - a))) as [K|]; [|discriminate].
    rewrite (HM _ _ Hk). rewrite map_map. match goal with |- dot zs ?a == dot zs ?b => replace a with b; [reflexivity|] end. apply map_ext. intros u. rewrite !nth_nth_error. unfold slice. rewrite nth_error_firstn, nth_error_skipn.
    destruct (Nat.ltb_spec k (Z.to_nat (b - a))); [reflexivity|lia].
Qed.

(** ** decimation *)
Lemma steps_mix orc zs o is fs : (forall q, linear_routine (o_decimate orc q)) -> length zs = length is ->
  forall d d', decimate_steps orc fs d = Ok d' -> rmix zs o is d -> rmix zs o is d'.
Proof.
  intros HT LZ. induction fs as [|f fs IH]; intros d d' H M; cbn [decimate_steps] in H; [congruence|].
  destruct (f =? 1)%Z; [exact (IH _ _ H M)|]. apply bind_ok in H. destruct H as (d1 & H1 & H). apply (IH _ _ H). exact (routine_mix _ _ _ _ _ _ (HT f) LZ H1 M).
Qed.
Lemma decimate_mix rnd orc factor maxf td td' zs o is : (forall q, linear_routine (o_decimate orc q)) -> length zs = length is ->
  decimate rnd orc factor maxf td = Ok td' -> rmix zs o is (rows td) -> rmix zs o is (rows td') /\ chans (meta td') = chans (meta td).
Proof.
  intros HT LZ H M. unfold decimate in H. apply bind_ok in H. destruct H as (d & H1 & H). injection H as <-. cbn. split; [|reflexivity]. exact (steps_mix _ _ _ _ _ HT LZ _ _ H1 M).
Qed.
Lemma resample_mix rnd orc new_fs td td' zs o is : (forall p q, linear_routine (o_resample orc p q)) -> length zs = length is ->
  resample rnd orc new_fs td = Ok td' -> rmix zs o is (rows td) -> rmix zs o is (rows td') /\ chans (meta td') = chans (meta td).
Proof.
  intros HT LZ H M. unfold resample in H. apply bind_ok in H. destruct H as (d & H1 & H). injection H as <-. cbn. split; [|reflexivity]. exact (routine_mix _ _ _ _ _ _ (HT _ _) LZ H1 M).
Qed.
Lemma step_mix rnd orc ur maxf f td td' zs o is : (forall q, linear_routine (o_decimate orc q)) -> (forall p q, linear_routine (o_resample orc p q)) -> length zs = length is ->
  dec_step rnd orc ur maxf td f = Ok td' -> rmix zs o is (rows td) -> rmix zs o is (rows td').
Proof.
  intros HD HR LZ H M. unfold dec_step in H. destruct (f =? 1)%Z; [congruence|]. destruct ur.
  - destruct (f =? 0)%Z; [discriminate|]. exact (proj1 (resample_mix _ _ _ _ _ _ _ _ HR LZ H M)).
  - destruct (f <? 1)%Z; [discriminate|]. exact (proj1 (decimate_mix _ _ _ _ _ _ _ _ _ HD LZ H M)).
Qed.
Lemma loop_mix rnd orc ur maxf ms zs o is : (forall q, linear_routine (o_decimate orc q)) -> (forall p q, linear_routine (o_resample orc p q)) -> length zs = length is ->
  forall incs l td data lmd, dec_loop rnd orc ur maxf ms incs l td = Ok (data, lmd) -> rmix zs o is (rows td) -> forall k x, In (k, x) data -> rmix zs o is x.
Proof.
  intros HD HR LZ. induction incs as [|f incs IH]; intros l td data lmd H M k x Hin; cbn [dec_loop] in H.
  - injection H as <- <-. destruct Hin.
  - apply bind_ok in H. destruct H as (td' & H1 & H). pose proof (step_mix _ _ _ _ _ _ _ _ _ _ HD HR LZ H1 M) as M'.
    destruct (_ <? _)%Z; [injection H as <- <-; destruct Hin|]. apply bind_ok in H. destruct H as ([d ls] & H2 & H). injection H as <- <-.
    destruct Hin as [E|Hin]; [injection E as <- <-; exact M'|]. exact (IH _ _ _ _ H2 M' k x Hin).
Qed.
Lemma decimator_mix rnd orc ur maxf p td dd zs o is : (forall q, linear_routine (o_decimate orc q)) -> (forall p q, linear_routine (o_resample orc p q)) -> length zs = length is ->
  decimator_run rnd orc ur maxf p td = Ok dd -> rmix zs o is (rows td) -> forall l x, get_level dd l = Ok x -> rmix zs o is x.
Proof.
  intros HD HR LZ H M l x Hx. unfold decimator_run in H. apply bind_ok in H. destruct H as ([data lmd] & H1 & H).
  assert (E : dd_data dd = data) by (destruct data; [discriminate|]; injection H as <-; reflexivity).
  unfold get_level in Hx. destruct (_ >=? _)%Z; [discriminate|]. rewrite E in Hx. destruct (find _ data) as [[k y]|] eqn:F; [|discriminate]. injection Hx as ->.
  apply find_some in F. exact (loop_mix _ _ _ _ _ _ _ _ HD HR LZ _ _ _ _ _ H1 M k x (proj1 F)).
Qed.

(** ** windows *)
(** in every window, vector [o] of the array is the combination of the vectors [is] *)
Definition wmix (zs : list Q) (o : nat) (is : list nat) (a : nd cell) : Prop :=
  forall w vo vis, nd_vec a [w; o] = Some vo -> Forall2 (fun i v => nd_vec a [w; i] = Some v) is vis ->
    exists out ins, vo = map Some out /\ vis = map (map Some) ins /\ mixes zs ins out.
Definition cmix (zs : list Q) (o : nat) (is : list nat) (a : nd cq) : Prop :=
  forall w vo vis, nd_vec a [w; o] = Some vo -> Forall2 (fun i v => nd_vec a [w; i] = Some v) is vis -> cmixes zs vis vo.

Lemma level_data_vec ld table m w o c x : rect ld (lm_n_samples m) -> c = Z.of_nat (length ld) -> (2 <= c)%Z -> (2 <= w /\ w <> lm_n_samples m)%Z ->
  get_level_data ld table c w o = Ok x ->
  forall k, exists s, (0 <= s)%Z /\ forall i v, nd_vec x [k; i] = Some v -> exists row, nth_error ld i = Some row /\ v = slice s (s + w) row.
Proof.
  intros R Hc C2 [W2 W3] H k. unfold get_level_data in H. destruct table as [|r0 tb] eqn:ET; [discriminate|]. rewrite <- ET in *.
  apply bind_ok in H. destruct H as (v & H6 & H).
  assert (W4 : (2 <= w < lm_n_samples m)%Z).
  { pose proof H6 as H7. unfold sliding_window_view in H7. destruct (_ || _) eqn:E in H7; [discriminate|]. apply orb_false_elim in E. destruct E as [_ E].
    destruct ld as [|row ld]; [cbn in Hc; lia|]. cbn [width] in E. pose proof (R row (or_introl eq_refl)). lia. }
  rewrite (view_full ld c w (lm_n_samples m) v R Hc C2 W4 H6) in H.
  apply bind_ok in H. destruct H as (l & Hl & H). injection H as <-. apply py_slice_incl in Hl.
  destruct (nth_error l k) as [y|] eqn:E.
  - apply nth_error_In in E as E'. apply Hl in E'. apply in_map_iff in E'. destruct E' as (s & <- & Hs). exists s. split; [apply arange_in in Hs; lia|].
    intros i u Hu. unfold nd_vec in Hu. cbn [nd_at nd_nth] in Hu. rewrite E in Hu. cbn [nd_at nd_nth] in Hu. rewrite nth_error_map in Hu. destruct (nth_error ld i) as [row|]; [|discriminate].
    exists row. split; [reflexivity|]. cbn [option_map] in Hu. unfold row_window in Hu. rewrite scalars_map in Hu. congruence.
  - exists 0%Z. split; [lia|]. intros i u Hu. unfold nd_vec in Hu. cbn [nd_at nd_nth] in Hu. rewrite E in Hu. discriminate.
Qed.
Lemma vec_mix zs o is ld x w (s : Z) k : (0 <= s)%Z -> (forall i v, nd_vec x [k; i] = Some v -> exists row, nth_error ld i = Some row /\ v = slice s (s + w) row) ->
  rmix zs o is ld -> forall vo vis, nd_vec x [k; o] = Some vo -> Forall2 (fun i v => nd_vec x [k; i] = Some v) is vis ->
    exists out ins, vo = map Some out /\ vis = map (map Some) ins /\ mixes zs ins out.
Proof.
  intros Hs HV (out & ins & Ho & Hi & Hm) vo vis Vo Vi. exists (slice s (s + w) out), (map (slice s (s + w)) ins).
  destruct (HV _ _ Vo) as (row & E1 & ->). assert (row = map Some out) as -> by congruence. split; [apply slice_map|]. split; [|apply slice_mixes; exact Hm].
  clear Hm Vo. revert ins Hi. induction Vi as [|i v is vis E V IH]; intros ins Hi; inversion Hi as [|? u ? ins' E2 Hi']; subst; [reflexivity|].
  cbn [map]. f_equal; [|apply IH; assumption]. destruct (HV _ _ E) as (rw & E3 & ->). assert (rw = map Some u) as -> by congruence. apply slice_map.
Qed.
Lemma windower_mix rnd nt ndl ref p d wd zs o is : windower_run rnd nt ndl ref p d = Ok wd ->
  (2 <= length (dd_chans d))%nat -> levels_sized d -> window_sizes_ok p d -> (forall l x, get_level d l = Ok x -> rmix zs o is x) ->
  forall l x, (0 <= l)%Z -> wd_get_level wd l = Ok x -> wmix zs o is x.
Proof.
  intros H HC HS HW HM l x Hl Hx.
  destruct (windower_levels _ _ _ _ _ _ _ H) as (_ & _ & CH & xs & wls & HL & D & Lv & _).
  destruct (window_loop_spec _ _ _ _ _ _ _ _ _ _ _ HL) as (I1 & I2 & I3 & I4 & _).
  unfold wd_get_level in Hx. destruct (_ >=? _)%Z; [discriminate|]. rewrite D in Hx. destruct (find _ xs) as [[lev y]|] eqn:F; [|discriminate]. injection Hx as ->.
  apply find_some in F. destruct F as [F1 F2]. cbn [fst] in F2. apply Z.eqb_eq in F2. subst lev. apply In_nth_error in F1. destruct F1 as [i Hi].
  destruct (nth_error wls i) as [wl|] eqn:Ew.
  2:{ apply nth_error_None in Ew. assert (i < length xs)%nat by (apply nth_error_Some; congruence). lia. }
  destruct (I4 _ _ _ _ Hi Ew) as (m & w & ol & table & ld & LD). destruct LD as [l1 l2 l3 l4 l5 l6 l7 l8].
  apply bind_ok in l2. destruct l2 as (w' & Hw' & l2). apply bind_ok in l2. destruct l2 as (o' & Ho' & l2). injection l2 as -> ->.
  apply wp_level_nth in Hw'. destruct Hw' as [Hw' _]. pose proof (HW _ _ _ l1 Hw') as W2.
  destruct (HS _ _ l1) as (ld' & E & L & R). rewrite Z2Nat.id in E by lia. rewrite l5 in E. injection E as <-.
  intros k vo vis Vo Vi.
  destruct (level_data_vec ld table m w ol _ x R ltac:(rewrite L; reflexivity) ltac:(lia) W2 l6 k) as (s & Hs & HV).
  exact (vec_mix _ _ _ _ _ _ _ _ Hs HV (HM _ _ l5) _ _ Vo Vi).
Qed.

(** ** spectra *)
Lemma last_vecs {A B} (f : list A -> res (list B)) a b w is vis' : nd_last f a = Ok b -> Forall2 (fun i v => nd_vec b [w; i] = Some v) is vis' ->
  exists vis, Forall2 (fun i v => nd_vec a [w; i] = Some v) is vis /\ Forall2 (fun v v' => f v = Ok v') vis vis'.
Proof.
  intros H. induction 1 as [|i v' is vis' E V IH]; [exists []; split; constructor|]. destruct IH as (vis & A1 & A2).
  destruct (nd_last_vec_r f _ _ _ _ H E) as (v & F & G). exists (v :: vis). split; constructor; assumption.
Qed.
Lemma transform_mix T zs o is a b : linear_transform T -> length zs = length is -> nd_last T a = Ok b -> wmix zs o is a -> cmix zs o is b.
Proof.
  intros HT LZ H M w vo' vis' Vo Vi. destruct (nd_last_vec_r _ _ _ _ _ H Vo) as (vo & Fo & Go). destruct (last_vecs _ _ _ _ _ _ H Vi) as (vis & Gi & Fi).
  destruct (M w vo vis Go Gi) as (out & ins & -> & -> & Hm).
  destruct (HT (length out)) as [F|(f & F1 & F2)]; [destruct (F out eq_refl) as [e E]; congruence|].
  rewrite F1 in Fo by reflexivity. injection Fo as <-.
  assert (vis' = map f ins) as ->.
  { pose proof (mixes_len _ _ _ Hm) as LL. clear -Fi LL F1. revert vis' Fi. induction ins as [|u ins IH]; intros vis' Fi; cbn [map] in Fi; inversion Fi as [|? v' ? r E Fr]; subst; [reflexivity|].
    inversion LL as [|? ? L1 L2]; subst. cbn [map]. f_equal; [|exact (IH L2 _ Fr)]. rewrite F1 in E by exact L1. congruence. }
  apply (mixes_rc f (length out)); [exact F2| |reflexivity|exact Hm]. rewrite LZ, (Forall2_length' _ _ _ Gi). rewrite map_length. reflexivity.
Qed.
Lemma filter_mix g zs o is a b : linear_filter g -> length zs = length is -> nd_last (fun v => Ok (g v)) a = Ok b -> cmix zs o is a -> cmix zs o is b.
Proof.
  intros HT LZ H M w vo' vis' Vo Vi. destruct (nd_last_vec_r _ _ _ _ _ H Vo) as (vo & Fo & Go). destruct (last_vecs _ _ _ _ _ _ H Vi) as (vis & Gi & Fi).
  pose proof (M w vo vis Go Gi) as Hm. injection Fo as <-.
  assert (vis' = map g vis) as ->.
  { clear -Fi. induction Fi as [|v v' vis vis' E F IH]; [reflexivity|]. cbn. congruence. }
  apply (mixes_cc g (length vo)); [intros a0 u v w0 _; apply HT| |reflexivity|exact Hm]. rewrite LZ. exact (Forall2_length' _ _ _ Gi).
Qed.

(** interpolation to an evaluation frequency *)
Lemma py_nth_axpy a u v w i : caxpy a u v w ->
  (exists x y z, py_nth u i = Some x /\ py_nth v i = Some y /\ py_nth w i = Some z /\ ceq z (cplus (cscale a x) y)) \/
  (py_nth u i = None /\ py_nth v i = None /\ py_nth w i = None).
Proof.
  intros (L1 & L2 & H). unfold py_nth. rewrite L1, L2. set (j := if (i <? 0)%Z then _ else _). destruct (j <? 0)%Z; [right; auto|].
  destruct (nth_error w (Z.to_nat j)) as [z|] eqn:E.
  - assert (Hk : (Z.to_nat j < length w)%nat) by (apply nth_error_Some; congruence).
    destruct (nth_error u (Z.to_nat j)) as [x|] eqn:Ex; [|apply nth_error_None in Ex; lia]. destruct (nth_error v (Z.to_nat j)) as [y|] eqn:Ey; [|apply nth_error_None in Ey; lia].
    left. exists x, y, z. split; [reflexivity|]. split; [reflexivity|]. split; [reflexivity|]. exact (H _ _ _ _ Ex Ey E).
  - apply nth_error_None in E. right. split; [apply nth_error_None; lia|]. split; [apply nth_error_None; lia|reflexivity].
Qed.
Definition eval_or0 (freqs : list Q) (v : list cq) (e : Q) : cq := match eval_at freqs v e with Ok x => x | Err _ => c0 end.
Lemma eval_axpy freqs e a u v w : caxpy a u v w -> ceq (eval_or0 freqs w e) (cplus (cscale a (eval_or0 freqs u e)) (eval_or0 freqs v e)).
Proof.
  assert (Z0 : ceq c0 (cplus (cscale a c0) c0)) by (split; cbn; ring).
  intros H. unfold eval_or0, eval_at. destruct (np_interp _ _) as [pos|]; cbn [bind]; [|exact Z0]. cbv zeta.
  destruct (py_nth_axpy a u v w (qceil pos) H) as [(x & y & z & -> & -> & -> & E)|(-> & -> & ->)]; [|exact Z0].
  destruct (py_nth_axpy a u v w (qfloor pos) H) as [(x' & y' & z' & -> & -> & -> & E')|(-> & -> & ->)]; [|exact Z0].
  destruct E as [E1 E2], E' as [F1 F2]. cbn in E1, E2, F1, F2. split; cbn; rewrite ?E1, ?E2, ?F1, ?F2; ring.
Qed.
Lemma eval_linear freqs evals : linear_filter (fun v => map (eval_or0 freqs v) evals).
Proof.
  intros a u v w H. split; [rewrite !map_length; reflexivity|]. split; [rewrite !map_length; reflexivity|].
  intros k x y z Hx Hy Hz. rewrite nth_error_map in Hx, Hy, Hz. destruct (nth_error evals k) as [e|]; [|discriminate]. injection Hx as <-. injection Hy as <-. injection Hz as <-.
  apply eval_axpy. exact H.
Qed.
Lemma eval_vec_or0 freqs evals v v' : eval_vec freqs evals v = Ok v' -> v' = map (eval_or0 freqs v) evals.
Proof.
  unfold eval_vec. intros H. apply mapM_ok in H. induction H as [|e x es xs E H IH]; [reflexivity|]. cbn. unfold eval_or0 at 1. rewrite E. congruence.
Qed.
Lemma eval_mix freqs evals zs o is a b : length zs = length is -> nd_last (eval_vec freqs evals) a = Ok b -> cmix zs o is a -> cmix zs o is b.
Proof.
  intros LZ H M w vo' vis' Vo Vi. destruct (nd_last_vec_r _ _ _ _ _ H Vo) as (vo & Fo & Go). destruct (last_vecs _ _ _ _ _ _ H Vi) as (vis & Gi & Fi).
  pose proof (M w vo vis Go Gi) as Hm. apply eval_vec_or0 in Fo. subst vo'.
  assert (vis' = map (fun v => map (eval_or0 freqs v) evals) vis) as ->.
  { clear -Fi. induction Fi as [|v v' vis vis' E F IH]; [reflexivity|]. cbn. rewrite (eval_vec_or0 _ _ _ _ E), IH. reflexivity. }
  apply (mixes_cc (fun v => map (eval_or0 freqs v) evals) (length vo)); [intros a0 u v w0 _; apply eval_linear| |reflexivity|exact Hm]. rewrite LZ. exact (Forall2_length' _ _ _ Gi).
Qed.

(** ** the stages *)
Definition smix (zs : list Q) (o : nat) (is : list nat) (d : spec_data cq) : Prop :=
  forall l x, (0 <= l < sm_n_levels (sd_md d))%Z -> sd_at d l = Ok x -> cmix zs o is x.
Lemma sd_at_in {A} (m : spec_md) (r : list (Z * nd A)) l x : sd_at (mkSpec m r) l = Ok x -> In (l, x) r.
Proof.
  unfold sd_at. cbn [sd_data]. destruct (find _ r) as [[k y]|] eqn:F; [|discriminate]. intros [= ->]. apply find_some in F. destruct F as [F1 F2]. cbn in F2. apply Z.eqb_eq in F2. subst k. exact F1.
Qed.
Lemma fourier_mix rnd nf T wd d zs o is : (forall w n, linear_transform (T w n)) -> length zs = length is -> fourier_run rnd nf T wd = Ok d ->
  (forall l x, (0 <= l)%Z -> wd_get_level wd l = Ok x -> wmix zs o is x) -> smix zs o is d.
Proof.
  intros HT LZ H HW l x Hl Hx. assert (NL : sm_n_levels (sd_md d) = wd_n_levels wd). { unfold fourier_run in H. apply bind_ok in H. destruct H as (r & _ & H). apply make_spec_ok in H. subst d. reflexivity. }
  rewrite NL in Hl. destruct (fourier_level_at _ _ _ _ _ _ H Hl) as (m & freqs & y & z & _ & _ & E3 & E4 & E5 & _). apply get_level_at in E5. assert (z = x) as -> by congruence.
  exact (transform_mix _ _ _ _ _ _ (HT _ _) LZ E4 (HW _ _ (proj1 Hl) E3)).
Qed.
Lemma smooth_mix name f d d' zs o is : length zs = length is -> (forall l g, f l = Ok g -> linear_filter g) -> smooth_run name f d = Ok d' -> smix zs o is d -> smix zs o is d'.
Proof.
  intros LZ Hf H M l x Hl Hx. unfold smooth_run in H. apply bind_ok in H. destruct H as (r & Hr & H). apply make_spec_ok in H. subst d'. cbn [sd_md with_spec_history sm_n_levels] in Hl.
  apply sd_at_in in Hx. apply In_nth_error in Hx. destruct Hx as [i Hi]. apply mapM_ok in Hr. destruct (Forall2_nth_error_r _ _ _ _ _ Hr Hi) as (l' & _ & E).
  apply bind_ok in E. destruct E as (g & Hg & E). apply bind_ok in E. destruct E as (y & Hy & E). apply bind_ok in E. destruct E as (z & Hz & E). injection E as -> ->.
  apply (filter_mix g zs o is y); [exact (Hf _ _ Hg)|exact LZ|exact Hz|]. apply (M l); [exact Hl|]. exact (get_level_at _ _ _ Hy).
Qed.
Lemma sprocs_mix L ps zs o is : length zs = length is -> (forall s, linear_filter (l_uniform L s)) -> (forall s, linear_filter (l_gaussian L s)) ->
  forall d d', run_sprocs L ps d = Ok d' -> smix zs o is d -> smix zs o is d'.
Proof.
  intros LZ HU HG. induction ps as [|p ps IH]; intros d d' H M; cbn [run_sprocs] in H; [injection H as <-; exact M|].
  apply bind_ok in H. destruct H as (d1 & H1 & H). apply (IH _ _ H). destruct p; cbn [run_sproc] in H1.
  - eapply smooth_mix; [exact LZ| |exact H1|exact M]. cbv beta. intros l g E. apply bind_ok in E. destruct E as (m & _ & E). injection E as <-. apply HU.
  - eapply smooth_mix; [exact LZ| |exact H1|exact M]. cbv beta. intros l g E. injection E as <-. apply HG.
Qed.
Lemma evals_mix p d d' zs o is : length zs = length is -> evals_run p d = Ok d' -> smix zs o is d -> smix zs o is d'.
Proof.
  intros LZ H M l x Hl Hx. assert (NL : sm_n_levels (sd_md d') = sm_n_levels (sd_md d)). { unfold evals_run in H. apply bind_ok in H. destruct H as (r & _ & H). apply make_spec_ok in H. subst d'. reflexivity. }
  rewrite NL in Hl. destruct (evals_level_at _ _ _ _ H Hl) as (m & evals & y & z & _ & _ & E3 & E4 & E5 & _). apply get_level_at in E5. assert (z = x) as -> by congruence.
  apply (eval_mix _ _ _ _ _ _ _ LZ E4). apply (M l); [exact Hl|]. exact (get_level_at _ _ _ E3).
Qed.
Lemma to_evals_mix L c ref td td' p ed zs o is : linear_library L -> processable L c td -> length zs = length is ->
  run_all (l_rnd L) (l_drnd L) (l_orc L) (cf_time c) td = Ok td' -> to_evals L c ref td = Ok (p, ed) -> rmix zs o is (rows td') -> smix zs o is ed.
Proof.
  intros (HD & HR & HT & HU & HG) (PT & HM & HP & HK) LZ H1 H M. unfold to_evals in H. rewrite H1 in H. cbn [bind] in H.
  apply bind_ok in H. destruct H as (p' & H2 & H). apply bind_ok in H. destruct H as (dd & H3 & H).
  apply bind_ok in H. destruct H as (wd & H4 & H). apply bind_ok in H. destruct H as (sd & H5 & H). apply bind_ok in H. destruct H as (sd' & H6 & H).
  apply bind_ok in H. destruct H as (ed' & H7 & H). injection H as -> ->.
  unfold run_windowing in H4. rewrite PT in H4. apply bind_ok in H4. destruct H4 as (wp & Hwp & H4).
  destruct (HK td' p dd wp H1 H2 H3 Hwp) as (K1 & K2 & K3 & K4).
  assert (EC : dd_chans dd = chans (meta td')).
  { unfold run_decimation, decimator_run in H3. apply bind_ok in H3. destruct H3 as ([data lmd] & _ & H3). destruct data; [discriminate|]. injection H3 as <-. reflexivity. }
  apply (evals_mix _ _ _ _ _ _ LZ H7). apply (sprocs_mix _ _ _ _ _ LZ HU HG _ _ H6). apply (fourier_mix _ _ _ _ _ _ _ _ HT LZ H5).
  apply (windower_mix _ _ _ _ _ _ _ _ _ _ H4); [rewrite EC; exact K1|exact K3|exact K4|].
  exact (decimator_mix _ _ _ _ _ _ _ _ _ _ HD HR LZ H3 M).
Qed.

(** ** the rows of a window *)
Lemma vdot_cdot zs row : ceq (vdot cplus cscale c0 zs row) (cdot (map real zs) row).
Proof.
  revert row. induction zs as [|z zs IH]; intros [|x row]; [reflexivity|reflexivity|reflexivity|]. cbn [map]. 
  change (ceq (cplus (cscale z x) (vdot cplus cscale c0 zs row)) (cplus (ctimes (real z) x) (cdot (map real zs) row))). rewrite IH.
  apply cplus_comp; [|reflexivity]. split; cbn; ring.
Qed.
Lemma nodup_index {A} (l : list A) i j x : NoDup l -> nth_error l i = Some x -> nth_error l j = Some x -> i = j.
Proof. intros ND H1 H2. apply (proj1 (NoDup_nth_error l) ND); [apply nth_error_Some; congruence|congruence]. Qed.
Lemma samples_indices td cs ins : Forall2 (channel_samples td) cs ins ->
  exists is, Forall2 (fun i c => nth_error (chans (meta td)) i = Some c) is cs /\ Forall2 (fun i u => nth_error (rows td) i = Some (map Some u)) is ins.
Proof.
  induction 1 as [|c u cs ins (i & H1 & H2) H IH]; [exists []; split; constructor|]. destruct IH as (is & A & B). exists (i :: is). split; constructor; assumption.
Qed.
(** the vectors of the input channels *)
Lemma row_vectors (x : list (list (list cq))) (cs names : list chan) is w f row : NoDup cs -> Forall2 (fun i c => nth_error cs i = Some c) is names ->
  Forall2 (fun c z => exists i, nth_error cs i = Some c /\ (forall j, (j < i)%nat -> nth_error cs j <> Some c) /\ coef x w i f = Some z) names row ->
  exists vis, Forall2 (fun i v => nd_vec (nd3 x) [w; i] = Some v) is vis /\ row = map (fun v => nth f v c0) vis.
Proof.
  intros ND HI. revert row. induction HI as [|i c is names E HI IH]; intros row H; inversion H as [|? z ? row' (j & J1 & _ & J3) Hr]; subst; [exists []; split; [constructor|reflexivity]|].
  destruct (IH _ Hr) as (vis & V1 & V2). assert (j = i) as -> by (eapply nodup_index; eassumption).
  unfold coef in J3. destruct (nth_error x w) as [win|] eqn:Ew; [|discriminate]. destruct (nth_error win i) as [v|] eqn:Ei; [|discriminate].
  exists (v :: vis). split.
  - constructor; [|exact V1]. rewrite nd_vec_nd3, Ew. exact Ei.
  - cbn [map]. rewrite nth_nth_error, J3, V2. reflexivity.
Qed.
Lemma rows_related L c ref td td' p ed Zt : linear_library L -> processable L c td -> NoDup (chans (meta td')) ->
  run_all (l_rnd L) (l_drnd L) (l_orc L) (cf_time c) td = Ok td' -> to_evals L c ref td = Ok (p, ed) -> mixed td' (cf_tf c) Zt ->
  forall level w f orow irow, (0 <= level < sm_n_levels (sd_md ed))%Z -> window_row ed (tf_out (cf_tf c)) level w f orow -> window_row ed (tf_in (cf_tf c)) level w f irow ->
    Forall2 (fun Zo z => ceq z (cdot Zo irow)) (map (map real) Zt) orow.
Proof.
  intros HL HP ND HR HE HM level w f orow irow Hl (x & Ex & Ho) (x' & Ex' & Hi). assert (x' = x) as -> by (apply nd3_inj; congruence).
  destruct (to_evals_evaluated _ _ _ _ _ _ HP HE) as (td2 & R2 & _ & EC & _). assert (td2 = td') as -> by congruence. rewrite EC in Ho, Hi.
  unfold mixed in HM. revert orow Ho. induction HM as [|ch zs outs Zt' (LZ & out & ins & (o & O1 & O2) & SI & MX) HM IH]; intros orow Ho; inversion Ho as [|? z ? orow' (j & J1 & _ & J3) Hr]; subst; [constructor|].
  cbn [map]. constructor; [|exact (IH _ Hr)]. clear IH Hr.
  assert (j = o) as -> by (eapply nodup_index; eassumption).
  destruct (samples_indices _ _ _ SI) as (is & I1 & I2).
  assert (LZ' : length zs = length is) by (rewrite LZ; symmetry; exact (Forall2_length' _ _ _ I1)).
  assert (M : smix zs o is ed). { apply (to_evals_mix L c ref td td' p ed zs o is HL HP LZ' HR HE). exists out, ins. split; [exact O2|]. split; [exact I2|exact MX]. }
  destruct (row_vectors x _ _ _ _ _ _ ND I1 Hi) as (vis & V1 & V2).
  unfold coef in J3. destruct (nth_error x (Z.to_nat w)) as [win|] eqn:Ew; [|discriminate]. destruct (nth_error win o) as [v|] eqn:Eo; [|discriminate].
  destruct (M level (nd3 x) Hl Ex (Z.to_nat w) v vis ltac:(rewrite nd_vec_nd3, Ew; exact Eo) V1) as [_ K].
  rewrite V2. etransitivity; [exact (K _ _ J3)|]. apply vdot_cdot.
Qed.

(** ** gathering and regression *)
Lemma concat_nth' {B} n (ls : list (list B)) i j : (forall l, In l ls -> length l = n) -> (j < n)%nat ->
  nth_error (concat ls) (n * i + j) = match nth_error ls i with Some l => nth_error l j | None => None end.
Proof.
  intros H Hj. revert i. induction ls as [|l ls IH]; intros i; [destruct i, (n * _ + j)%nat; reflexivity|]. cbn [concat].
  pose proof (H l (or_introl eq_refl)) as L. destruct i as [|i].
  - rewrite Nat.mul_0_r. cbn [Nat.add nth_error]. apply nth_error_app1. lia.
  - rewrite nth_error_app2 by nia. replace (n * S i + j - length l)%nat with (n * i + j)%nat by nia. cbn [nth_error]. apply IH. intros x Hx. apply H. right. exact Hx.
Qed.
Open Scope Z_scope.
Lemma row_len (d : spec_data cq) chans level w f row : window_row d chans level w f row -> length row = length chans.
Proof. intros (x & _ & H). symmetry. exact (Forall2_length' _ _ _ H). Qed.
Lemma rows_wide' (d : spec_data cq) chans l f rows : all_rows d chans l f rows -> wide (length chans) rows.
Proof. intros (m & _ & _ & H) row Hr. apply In_nth_error in Hr. destruct Hr as [w Hw]. exact (row_len _ _ _ _ _ _ (H w row Hw)). Qed.
Lemma quick_recovers (L : library) (c : config) name sfs p ed Zt : let tf := cf_tf c in
  l_cmul L = ctimes -> junk_shape (l_junk1 L) (l_junk2 L) -> least_squares (l_fit L) ->
  NoDup (tf_out tf) -> NoDup (tf_in tf) -> keys_distinct tf -> has_channels tf (sm_chans (sd_md ed)) ->
  dec_params_of L c sfs = Ok p -> 1 <= ds_per_level (cf_dec c) -> evaluated (length (sm_chans (sd_md ed))) p ed ->
  (forall level f, length (Zt level f) = length (tf_out tf) /\ wide (length (tf_in tf)) (Zt level f)) ->
  (forall level w f orow irow, 0 <= level < sm_n_levels (sd_md ed) -> window_row ed (tf_out tf) level w f orow -> window_row ed (tf_in tf) level w f irow ->
     Forall2 (fun Zo z => ceq z (cdot Zo irow)) (Zt level f) orow) ->
  (forall level f, 0 <= level < sm_n_levels (sd_md ed) -> 0 <= f < dp_per_level p -> evals_determine ed tf level f) ->
  exists sol, (g <- quick_gather name p tf ed ;; run_regression L c g) = Ok sol /\
    forall level f, 0 <= level < sm_n_levels (sd_md ed) -> 0 <= f < dp_per_level p ->
      exists t fr, sol_tensor sol (dp_per_level p * level + f) = Ok t /\ Forall2 (Forall2 ceq) t (Zt level f) /\
        nth_error (so_freqs sol) (Z.to_nat (dp_per_level p * level + f)) = Some fr /\ level_eval_freq p level f = Ok fr.
Proof.
  intros tf HM HJ HF ND1 ND2 KD HC HP HPL EV HZ HRel HDet. destruct HC as (C1 & C2 & C3 & I1 & I2 & I3).
  assert (HP0 : 0 <= ds_per_level (cf_dec c)) by lia.
  assert (HC : (0 < length (sm_chans (sd_md ed)))%nat). { destruct (sm_chans (sd_md ed)) as [|q qs]; [|cbn; lia]. exfalso. destruct (tf_out tf) as [|a r]; [congruence|]. exact (I1 a (or_introl eq_refl)). }
  destruct (evaluated_good _ _ _ _ _ _ _ _ HP0 HP eq_refl HC EV) as (GE & QS & LF). destruct EV as (R1 & R2 & R3).
  assert (EP : dp_per_level p = ds_per_level (cf_dec c)). { destruct (setup_run_inv _ _ _ _ _ _ HP) as (? & ? & _ & _ & _ & _ & ->). reflexivity. }
  set (P := dp_per_level p) in *. assert (HP1 : 1 <= P) by lia.
  destruct (quick_combined_ok name p ed (tf_out tf) ltac:(lia) GE QS C1 I1) as (qo & Eo & S1 & _ & Q2).
  destruct (quick_combined_ok name p ed (tf_in tf) ltac:(lia) GE QS C2 I2) as (qi & Ei & S2 & _).
  destruct (quick_combined_ok name p ed (tf_cross tf) ltac:(lia) GE QS C3 I3) as (qc & Ec & S3 & _).
  set (g := mkGathered qo qi qc). set (ls := map sl_freqs (sm_levels (sd_md ed))).
  assert (EG : quick_gather name p tf ed = Ok g) by (unfold quick_gather; rewrite Eo; cbn [bind]; rewrite Ei; cbn [bind]; rewrite Ec; reflexivity).
  assert (NLS : forall i lf, nth_error ls i = Some lf -> level_eval_freqs p (Z.of_nat i) = Ok lf).
  { intros i lf Hi. unfold ls in Hi. rewrite nth_error_map in Hi. destruct (nth_error _ i) as [m|] eqn:E; [|discriminate]. injection Hi as <-. apply LF; [rewrite Nat2Z.id; exact E|lia]. }
  assert (LL : Z.of_nat (length ls) = sm_n_levels (sd_md ed)) by (unfold ls; rewrite map_length; unfold levels_ok in R1; lia).
  assert (LE : forall l, In l ls -> length l = Z.to_nat P).
  { intros l Hl. apply In_nth_error in Hl. destruct Hl as [i Hi]. pose proof (level_freqs_len _ _ _ _ _ _ _ _ HP0 HP (NLS _ _ Hi)) as K. unfold P. lia. }
  assert (F1 : cb_eval_freqs (g_out g) = concat ls) by exact Q2.
  assert (KEY : forall k, (k < length (concat ls))%nat -> let level := Z.of_nat k / P in let f := Z.of_nat k mod P in
     0 <= level < sm_n_levels (sd_md ed) /\ 0 <= f < P /\ Z.of_nat k = P * level + f).
  { intros k Hk level f. rewrite (concat_len (Z.to_nat P) ls LE) in Hk.
    assert (Z.of_nat k < sm_n_levels (sd_md ed) * P) by nia. pose proof (Z.div_mod (Z.of_nat k) P ltac:(lia)) as E. pose proof (Z.mod_pos_bound (Z.of_nat k) P ltac:(lia)) as B.
    fold level f in E, B. split; [|split; [exact B|exact E]]. split; [apply Z.div_pos; lia|]. apply Z.div_lt_upper_bound; lia. }
  set (Zk := fun k : nat => Zt (Z.of_nat k / P) (Z.of_nat k mod P)).
  assert (DATA : forall k, (k < length (concat ls))%nat -> exists outs ins crosses, freq_data g k outs ins crosses /\
     all_rows ed (tf_out tf) (Z.of_nat k / P) (Z.of_nat k mod P) outs /\ all_rows ed (tf_in tf) (Z.of_nat k / P) (Z.of_nat k mod P) ins /\
     all_rows ed (tf_cross tf) (Z.of_nat k / P) (Z.of_nat k mod P) crosses).
  { intros k Hk. destruct (KEY k Hk) as (K1 & K2 & K3).
    destruct (S1 _ _ K1 K2) as (o & Do & Ro). destruct (S2 _ _ K1 K2) as (i & Di & Ri). destruct (S3 _ _ K1 K2) as (x & Dx & Rx).
    fold P in Do, Di, Dx. rewrite <- K3 in Do, Di, Dx. exists o, i, x. split; [split; [exact Do|split; [exact Di|exact Dx]]|]. auto. }
  assert (LEN : forall cs cs' l f r r', all_rows ed cs l f r -> all_rows ed cs' l f r' -> length r = length r').
  { intros cs cs' l f r r' (m & Em & Lm & _) (m' & Em' & Lm' & _). assert (m' = m) as -> by congruence. lia. }
  destruct (c50_end (l_junk1 L) (l_junk2 L) (l_fit L) tf g Zk HJ HF) as (r & sol & Hr & Hs & Hfr & Hten); try assumption.
  - intros k Hk. rewrite F1 in Hk. destruct (DATA k Hk) as (outs & ins & crosses & FD & A1 & A2 & A3). exists outs, ins, crosses. split; [exact FD|].
    split; [exact (LEN _ _ _ _ _ _ A2 A1)|]. split; [exact (LEN _ _ _ _ _ _ A3 A1)|].
    split; [exact (rows_wide' _ _ _ _ _ A1)|]. split; [exact (rows_wide' _ _ _ _ _ A2)|exact (rows_wide' _ _ _ _ _ A3)].
  - intros k _. apply HZ.
  - intros k outs ins crosses Hk FD. rewrite F1 in Hk. destruct (DATA k Hk) as (outs' & ins' & crosses' & (E1 & E2 & E3) & A1 & A2 & A3).
    destruct FD as (E1' & E2' & E3'). assert (outs' = outs) as -> by congruence. assert (ins' = ins) as -> by congruence. assert (crosses' = crosses) as -> by congruence.
    destruct (KEY k Hk) as (K1 & K2 & K3). pose proof A1 as (m & _ & L1 & W1). pose proof A2 as (m' & _ & L2 & W2). pose proof A3 as (m'' & _ & L3 & W3). split.
    + intros w orow irow Ho Hi. exact (HRel _ _ _ _ _ K1 (W1 _ _ Ho) (W2 _ _ Hi)).
    + intros D LD H. apply (HDet _ _ K1 K2 D LD). intros w irow crow cc Hw Q1 Q3 Hcc.
      assert (IN : forall cs rows row, all_rows ed cs (Z.of_nat k / P) (Z.of_nat k mod P) rows -> window_row ed cs (Z.of_nat k / P) w (Z.of_nat k mod P) row -> cs <> [] -> nth_error rows (Z.to_nat w) = Some row).
      { intros cs rows row (n & N1 & N2 & N3) WR NC. assert (HB : w < sl_n_wins n).
        { destruct (R3 _ K1) as (n' & y & B1 & B2 & B3 & _). assert (n' = n) as -> by congruence. destruct WR as (x & Ex & Hx). assert (x = y) as -> by (apply nd3_inj; congruence).
          destruct cs as [|c1 cs]; [congruence|]. inversion Hx as [|? z ? row' (i & _ & _ & J) _]; subst. unfold coef in J. destruct (nth_error y (Z.to_nat w)) eqn:E; [|discriminate].
          assert (Z.to_nat w < length y)%nat by (apply nth_error_Some; congruence). lia. }
        destruct (nth_error rows (Z.to_nat w)) as [row'|] eqn:E; [|apply nth_error_None in E; lia]. f_equal.
        specialize (N3 _ _ E). rewrite Z2Nat.id in N3 by exact Hw. exact (window_row_fun _ _ _ _ _ _ _ N3 WR). }
      exact (H (Z.to_nat w) irow crow cc (IN _ _ _ A2 Q1 C2) (IN _ _ _ A3 Q3 C3) Hcc).
  - exists sol. split.
    { rewrite EG. cbn [bind]. unfold run_regression. fold tf. rewrite HM, Hr. cbn [bind]. exact Hs. }
    intros level f Hl Hf. set (k := Z.to_nat (P * level + f)). assert (Ek : Z.of_nat k = P * level + f) by (unfold k; nia).
    assert (Hk : (k < length (concat ls))%nat). { rewrite (concat_len (Z.to_nat P) ls LE). apply Nat2Z.inj_lt. rewrite Ek, Nat2Z.inj_mul, LL, !Z2Nat.id by lia. nia. }
    assert (Hk' : (k < length (cb_eval_freqs (g_out g)))%nat) by (rewrite F1; exact Hk).
    destruct (Hten k Hk') as (t & Et & Rt). rewrite Ek in Et.
    assert (Dv : (P * level + f) / P = level) by (symmetry; apply (Z.div_unique _ _ _ f); lia). assert (Md : (P * level + f) mod P = f) by (symmetry; apply (Z.mod_unique _ _ level); lia).
    unfold Zk in Rt. rewrite Ek, Dv, Md in Rt.
    destruct (nth_error ls (Z.to_nat level)) as [lf|] eqn:NL; [|apply nth_error_None in NL; lia].
    pose proof (NLS _ _ NL) as Elf. rewrite Z2Nat.id in Elf by lia.
    destruct (nth_error lf (Z.to_nat f)) as [fr|] eqn:Nf; [|apply nth_error_None in Nf; rewrite (LE lf (nth_error_In _ _ NL)) in Nf; lia].
    exists t, fr. split; [exact Et|]. split; [exact Rt|]. split.
    + rewrite Hfr, F1. change (nth_error (concat ls) k = Some fr). replace k with (Z.to_nat P * Z.to_nat level + Z.to_nat f)%nat by (unfold k; nia).
      rewrite (concat_nth' (Z.to_nat P)) by (assumption || lia). rewrite NL. exact Nf.
    + assert (LB : 0 <= level < dp_n_levels p). { unfold level_eval_freqs, check_level in Elf. destruct ((level <? 0) || (level >=? dp_n_levels p)) eqn:E; [discriminate|]. lia. }
      assert (SZ : Z.of_nat (length (dp_eval_freqs p)) = dp_n_levels p * dp_per_level p).
      { destruct (setup_run_inv _ _ _ _ _ _ HP) as (freqs & factors & _ & _ & _ & _ & E). assert (0 <= ds_n_levels (cf_dec c)) by (rewrite E in LB; cbn in LB; lia).
        destruct (setup_size _ _ _ _ _ _ H HP0 HP) as (E1 & _ & _). exact E1. }
      destruct (c29_lookup p level f ltac:(unfold P in *; lia) SZ LB) as (lf' & Elf' & _ & Hlf & _). destruct (Hlf Hf) as (fr' & Efr & Nfr). congruence.
Qed.

(** the run from the time data *)
Lemma real_shape (Zt : list (list Q)) (tf : tf_chans) td : mixed td tf Zt -> length (map (map real) Zt) = length (tf_out tf) /\ wide (length (tf_in tf)) (map (map real) Zt).
Proof.
  intros H. split; [rewrite map_length; symmetry; exact (Forall2_length' _ _ _ H)|]. intros row Hr. apply in_map_iff in Hr. destruct Hr as (zs & <- & Hz). rewrite map_length.
  apply In_nth_error in Hz. destruct Hz as [i Hi]. destruct (Forall2_nth_error_r _ _ _ _ _ H Hi) as (x & _ & E & _). exact E.
Qed.
Lemma recovers (L : library) (c : config) name td td' p ed Zt : let tf := cf_tf c in
  linear_library L -> l_cmul L = ctimes -> junk_shape (l_junk1 L) (l_junk2 L) -> least_squares (l_fit L) ->
  processable L c td -> NoDup (tf_out tf) -> NoDup (tf_in tf) -> keys_distinct tf ->
  run_all (l_rnd L) (l_drnd L) (l_orc L) (cf_time c) td = Ok td' -> NoDup (chans (meta td')) -> mixed td' tf Zt ->
  to_evals L c (first_time (meta td)) td = Ok (p, ed) ->
  (forall level f, 0 <= level < sm_n_levels (sd_md ed) -> 0 <= f < dp_per_level p -> evals_determine ed tf level f) ->
  exists sol, quick_tf L c None name td = Ok sol /\ forall level f, 0 <= level < sm_n_levels (sd_md ed) -> 0 <= f < dp_per_level p ->
      exists t fr, sol_tensor sol (dp_per_level p * level + f) = Ok t /\ Forall2 (Forall2 ceq) t (map (map real) Zt) /\ nth_error (so_freqs sol) (Z.to_nat (dp_per_level p * level + f)) = Some fr /\ level_eval_freq p level f = Ok fr.
Proof.
  intros tf HL HM HJ HF HP ND1 ND2 KD HR ND HX HE HD. unfold quick_tf. rewrite HE. cbn [bind].
  destruct (to_evals_evaluated _ _ _ _ _ _ HP HE) as (td2 & R2 & P2 & EC & _ & HC & EV). assert (td2 = td') as -> by congruence.
  apply (quick_recovers L c name (fs (meta td')) p ed (fun _ _ => map (map real) Zt)); try assumption.
  - rewrite EC. exact HC.
  - exact (proj1 (proj2 (proj2 HP))).
  - intros _ _. exact (real_shape _ _ _ HX).
  - intros level w f orow irow Hl. exact (rows_related _ _ _ _ _ _ _ _ HL HP ND HR HE HX level w f orow irow Hl).
Qed.

(** ** time processors *)
Open Scope Q_scope.
Lemma slice_mix a b zs o is rs : rmix zs o is rs -> rmix zs o is (map (slice a b) rs).
Proof.
  intros (out & ins & Ho & Hi & Hm). exists (slice a b out), (map (slice a b) ins). split; [rewrite nth_error_map, Ho; cbn; f_equal; apply slice_map|].
  split; [|apply slice_mixes; exact Hm]. apply Forall2_map_r. clear Hm. induction Hi as [|i u is ins E H IH]; constructor; [|exact IH]. rewrite nth_error_map, E. cbn. f_equal. apply slice_map.
Qed.
Lemma mapM_total_map {A B} (g : A -> B) l : mapM (fun r => Ok (g r)) l = Ok (map g l).
Proof. induction l as [|x l IH]; [reflexivity|]. cbn. rewrite IH. reflexivity. Qed.
Section Exact.
  Variable drnd : Q -> Q.
  Hypothesis ED : forall x, drnd x == x.
  Definition qsum (u : list Q) (a : Q) : Q := fold_left (fun a x => drnd (a + x)) u a.
  Lemma row_sum_some u : forall a, fold_left (Time.cadd drnd) (map Some u) (Some a) = Some (qsum u a).
  Proof. induction u as [|x u IH]; intros a; [reflexivity|]. cbn. apply IH. Qed.
  Lemma qsum_axpy a u v w : axpy a u v w -> forall x y z, z == a * x + y -> qsum w z == a * qsum u x + qsum v y.
  Proof.
    revert u v. induction w as [|c w IH]; intros [|p u] [|q v] (L1 & L2 & H) x y z E; try discriminate; [exact E|].
    cbn [qsum fold_left]. apply IH.
    - split; [cbn in L1; lia|]. split; [cbn in L2; lia|]. intros k x1 y1 z1 A B C. exact (H (S k) x1 y1 z1 A B C).
    - rewrite !ED, E, (H 0%nat p q c eq_refl eq_refl eq_refl). ring.
  Qed.
  Lemma mean_linear : linear_routine (fun r => Ok (map (fun v => Time.csub drnd v (Time.row_mean drnd r)) r)).
  Proof.
    intros n. right. destruct n as [|n].
    - exists (fun u => u). split; [intros [|x u] H; [reflexivity|discriminate]|]. intros a u v w L H. exact H.
    - set (mean := fun u : list Q => drnd (qsum u 0 / inject_Z (Z.of_nat (S n)))). exists (fun u => map (fun x => drnd (x - mean u)) u). split.
      + intros u L. f_equal. unfold Time.row_mean, Time.row_sum. rewrite row_sum_some, map_length, L. unfold Time.cdivn. destruct (Z.eqb_spec (Z.of_nat (S n)) 0) as [K|_]; [lia|]. rewrite !map_map. reflexivity.
      + intros a u v w L (L1 & L2 & H). split; [rewrite !map_length; exact L1|]. split; [rewrite !map_length; exact L2|]. intros k x y z Hx Hy Hz.
        rewrite nth_error_map in Hx, Hy, Hz. destruct (nth_error u k) as [x'|] eqn:Ex; [|discriminate]. destruct (nth_error v k) as [y'|] eqn:Ey; [|discriminate]. destruct (nth_error w k) as [z'|] eqn:Ez; [|discriminate].
        injection Hx as <-. injection Hy as <-. injection Hz as <-. rewrite !ED. unfold mean. rewrite !ED. rewrite (H k _ _ _ Ex Ey Ez).
        rewrite (qsum_axpy a u v w (conj L1 (conj L2 H)) 0 0 0) by ring. field. unfold Qeq. cbn. lia.
  Qed.
  Lemma scale_linear q : linear_routine (fun r => Ok (map (fun x => Time.cmul drnd x (Some q)) r)).
  Proof.
    intros n. right. exists (fun u => map (fun x => drnd (x * q)) u). split; [intros u _; rewrite !map_map; reflexivity|].
    intros a u v w L (L1 & L2 & H). split; [rewrite !map_length; exact L1|]. split; [rewrite !map_length; exact L2|]. intros k x y z Hx Hy Hz.
    rewrite nth_error_map in Hx, Hy, Hz. destruct (nth_error u k) as [x'|] eqn:Ex; [|discriminate]. destruct (nth_error v k) as [y'|] eqn:Ey; [|discriminate]. destruct (nth_error w k) as [z'|] eqn:Ez; [|discriminate].
    injection Hx as <-. injection Hy as <-. injection Hz as <-. rewrite !ED, (H k _ _ _ Ex Ey Ez). ring.
  Qed.
End Exact.
Lemma rowwise_repeat drnd q : forall d n d', Time.rowwise (Time.cmul drnd) d (repeat q n) = Ok d' -> d' = map (fun r => map (fun x => Time.cmul drnd x (Some q)) r) d.
Proof.
  intros d n d' H. unfold Time.rowwise in H. destruct (Nat.eqb_spec (length d) (length (repeat q n))) as [E|]; [|discriminate]. injection H as <-. rewrite repeat_length in E. subst n.
  induction d as [|r d IH]; [reflexivity|]. cbn. f_equal. exact IH.
Qed.
Lemma map_repeat' {A B} (g : A -> B) x n : map g (repeat x n) = repeat (g x) n.
Proof. induction n as [|n IH]; [reflexivity|]. cbn. rewrite IH. reflexivity. Qed.
Lemma proc_mix rnd drnd orc p td td' zs o is : (forall x, drnd x == x) -> (forall b k l, linear_routine (o_filter orc b k l)) ->
  (forall q, linear_routine (o_decimate orc q)) -> (forall p q, linear_routine (o_resample orc p q)) -> linear_proc p -> length zs = length is ->
  run rnd drnd orc p td = Ok td' -> rmix zs o is (rows td) -> rmix zs o is (rows td') /\ chans (meta td') = chans (meta td).
Proof.
  intros ED HF HD HR HP LZ H M.
  assert (FI : forall bt ord cut q, filter_run orc bt ord cut q td = Ok td' -> rmix zs o is (rows td') /\ chans (meta td') = chans (meta td)).
  { intros bt ord cut q E. unfold filter_run in E. apply bind_ok in E. destruct E as (l & _ & E). apply bind_ok in E. destruct E as (d & E1 & E). injection E as <-. cbn. split; [|reflexivity].
    exact (routine_mix _ _ _ _ _ _ (HF _ _ _) LZ E1 M). }
  destruct p; cbn [run linear_proc] in *; try contradiction; try (exact (FI _ _ _ _ H)).
  - unfold subsection in H. apply bind_ok in H. destruct H as ([a b] & _ & H). apply bind_ok in H. destruct H as ([ta tb] & _ & H). injection H as <-. cbn. split; [apply slice_mix; exact M|reflexivity].
  - unfold remove_mean in H. injection H as <-. cbn. split; [|reflexivity]. apply (routine_mix _ _ _ _ _ _ (mean_linear drnd ED) LZ (mapM_total_map _ _) M).
  - destruct a as [v|]; [|contradiction]. unfold multiply in H. apply bind_ok in H. destruct H as (vs & E & H). apply bind_ok in H. destruct H as (d & E1 & H). injection H as <-. cbn. split; [|reflexivity].
    unfold get_mult in E. injection E as <-. rewrite map_repeat' in E1. apply rowwise_repeat in E1. subst d.
    apply (routine_mix _ _ _ _ _ _ (scale_linear drnd ED _) LZ (mapM_total_map _ _) M).
  - exact (resample_mix _ _ _ _ _ _ _ _ HR LZ H M).
  - exact (decimate_mix _ _ _ _ _ _ _ _ _ HD LZ H M).
Qed.

Lemma mixed_run rnd drnd orc p td td' tf Zt : (forall x, drnd x == x) -> (forall b k l, linear_routine (o_filter orc b k l)) ->
  (forall q, linear_routine (o_decimate orc q)) -> (forall p q, linear_routine (o_resample orc p q)) -> linear_proc p ->
  run rnd drnd orc p td = Ok td' -> tf_out tf <> [] -> mixed td tf Zt -> mixed td' tf Zt /\ chans (meta td') = chans (meta td).
Proof.
  intros ED HF HD HR HP H NE M.
  assert (K : forall c zs, (length zs = length (tf_in tf) /\ exists out ins, channel_samples td c out /\ Forall2 (channel_samples td) (tf_in tf) ins /\ mixes zs ins out) ->
    (length zs = length (tf_in tf) /\ exists out ins, channel_samples td' c out /\ Forall2 (channel_samples td') (tf_in tf) ins /\ mixes zs ins out) /\ chans (meta td') = chans (meta td)).
  { intros c zs (LZ & out & ins & (o & O1 & O2) & SI & MX). destruct (samples_indices _ _ _ SI) as (is & I1 & I2).
    assert (LZ' : length zs = length is) by (rewrite LZ; symmetry; exact (Forall2_length' _ _ _ I1)).
    destruct (proc_mix rnd drnd orc p td td' zs o is ED HF HD HR HP LZ' H) as [(out' & ins' & O2' & I2' & MX') EC]; [exists out, ins; split; [exact O2|split; [exact I2|exact MX]]|].
    split; [|exact EC]. split; [exact LZ|]. exists out', ins'. split; [exists o; split; [rewrite EC; exact O1|exact O2']|]. split; [|exact MX'].
    clear -I1 I2' EC. revert ins' I2'. induction I1 as [|i c is cs E H IH]; intros ins' I2'; inversion I2' as [|? u ? ins2 E2 H2]; subst; constructor; [|apply IH; exact H2].
    exists i. split; [rewrite EC; exact E|exact E2]. }
  split.
  - unfold mixed in *. clear NE. induction M as [|c zs outs Zt' E M IH]; constructor; [exact (proj1 (K _ _ E))|exact IH].
  - unfold mixed in M. destruct M as [|c zs outs Zt' E M]; [congruence|]. exact (proj2 (K _ _ E)).
Qed.
Lemma mixed_run_all rnd drnd orc ps tf Zt : (forall x, drnd x == x) -> (forall b k l, linear_routine (o_filter orc b k l)) ->
  (forall q, linear_routine (o_decimate orc q)) -> (forall p q, linear_routine (o_resample orc p q)) -> Forall linear_proc ps ->
  forall td td', run_all rnd drnd orc ps td = Ok td' -> tf_out tf <> [] -> mixed td tf Zt -> mixed td' tf Zt /\ chans (meta td') = chans (meta td).
Proof.
  intros ED HF HD HR HP. induction HP as [|p ps E HP IH]; intros td td' H NE M; cbn [run_all] in H; [injection H as <-; split; [exact M|reflexivity]|].
  apply bind_ok in H. destruct H as (td1 & H1 & H). destruct (mixed_run _ _ _ _ _ _ _ _ ED HF HD HR E H1 NE M) as [M1 E1]. destruct (IH _ _ H NE M1) as [M2 E2]. split; [exact M2|congruence].
Qed.
Open Scope Z_scope.
Lemma recovers_raw (L : library) (c : config) name td p ed Zt : let tf := cf_tf c in
  linear_library L -> (forall b k l, linear_routine (o_filter (l_orc L) b k l)) -> (forall x, l_drnd L x == x)%Q -> Forall linear_proc (cf_time c) ->
  l_cmul L = ctimes -> junk_shape (l_junk1 L) (l_junk2 L) -> least_squares (l_fit L) ->
  processable L c td -> NoDup (tf_out tf) -> NoDup (tf_in tf) -> keys_distinct tf ->
  NoDup (chans (meta td)) -> mixed td tf Zt ->
  to_evals L c (first_time (meta td)) td = Ok (p, ed) ->
  (forall level f, 0 <= level < sm_n_levels (sd_md ed) -> 0 <= f < dp_per_level p -> evals_determine ed tf level f) ->
  exists sol, quick_tf L c None name td = Ok sol /\
    forall level f, 0 <= level < sm_n_levels (sd_md ed) -> 0 <= f < dp_per_level p ->
      exists t fr, sol_tensor sol (dp_per_level p * level + f) = Ok t /\ Forall2 (Forall2 ceq) t (map (map real) Zt) /\
        nth_error (so_freqs sol) (Z.to_nat (dp_per_level p * level + f)) = Some fr /\ level_eval_freq p level f = Ok fr.
Proof.
  intros tf HL HFi ED HPr HM HJ HF HP ND1 ND2 KD ND HX HE HD.
  destruct (to_evals_evaluated _ _ _ _ _ _ HP HE) as (td' & R2 & _ & _ & _ & HC & _).
  assert (NE : tf_out tf <> []) by exact (proj1 HC).
  destruct (mixed_run_all _ _ _ _ tf Zt ED HFi (proj1 HL) (proj1 (proj2 HL)) HPr _ _ R2 NE HX) as [M EC].
  apply (recovers L c name td td' p ed Zt); try assumption. rewrite EC. exact ND.
Qed.
Lemma recovers_spectra (L : library) (c : config) name td p ed Zt : let tf := cf_tf c in
  l_cmul L = ctimes -> junk_shape (l_junk1 L) (l_junk2 L) -> least_squares (l_fit L) ->
  processable L c td -> NoDup (tf_out tf) -> NoDup (tf_in tf) -> keys_distinct tf ->
  to_evals L c (first_time (meta td)) td = Ok (p, ed) ->
  (forall level f, length (Zt level f) = length (tf_out tf) /\ wide (length (tf_in tf)) (Zt level f)) ->
  (forall level w f orow irow, 0 <= level < sm_n_levels (sd_md ed) -> window_row ed (tf_out tf) level w f orow -> window_row ed (tf_in tf) level w f irow ->
     Forall2 (fun Zo z => ceq z (cdot Zo irow)) (Zt level f) orow) ->
  (forall level f, 0 <= level < sm_n_levels (sd_md ed) -> 0 <= f < dp_per_level p -> evals_determine ed tf level f) ->
  exists sol, quick_tf L c None name td = Ok sol /\
    forall level f, 0 <= level < sm_n_levels (sd_md ed) -> 0 <= f < dp_per_level p ->
      exists t fr, sol_tensor sol (dp_per_level p * level + f) = Ok t /\ Forall2 (Forall2 ceq) t (Zt level f) /\
        nth_error (so_freqs sol) (Z.to_nat (dp_per_level p * level + f)) = Some fr /\ level_eval_freq p level f = Ok fr.
Proof.
  intros tf HM HJ HF HP ND1 ND2 KD HE HZ HX HD. unfold quick_tf. rewrite HE. cbn [bind].
  destruct (to_evals_evaluated _ _ _ _ _ _ HP HE) as (td' & R2 & P2 & EC & _ & HC & EV).
  apply (quick_recovers L c name (fs (meta td')) p ed Zt); try assumption; [rewrite EC; exact HC|exact (proj1 (proj2 (proj2 HP)))].
Qed.
Lemma recovers_project (L : library) (c : config) cal proj site meas td p ed Zt s : let tf := cf_tf c in
  find (fun x : string * raw_site => String.eqb (fst x) site) proj = Some (site, [(meas, (fs (meta td), Ok td))]) ->
  keeps_fs L c td -> (forall x, no_success cal x) -> junk_rows L ->
  linear_library L -> (forall b k l, linear_routine (o_filter (l_orc L) b k l)) -> (forall x, l_drnd L x == x)%Q -> Forall linear_proc (cf_time c) ->
  l_cmul L = ctimes -> junk_shape (l_junk1 L) (l_junk2 L) -> least_squares (l_fit L) ->
  processable L c td -> NoDup (tf_out tf) -> NoDup (tf_in tf) -> keys_distinct tf ->
  NoDup (chans (meta td)) -> mixed td tf Zt ->
  to_evals L c (first_time (meta td)) td = Ok (p, ed) ->
  (forall level f, 0 <= level < sm_n_levels (sd_md ed) -> 0 <= f < dp_per_level p -> evals_determine ed tf level f) ->
  exists s' sol, process_time_to_evals L c cal (first_time (meta td)) proj site meas s = (s', Ok tt) /\
    process_evals_to_tf L c proj s' (fs (meta td)) site None None = Ok sol /\
    forall level f, 0 <= level < sm_n_levels (sd_md ed) -> 0 <= f < dp_per_level p ->
      exists t fr, sol_tensor sol (dp_per_level p * level + f) = Ok t /\ Forall2 (Forall2 ceq) t (map (map real) Zt) /\
        nth_error (so_freqs sol) (Z.to_nat (dp_per_level p * level + f)) = Some fr /\ level_eval_freq p level f = Ok fr.
Proof.
  intros tf HFi HK HNo HJR HL HFl ED HPr HM HJ HF HP ND1 ND2 KD ND HX HE HD.
  destruct (recovers_raw L c meas td p ed Zt HL HFl ED HPr HM HJ HF HP ND1 ND2 KD ND HX HE HD) as (sol & Q & R).
  destruct (process_time_to_evals L c cal (first_time (meta td)) proj site meas s) as [s' r] eqn:E.
  pose proof (c67 L c cal None proj site meas td s s' r HFi HP HK (or_intror (conj eq_refl HNo)) HJR E) as K.
  destruct r as [u|e]; [|congruence]. destruct u. exists s', sol. split; [reflexivity|]. split; [congruence|exact R].
Qed.
