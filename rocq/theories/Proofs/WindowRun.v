From Coq Require Import String.
From Verif Require Import Base.Prelude Base.Rounding Base.ListUtil Base.NdArray Model.Sampling Model.Time Model.Decimate Model.Window
  Spec.Sampling Spec.Window Proofs.Sampling Proofs.SamplingFloat Proofs.TimeMeta Proofs.DecParams Proofs.Window Proofs.WindowTable.
Open Scope Q_scope.

(** ** python slices *)
Lemma flat_some {A} (f : nat -> option A) (g : nat -> A) k n : (forall i, (k <= i < k + n)%nat -> f i = Some (g i)) ->
  flat_map (fun i => match f i with Some x => [x] | None => [] end) (seq k n) = map g (seq k n).
Proof.
  revert k. induction n as [|n IH]; intros k H; [reflexivity|]. cbn [seq flat_map map].
  rewrite (H k) by lia. rewrite IH by (intros; apply H; lia). reflexivity.
Qed.
Lemma py_slice_pos {A} start step (k : nat) (l : list A) : (0 <= start)%Z -> (0 < step)%Z -> (1 <= k)%nat ->
  (start + (Z.of_nat k - 1) * step < Z.of_nat (length l))%Z ->
  exists r, py_slice start (start + (Z.of_nat k - 1) * step + 1) step l = Ok r /\ length r = k /\
    forall i, (i < k)%nat -> nth_error r i = nth_error l (Z.to_nat (start + Z.of_nat i * step)).
Proof.
  intros H0 Hs Hk Hb. unfold py_slice. destruct (Z.eqb_spec step 0) as [|_]; [lia|].
  destruct (Z.ltb_spec 0 step) as [_|]; [|lia]. cbv zeta.
  destruct (Z.ltb_spec start 0) as [|_]; [lia|].
  assert (N1 : (0 <= (Z.of_nat k - 1) * step)%Z) by nia.
  destruct (Z.ltb_spec (start + (Z.of_nat k - 1) * step + 1) 0) as [|_]; [lia|].
  rewrite (Z.min_r _ start) by lia. rewrite (Z.min_r _ (start + (Z.of_nat k - 1) * step + 1)) by lia.
  assert (EC : ((start + (Z.of_nat k - 1) * step + 1 - start + step - 1) / step = Z.of_nat k)%Z).
  { replace (start + (Z.of_nat k - 1) * step + 1 - start + step - 1)%Z with (Z.of_nat k * step)%Z by lia. apply Z.div_mul. lia. }
  rewrite EC, Nat2Z.id. destruct l as [|d0 l']; [cbn in Hb; nia|]. set (l := d0 :: l') in *.
  assert (B : forall i, (i < k)%nat -> (Z.to_nat (start + Z.of_nat i * step) < length l)%nat).
  { intros i Hi. assert (Z.of_nat i * step <= (Z.of_nat k - 1) * step)%Z by nia. assert (0 <= Z.of_nat i * step)%Z by nia. lia. }
  rewrite (flat_some _ (fun i => nth (Z.to_nat (start + Z.of_nat i * step)) l d0) 0 k).
  2:{ intros i Hi. apply nth_error_nth'. apply B. lia. }
  eexists. split; [reflexivity|]. split; [rewrite map_length, seq_length; reflexivity|].
  intros i Hi. rewrite nth_error_map. 
  assert (nth_error (seq 0 k) i = Some i) as E. { rewrite (nth_error_nth' _ 0%nat) by (rewrite seq_length; lia). rewrite seq_nth by lia. reflexivity. }
  rewrite E. cbn [option_map]. symmetry. apply nth_error_nth', B. lia.
Qed.

(** ** squeeze *)
Lemma squeeze_Ax {A} (l : list (nd A)) : length l <> 1%nat -> Forall (fun x => squeeze x = x) l -> squeeze (Ax l) = Ax l.
Proof.
  intros Hl F. cbn [squeeze]. assert (E : map squeeze l = l).
  { induction F as [|x l Hx F IH]; [reflexivity|]. cbn [map]. rewrite Hx. f_equal. destruct (Nat.eq_dec (length l) 1) as [L|L].
    - destruct F as [|y l' Hy F']; [reflexivity|]. destruct l'; [|cbn in L; lia]. cbn [map]. rewrite Hy. reflexivity.
    - apply IH. exact L. }
  rewrite E. destruct l as [|x [|y l]]; [reflexivity|cbn in Hl; lia|reflexivity].
Qed.
Lemma squeeze_single {A} (x : nd A) : squeeze (Ax [x]) = squeeze x.
Proof. reflexivity. Qed.
Lemma map_squeeze_single {A B} (f : B -> nd A) (l : list B) : map squeeze (map (fun b => Ax [f b]) l) = map (fun b => squeeze (f b)) l.
Proof. rewrite map_map. apply map_ext. reflexivity. Qed.

(** the window of [w] samples starting at [s], of one row *)
Definition row_window (row : list cell) (s w : Z) : nd cell := Ax (map Sc (slice s (s + w) row)).

Lemma row_window_len row s w : (0 <= s)%Z -> (0 <= w)%Z -> (s + w <= Z.of_nat (length row))%Z -> length (map (@Sc cell) (slice s (s + w) row)) = Z.to_nat w.
Proof. intros. rewrite map_length. pose proof (slice_length s (s + w) row). lia. Qed.
Lemma row_window_stable row s w : (0 <= s)%Z -> (2 <= w)%Z -> (s + w <= Z.of_nat (length row))%Z -> squeeze (row_window row s w) = row_window row s w.
Proof.
  intros. unfold row_window. apply squeeze_Ax.
  - rewrite row_window_len by lia. lia.
  - apply Forall_forall. intros x Hx. apply in_map_iff in Hx. destruct Hx as (c & <- & _). reflexivity.
Qed.
Lemma row_window_at row s w j : (0 <= s)%Z -> (0 <= j < w)%Z ->
  nd_nth (row_window row s w) (Z.to_nat j) = option_map Sc (nth_error row (Z.to_nat (s + j))).
Proof.
  intros Hs Hj. cbn [nd_nth row_window]. unfold row_window. cbn [nd_nth]. rewrite nth_error_map. f_equal.
  rewrite nth_error_slice by lia. rewrite Z2Nat.id by lia.
  destruct (Z.ltb_spec j (s + w - s)); [reflexivity|lia].
Qed.

Definition rect (data : list (list cell)) (n : Z) := forall r, In r data -> Z.of_nat (length r) = n.

Lemma view_outer data c w n : rect data n -> data <> [] -> c = Z.of_nat (length data) -> (0 <= w <= n)%Z ->
  sliding_window_view data c w = Ok (Ax [Ax (map (fun s0 => Ax (map (fun row => row_window row s0 w) data)) (arange (n - w + 1)))]).
Proof.
  intros R NE -> Hw. unfold sliding_window_view.
  assert (W : width data = n). { destruct data as [|r data]; [contradiction|]. cbn [width]. apply R. left. reflexivity. }
  rewrite W. destruct (Z.ltb_spec w 0); [lia|]. destruct (Z.ltb_spec (Z.of_nat (length data)) 0); [lia|].
  destruct (Z.ltb_spec (Z.of_nat (length data)) (Z.of_nat (length data))); [lia|]. destruct (Z.ltb_spec n w); [lia|]. cbn [orb].
  replace (Z.of_nat (length data) - Z.of_nat (length data) + 1)%Z with 1%Z by lia. change (arange 1) with [0%Z].
  cbn [map]. do 3 f_equal. f_equal. apply map_ext. intros s0. do 2 f_equal.
  unfold slice. rewrite Z.add_0_l, Z.sub_0_r, Nat2Z.id. cbn [Z.to_nat skipn]. apply firstn_all.
Qed.

Lemma arange_In n k : In k (arange n) -> (0 <= k < n)%Z.
Proof. unfold arange. intros H. apply in_map_iff in H. destruct H as (i & <- & Hi). apply in_seq in Hi. lia. Qed.

(** several channels, several start positions, windows of at least two samples *)
Lemma view_full data c w n v : rect data n -> c = Z.of_nat (length data) -> (2 <= c)%Z -> (2 <= w < n)%Z ->
  sliding_window_view data c w = Ok v ->
  squeeze v = Ax (map (fun s0 => Ax (map (fun row => row_window row s0 w) data)) (arange (n - w + 1))).
Proof.
  intros R Hc C2 Hw. rewrite (view_outer data c w n R) by (try lia; intros ->; cbn in Hc; lia). intros [= <-].
  rewrite squeeze_single. apply squeeze_Ax.
  - rewrite map_length, arange_length. lia.
  - apply Forall_forall. intros x Hx. apply in_map_iff in Hx. destruct Hx as (s0 & <- & Hs). apply arange_In in Hs.
    apply squeeze_Ax; [rewrite map_length; lia|]. apply Forall_forall. intros y Hy. apply in_map_iff in Hy. destruct Hy as (row & <- & Hr).
    apply row_window_stable; [lia|lia|]. rewrite (R row Hr). lia.
Qed.
(** one channel: the channel axis is dropped *)
Lemma view_one_chan row w n v : Z.of_nat (length row) = n -> (2 <= w < n)%Z ->
  sliding_window_view [row] 1 w = Ok v ->
  squeeze v = Ax (map (fun s0 => row_window row s0 w) (arange (n - w + 1))).
Proof.
  intros R Hw. rewrite (view_outer [row] 1 w n) by (try (cbn; lia); try discriminate; intros r [<-|[]]; exact R). intros [= <-].
  rewrite squeeze_single. cbn [map]. cbn [squeeze]. rewrite map_squeeze_single.
  assert (E : map (fun b => squeeze (row_window row b w)) (arange (n - w + 1)) = map (fun b => row_window row b w) (arange (n - w + 1))).
  { apply map_ext_in. intros s Hs. apply arange_In in Hs. apply row_window_stable; lia. }
  rewrite E. clear E. assert (L : length (map (fun b => row_window row b w) (arange (n - w + 1))) <> 1%nat) by (rewrite map_length, arange_length; lia).
  destruct (map _ _) as [|x [|y l]]; [reflexivity|cbn in L; lia|reflexivity].
Qed.

(** ** the table, for any rounding *)
Lemma table_struct rnd nt ndl ref m w o table : get_win_table rnd nt ndl ref m w o = Ok table ->
  exists f l st, get_first_and_last_win rnd ref m w o = Ok (f, l) /\ (w - o <> 0)%Z /\ (-1 <= l - f)%Z /\
    get_win_starts rnd nt ndl ref w o (lm_fs m) (l - f + 1) f = Ok st /\
    map wr_start table = st /\
    length table = Z.to_nat (l - f + 1) /\
    forall i r, nth_error table i = Some r -> wr_local r = Z.of_nat i /\ wr_global r = (f + Z.of_nat i)%Z /\
      (wr_to r = wr_from r + w - 1)%Z /\
      wr_from r = (to_n_samples rnd (win_to_datetime ref f (inc_duration rnd w o (lm_fs m)) - lm_first m) (lm_fs m) Mfloor - 1 + Z.of_nat i * (w - o))%Z.
Proof.
  intros H. unfold get_win_table in H. apply bind_ok in H. destruct H as ([f l] & H1 & H).
  destruct (Z.eqb_spec (w - o) 0) as [Z0|Z0]; [discriminate|]. apply bind_ok in H. destruct H as (st & H2 & H).
  exists f, l, st. split; [exact H1|]. split; [exact Z0|].
  assert (FS : Qeq_bool (lm_fs m) 0 = false).
  { unfold get_first_and_last_win in H1. destruct (Qeq_bool (lm_fs m) 0); [discriminate|reflexivity]. }
  assert (H3 : get_win_starts rnd nt ndl ref w o (lm_fs m) (l - f + 1) f = Ok st).
  { unfold get_win_starts. rewrite FS. destruct (Z.eqb_spec (w - o) 0); [contradiction|]. exact H2. }
  unfold datetime_array_estimate in H2. destruct (Qeq_bool _ 0); [discriminate|]. destruct (Z.ltb_spec (l - f + 1) 0) as [N|N]; [discriminate|].
  injection H2 as <-. split; [lia|]. split; [exact H3|]. injection H as <-.
  assert (CM : forall (A : Type) (g : Z -> A) (L : list Z), combine L (map g L) = map (fun k => (k, g k)) L).
  { intros A g L. induction L as [|a L IH]; [reflexivity|]. cbn [combine map]. rewrite IH. reflexivity. }
  rewrite CM, !map_map. split; [apply map_ext; reflexivity|]. split; [rewrite map_length, arange_length; reflexivity|].
  intros i r Hr. rewrite nth_error_map in Hr. destruct (nth_error (arange (l - f + 1)) i) as [k|] eqn:E; [|discriminate].
  assert (Hi : (i < Z.to_nat (l - f + 1))%nat) by (rewrite <- (arange_length (l - f + 1)); apply nth_error_Some; rewrite E; discriminate).
  rewrite arange_nth in E by exact Hi. injection E as <-. cbn [option_map] in Hr. injection Hr as <-.
  cbn [wr_local wr_global wr_to wr_from]. repeat split; lia.
Qed.

Lemma nodup_const (l : list Z) f : l <> [] -> (forall x, In x l -> x = f) -> nodup Z.eq_dec l = [f].
Proof.
  induction l as [|x l IH]; intros NE H; [contradiction|]. cbn [nodup].
  assert (x = f) by (apply H; left; reflexivity). subst x.
  destruct l as [|y l]; [reflexivity|].
  assert (In f (y :: l)) by (left; apply H; right; left; reflexivity).
  destruct (in_dec Z.eq_dec f (y :: l)); [|contradiction]. apply IH; [discriminate|]. intros z Hz. apply H. right. exact Hz.
Qed.

Lemma level_metadata_spec rnd nt ndl ref m w o table wl :
  get_win_table rnd nt ndl ref m w o = Ok table -> get_level_metadata m table w o = Ok wl ->
  exists f l, get_first_and_last_win rnd ref m w o = Ok (f, l) /\ (0 < w)%Z /\ (0 < o)%Z /\
    wl = mkWinLevel (lm_fs m) (Z.of_nat (length table)) w o f /\ Z.of_nat (length table) = (l - f + 1)%Z /\
    get_win_starts rnd nt ndl ref w o (lm_fs m) (Z.of_nat (length table)) f = Ok (map wr_start table).
Proof.
  intros HT H. destruct (table_struct _ _ _ _ _ _ _ _ HT) as (f & l & st & H1 & H2 & H3 & H4 & H5 & H6 & H7).
  exists f, l. split; [exact H1|]. unfold get_level_metadata in H.
  assert (NE : table <> []) by (intros ->; discriminate).
  rewrite (nodup_const _ f) in H.
  - destruct (Z.leb_spec w 0); [discriminate|]. destruct (Z.leb_spec o 0); [discriminate|]. cbn [orb] in H. injection H as <-.
    split; [lia|]. split; [lia|]. split; [reflexivity|]. split; [lia|]. rewrite H5. rewrite <- H4. f_equal. lia.
  - destruct table; [contradiction|discriminate].
  - intros x Hx. apply in_map_iff in Hx. destruct Hx as (r & <- & Hr). apply In_nth_error in Hr. destruct Hr as (i & Hi).
    destruct (H7 i r Hi) as (-> & -> & _). lia.
Qed.

(** ** the loop over levels *)
Section Loop.
  Variables (rnd : Q -> Q) (nt ndl : Q -> Z) (sizes : Z -> level_md -> res (Z * Z)) (check : bool) (mn : Z) (ref : Q) (d : dec_data).
  Record level_done (lev : Z) (x : nd cell) (wl : win_level) (m : level_md) (w o : Z) (table : list win_row) (ld : list (list cell)) : Prop := {
    ld_md : nth_error (dd_levels_md d) (Z.to_nat lev) = Some m;
    ld_sizes : sizes lev m = Ok (w, o);
    ld_table : get_win_table rnd nt ndl ref m w o = Ok table;
    ld_min : (mn <= Z.of_nat (length table))%Z;
    ld_level : get_level d lev = Ok ld;
    ld_data : get_level_data ld table (Z.of_nat (length (dd_chans d))) w o = Ok x;
    ld_check : check = true -> nd_len x = Ok (Z.of_nat (length table));
    ld_wl : get_level_metadata m table w o = Ok wl }.
  Definition level_short (lev : Z) : Prop := exists m w o table,
    nth_error (dd_levels_md d) (Z.to_nat lev) = Some m /\ sizes lev m = Ok (w, o) /\
    get_win_table rnd nt ndl ref m w o = Ok table /\ (Z.of_nat (length table) < mn)%Z.
  Lemma window_loop_spec levels xs wls : window_loop rnd nt ndl sizes check mn ref d levels = Ok (xs, wls) ->
    length xs = length wls /\ (length xs <= length levels)%nat /\ map fst xs = firstn (length xs) levels /\
    (forall i lev x wl, nth_error xs i = Some (lev, x) -> nth_error wls i = Some wl ->
       exists m w o table ld, level_done lev x wl m w o table ld) /\
    (forall lev, nth_error levels (length xs) = Some lev -> level_short lev).
  Proof.
    revert xs wls. induction levels as [|lev levels IH]; intros xs wls H; cbn [window_loop] in H.
    - injection H as <- <-. repeat split; try reflexivity.
      + intros [|i]; discriminate.
      + intros lev. discriminate.
    - apply bind_ok in H. destruct H as (m & H1 & H). destruct (nth_error (dd_levels_md d) (Z.to_nat lev)) as [m'|] eqn:E1; [|discriminate]. injection H1 as ->.
      apply bind_ok in H. destruct H as ([w o] & H2 & H). apply bind_ok in H. destruct H as (table & H3 & H). cbv zeta in H.
      destruct (Z.ltb_spec (Z.of_nat (length table)) mn) as [S|S].
      + injection H as <- <-. repeat split; try reflexivity.
        * cbn; lia.
        * intros [|i]; discriminate.
        * intros lev'. cbn [length nth_error]. intros [= <-]. exists m, w, o, table. repeat split; assumption.
      + apply bind_ok in H. destruct H as (ld & H4 & H). apply bind_ok in H. destruct H as (x & H5 & H). apply bind_ok in H. destruct H as (k & H6 & H).
        destruct (check && negb (k =? Z.of_nat (length table))%Z) eqn:CK; [discriminate|].
        apply bind_ok in H. destruct H as (wl & H7 & H). apply bind_ok in H. destruct H as ([xs' wls'] & H8 & H). injection H as <- <-.
        destruct (IH _ _ H8) as (I1 & I2 & I3 & I4 & I5). cbn [length]. split; [lia|]. split; [lia|]. split; [cbn [map firstn fst]; rewrite I3; reflexivity|].
        split.
        * intros [|i] lev' x' wl' Hx Hw.
          -- cbn [nth_error] in Hx, Hw. injection Hx as <- <-. injection Hw as <-. exists m, w, o, table, ld.
             split; try assumption. intros ->. cbn [andb] in CK. apply negb_false_iff, Z.eqb_eq in CK. rewrite H6, CK. reflexivity.
          -- exact (I4 i lev' x' wl' Hx Hw).
        * intros lev' Hl. exact (I5 lev' Hl).
  Qed.
End Loop.

Lemma last_indep {A} (l : list A) a b : l <> [] -> last l a = last l b.
Proof. induction l as [|x [|y l] IH]; intros H; [contradiction|reflexivity|]. exact (IH ltac:(discriminate)). Qed.

(** the contents of one level *)
Lemma level_contents rnd nt ndl ref m w o table ld c x : (1 <= w)%Z -> faithful rnd ref m w o ->
  get_win_table rnd nt ndl ref m w o = Ok table -> rect ld (lm_n_samples m) -> c = Z.of_nat (length ld) ->
  get_level_data ld table c w o = Ok x ->
  ((2 <= c)%Z -> (2 <= w < lm_n_samples m)%Z ->
    nd_len x = Ok (Z.of_nat (length table)) /\
    forall i r ch row s, nth_error table i = Some r -> nth_error ld ch = Some row -> (0 <= s < w)%Z ->
      nd_at x [i; ch; Z.to_nat s] = option_map Sc (nth_error row (Z.to_nat (wr_from r + s))) /\
      (Z.to_nat (wr_from r + s) < length row)%nat) /\
  (c = 1%Z -> (2 <= w < lm_n_samples m)%Z ->
    nd_len x = Ok (Z.of_nat (length table)) /\
    forall i r row s, nth_error table i = Some r -> nth_error ld 0 = Some row -> (0 <= s < w)%Z ->
      nd_at x [i; Z.to_nat s] = option_map Sc (nth_error row (Z.to_nat (wr_from r + s)))).
Proof.
  intros Hw FA HT R Hc H.
  pose proof (table_inside _ _ _ _ _ FA nt ndl table) as TI.
  destruct (table_spec _ _ _ _ _ FA nt ndl table Hw HT) as (f & l & s0 & H1 & H2 & H3 & H4 & H5).
  unfold get_level_data in H. destruct table as [|r0 tb] eqn:ET; [discriminate|]. rewrite <- ET in *.
  apply bind_ok in H. destruct H as (v & H6 & H).
  set (k := length table) in *.
  assert (K1 : (1 <= k)%nat) by (unfold k; rewrite ET; cbn; lia).
  assert (R0 : nth_error table 0 = Some r0) by (rewrite ET; reflexivity).
  assert (RL : nth_error table (k - 1) = Some (last table r0)).
  { unfold k. rewrite ET. clear. revert r0. induction tb as [|r1 tb IH]; intros r0; [reflexivity|].
    change (last (r0 :: r1 :: tb) r0) with (last (r1 :: tb) r0). replace (length (r0 :: r1 :: tb) - 1)%nat with (S (length (r1 :: tb) - 1)) by (cbn; lia).
    cbn [nth_error]. rewrite (IH r1). f_equal. apply last_indep. discriminate. }
  destruct (H5 _ _ R0) as (_ & _ & F0 & _). destruct (H5 _ _ RL) as (_ & _ & FL & _).
  destruct (TI 0%nat r0 Hw HT R0) as (P0 & _). destruct (TI _ _ Hw HT RL) as (PL & QL & QT & _).
  pose proof (fa_wo _ _ _ _ _ FA) as Hwo.
  rewrite FL, F0 in H. replace (s0 + Z.of_nat 0 * (w - o))%Z with s0 in * by lia.
  replace (Z.of_nat (k - 1)) with (Z.of_nat k - 1)%Z in H by lia.
  assert (SL : forall L : list (nd cell), Z.of_nat (length L) = (lm_n_samples m - w + 1)%Z ->
     exists r, py_slice s0 (s0 + (Z.of_nat k - 1) * (w - o) + 1) (w - o) L = Ok r /\ length r = k /\
       forall i, (i < k)%nat -> nth_error r i = nth_error L (Z.to_nat (s0 + Z.of_nat i * (w - o)))).
  { intros L HL. apply py_slice_pos; try lia. rewrite HL. replace (Z.of_nat k - 1)%Z with (Z.of_nat (k - 1)) by lia. lia. }
  assert (IN : forall i r, nth_error table i = Some r -> (i < k)%nat /\ (0 <= wr_from r <= lm_n_samples m - w)%Z /\ wr_from r = (s0 + Z.of_nat i * (w - o))%Z).
  { intros i r Hr. destruct (TI i r Hw HT Hr) as (A1 & A2 & A3 & _). destruct (H5 _ _ Hr) as (_ & _ & A4 & _).
    split; [unfold k; apply nth_error_Some; rewrite Hr; discriminate|]. split; [lia|exact A4]. }
  split.
  - intros C2 W2. rewrite (view_full ld c w (lm_n_samples m) v R Hc C2 W2 H6) in H.
    destruct (SL (map (fun s1 => Ax (map (fun row => row_window row s1 w) ld)) (arange (lm_n_samples m - w + 1)))) as (L & E1 & E2 & E3).
    { rewrite map_length, arange_length. lia. }
    rewrite E1 in H. cbv beta iota delta [bind] in H. injection H as <-. split; [cbn [nd_len]; rewrite E2; reflexivity|].
    intros i r ch row s Hr Hrow Hs. destruct (IN i r Hr) as (Hi & Hf & Ef).
    split.
    + cbn [nd_at nd_nth]. rewrite (E3 i Hi), <- Ef, nth_error_map, arange_nth by lia. cbn [option_map]. rewrite Z2Nat.id by lia.
      cbn [nd_at nd_nth]. rewrite nth_error_map, Hrow. cbn [option_map nd_at]. rewrite row_window_at by lia. destruct (nth_error row _); reflexivity.
    + assert (In row ld) by (eapply nth_error_In; eassumption). pose proof (R row H). lia.
  - intros -> W2. destruct ld as [|row0 [|? ?]]; [cbn in Hc; lia| |cbn in Hc; lia].
    assert (RR : Z.of_nat (length row0) = lm_n_samples m) by (apply R; left; reflexivity).
    rewrite (view_one_chan row0 w (lm_n_samples m) v RR W2 H6) in H.
    destruct (SL (map (fun s1 => row_window row0 s1 w) (arange (lm_n_samples m - w + 1)))) as (L & E1 & E2 & E3).
    { rewrite map_length, arange_length. lia. }
    rewrite E1 in H. cbv beta iota delta [bind] in H. injection H as <-. split; [cbn [nd_len]; rewrite E2; reflexivity|].
    intros i r row s Hr Hrow Hs. cbn [nth_error] in Hrow. injection Hrow as <-. destruct (IN i r Hr) as (Hi & Hf & Ef).
    cbn [nd_at nd_nth]. rewrite (E3 i Hi), <- Ef, nth_error_map, arange_nth by lia. cbn [option_map nd_at]. rewrite Z2Nat.id by lia.
    rewrite row_window_at by lia. destruct (nth_error row0 _); reflexivity.
Qed.
