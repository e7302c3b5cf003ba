From Coq Require Import String.
From Verif Require Import Base.Prelude Base.NdArray Base.FileSys Base.ListUtil Model.Sampling Model.Time Model.Decimate Model.Window Model.Timestamps
  Model.Spectra Model.ChanTypes Model.Gather Model.Project Model.Regression Spec.Refused
  Proofs.CalibrateFinal Proofs.TimeMeta Proofs.Spectra Proofs.WindowFinal Proofs.DecRun.
Open Scope list_scope.
Open Scope Z_scope.

Lemma find_key : forall A (l : list (Z * A)) k, (exists x, In (k, x) l) -> exists x, find (fun kv => Z.eqb (fst kv) k) l = Some (k, x).
Proof.
  intros A l k (x & I). induction l as [|[j y] t IH]; [destruct I|]. cbn [find fst]. destruct (Z.eqb_spec j k) as [->|N]; [exists y; reflexivity|].
  destruct I as [E|I]; [congruence|]. exact (IH I).
Qed.
Lemma find_nokey : forall A (l : list (Z * A)) k, ~ (exists x, In (k, x) l) -> find (fun kv => Z.eqb (fst kv) k) l = None.
Proof.
  intros A l k N. induction l as [|[j y] t IH]; [reflexivity|]. cbn [find fst]. destruct (Z.eqb_spec j k) as [->|D].
  - exfalso. apply N. exists y. left. reflexivity.
  - apply IH. intros (x & I). apply N. exists x. right. exact I.
Qed.
Lemma geb_true : forall a b, b <= a -> (a >=? b) = true. Proof. intros. rewrite Z.geb_leb. apply Z.leb_le. assumption. Qed.
Lemma geb_false : forall a b, a < b -> (a >=? b) = false. Proof. intros. rewrite Z.geb_leb. apply Z.leb_gt. assumption. Qed.

Lemma r_dec : forall d, holds_levels (dd_n_levels d) (dd_data d) -> 0 <= dd_n_levels d -> served (get_level d) (dd_n_levels d) KeyError ValueError.
Proof.
  intros d H N l. unfold get_level. repeat apply conj; intros L.
  - rewrite geb_false by lia. destruct (find_key _ _ _ (proj2 (H l) L)) as (x & ->). exists x. reflexivity.
  - rewrite geb_false by lia. rewrite find_nokey; [reflexivity|]. rewrite (H l). lia.
  - rewrite geb_true by lia. reflexivity.
Qed.
Lemma r_win : forall d, holds_levels (wd_n_levels d) (wd_data d) -> 0 <= wd_n_levels d -> served (wd_get_level d) (wd_n_levels d) KeyError ValueError.
Proof.
  intros d H N l. unfold wd_get_level. repeat apply conj; intros L.
  - rewrite geb_false by lia. destruct (find_key _ _ _ (proj2 (H l) L)) as (x & ->). exists x. reflexivity.
  - rewrite geb_false by lia. rewrite find_nokey; [reflexivity|]. rewrite (H l). lia.
  - rewrite geb_true by lia. reflexivity.
Qed.
Lemma r_spec : forall A (d : spec_data A), holds_levels (sm_n_levels (sd_md d)) (sd_data d) -> 0 <= sm_n_levels (sd_md d) ->
  served (sd_get_level d) (sm_n_levels (sd_md d)) KeyError ValueError.
Proof.
  intros A d H N l. unfold sd_get_level, sd_at. repeat apply conj; intros L.
  - rewrite geb_false by lia. destruct (find_key _ _ _ (proj2 (H l) L)) as (x & ->). exists x. reflexivity.
  - rewrite geb_false by lia. rewrite find_nokey; [reflexivity|]. rewrite (H l). lia.
  - rewrite geb_true by lia. reflexivity.
Qed.

(** the keys the runs produce *)
Lemma keys_holds : forall A n (l : list (Z * A)), map fst l = arange n -> holds_levels n l.
Proof.
  intros A n l E k. rewrite <- arange_in, <- E, in_map_iff. split.
  - intros (x & I). exists (k, x). split; [reflexivity|exact I].
  - intros ([k' x] & Q & I). cbn in Q. subst k'. exists x. exact I.
Qed.
Lemma arange_cons : forall n, 0 <= n -> arange (1 + n) = 0 :: map (Z.add 1) (arange n).
Proof.
  intros n H. unfold arange. rewrite Z2Nat.inj_add by lia. change (Z.to_nat 1) with 1%nat. cbn [plus seq map]. f_equal.
  rewrite <- seq_shift, map_map, map_map. apply map_ext. intros; lia.
Qed.
Lemma dec_loop_keys : forall orc rnd b maxf mins incs il td data lmd, dec_loop rnd orc b maxf mins incs il td = Ok (data, lmd) ->
  map fst data = map (Z.add il) (arange (Z.of_nat (List.length lmd))).
Proof.
  induction incs as [|f rest IH]; intros il td data lmd H; [injection H as <- <-; reflexivity|].
  cbn [dec_loop] in H. apply bind_ok in H. destruct H as (td' & _ & H). destruct (_ <? _).
  - injection H as <- <-; reflexivity.
  - apply bind_ok in H. destruct H as ([d l] & E & H). injection H as <- <-. specialize (IH _ _ _ _ E). cbn [map fst List.length].
    rewrite IH. replace (Z.of_nat (S (List.length l))) with (1 + Z.of_nat (List.length l)) by lia. rewrite arange_cons by lia. cbn [map]. f_equal; [lia|].
    rewrite map_map. apply map_ext. intros; lia.
Qed.
Lemma r_decimator : forall rnd orc b maxf p td d, decimator_run rnd orc b maxf p td = Ok d -> served (get_level d) (dd_n_levels d) KeyError ValueError.
Proof.
  intros rnd orc b maxf p td d H. unfold decimator_run in H. apply bind_ok in H. destruct H as ([data lmd] & E & H).
  apply dec_loop_keys in E. assert (K : map fst data = arange (Z.of_nat (List.length lmd))).
  { rewrite E. rewrite <- (map_id (arange _)) at 2. apply map_ext. intros; lia. }
  destruct data as [|x t]; [discriminate|]. injection H as <-. apply r_dec; cbn [dd_n_levels dd_data]; [|lia]. apply keys_holds. exact K.
Qed.
Lemma window_loop_keys : forall rnd nt ndl sizes check mn ref d levels xs wls, window_loop rnd nt ndl sizes check mn ref d levels = Ok (xs, wls) ->
  map fst xs = firstn (List.length wls) levels.
Proof.
  induction levels as [|il rest IH]; intros xs wls H; [injection H as <- <-; reflexivity|].
  cbn [window_loop] in H. apply bind_ok in H. destruct H as (m & _ & H). apply bind_ok in H. destruct H as ([w o] & _ & H).
  apply bind_ok in H. destruct H as (tb & _ & H). cbv zeta in H. destruct (_ <? _); [injection H as <- <-; reflexivity|].
  apply bind_ok in H. destruct H as (ld & _ & H). apply bind_ok in H. destruct H as (x & _ & H). apply bind_ok in H. destruct H as (k & _ & H).
  destruct (check && _); [discriminate|]. apply bind_ok in H. destruct H as (wl & _ & H). apply bind_ok in H. destruct H as ([xs' wls'] & E & H).
  injection H as <- <-. cbn [map fst List.length firstn]. f_equal. exact (IH _ _ E).
Qed.
Lemma window_loop_len : forall rnd nt ndl sizes check mn ref d levels xs wls, window_loop rnd nt ndl sizes check mn ref d levels = Ok (xs, wls) ->
  (List.length wls <= List.length levels)%nat.
Proof.
  induction levels as [|il rest IH]; intros xs wls H; [injection H as <- <-; reflexivity|].
  cbn [window_loop] in H. apply bind_ok in H. destruct H as (m & _ & H). apply bind_ok in H. destruct H as ([w o] & _ & H).
  apply bind_ok in H. destruct H as (tb & _ & H). cbv zeta in H. destruct (_ <? _); [injection H as <- <-; cbn; lia|].
  apply bind_ok in H. destruct H as (ld & _ & H). apply bind_ok in H. destruct H as (x & _ & H). apply bind_ok in H. destruct H as (k & _ & H).
  destruct (check && _); [discriminate|]. apply bind_ok in H. destruct H as (wl & _ & H). apply bind_ok in H. destruct H as ([xs' wls'] & E & H).
  injection H as <- <-. cbn [List.length]. specialize (IH _ _ E). lia.
Qed.
Lemma seq_firstn : forall k n s, (k <= n)%nat -> firstn k (seq s n) = seq s k.
Proof. induction k; intros n s L; [reflexivity|]. destruct n; [lia|]. cbn. f_equal. apply IHk. lia. Qed.
Lemma made : forall d ref nm data levels wd, make_windowed d ref nm data levels = Ok wd -> wd_data wd = data /\ wd_n_levels wd = Z.of_nat (List.length levels).
Proof. intros d ref nm data levels wd H. unfold make_windowed in H. destruct data; [discriminate|]. injection H as <-. split; reflexivity. Qed.
Lemma r_loop : forall rnd nt ndl sizes check mn ref d n xs wls nm ref' wd, window_loop rnd nt ndl sizes check mn ref d (arange n) = Ok (xs, wls) ->
  make_windowed d ref' nm xs wls = Ok wd -> served (wd_get_level wd) (wd_n_levels wd) KeyError ValueError.
Proof.
  intros rnd nt ndl sizes check mn ref d n xs wls nm ref' wd E M. destruct (made _ _ _ _ _ _ M) as [D N].
  apply r_win; [|rewrite N; lia]. apply keys_holds. rewrite D, N, (window_loop_keys _ _ _ _ _ _ _ _ _ _ _ E).
  pose proof (window_loop_len _ _ _ _ _ _ _ _ _ _ _ E) as L. unfold arange in *. rewrite map_length, seq_length in L.
  rewrite firstn_map, seq_firstn by exact L. rewrite Nat2Z.id. reflexivity.
Qed.
Lemma r_windower : forall rnd nt ndl ref p d wd, windower_run rnd nt ndl ref p d = Ok wd -> served (wd_get_level wd) (wd_n_levels wd) KeyError ValueError.
Proof. intros rnd nt ndl ref p d wd H. unfold windower_run in H. apply bind_ok in H. destruct H as ([xs wls] & E & H). exact (r_loop _ _ _ _ _ _ _ _ _ _ _ _ _ _ E H). Qed.
Lemma r_target : forall rnd nt ndl c ref p d wd, windower_target_run rnd nt ndl c ref p d = Ok wd -> served (wd_get_level wd) (wd_n_levels wd) KeyError ValueError.
Proof. intros rnd nt ndl c ref p d wd H. unfold windower_target_run in H. apply bind_ok in H. destruct H as ([xs wls] & E & H). exact (r_loop _ _ _ _ _ _ _ _ _ _ _ _ _ _ E H). Qed.
Lemma mapM_keys : forall A B (f : Z -> res ((Z * A) * B)) l r, (forall k x, f k = Ok x -> fst (fst x) = k) -> mapM f l = Ok r -> map fst (map fst r) = l.
Proof.
  intros A B f l r F H. apply mapM_ok in H. induction H as [|k x l r E _ IH]; [reflexivity|]. cbn [map]. rewrite (F _ _ E), IH. reflexivity.
Qed.
Lemma r_made_spec : forall A (m : spec_md) (data : list (Z * nd A)) d, make_spec m data = Ok d -> map fst data = arange (sm_n_levels m) -> 0 <= sm_n_levels m ->
  sm_n_levels (sd_md d) = sm_n_levels m /\ served (sd_get_level d) (sm_n_levels m) KeyError ValueError.
Proof.
  intros A m data d H K P. apply make_spec_ok in H. subst d. split; [reflexivity|]. apply (r_spec A (mkSpec m data)); [|exact P]. cbn [sd_md sd_data].
  apply keys_holds. exact K.
Qed.
Lemma r_fourier : forall rnd nfl tr d sd, 0 <= wd_n_levels d -> fourier_run rnd nfl tr d = Ok sd ->
  sm_n_levels (sd_md sd) = wd_n_levels d /\ served (sd_get_level sd) (wd_n_levels d) KeyError ValueError.
Proof.
  intros rnd nfl tr d sd P H. unfold fourier_run in H. apply bind_ok in H. destruct H as (r & E & H).
  refine (r_made_spec _ _ _ _ H _ P). cbn [sm_n_levels]. refine (mapM_keys _ _ _ _ _ _ E). intros k x K. unfold fourier_level in K.
  repeat (apply bind_ok in K; destruct K as (? & _ & K); cbv zeta in K). injection K as <-. reflexivity.
Qed.
Lemma r_evals : forall p d sd, 0 <= sm_n_levels (sd_md d) -> evals_run p d = Ok sd ->
  sm_n_levels (sd_md sd) = sm_n_levels (sd_md d) /\ served (sd_get_level sd) (sm_n_levels (sd_md d)) KeyError ValueError.
Proof.
  intros p d sd P H. unfold evals_run in H. apply bind_ok in H. destruct H as (r & E & H).
  refine (r_made_spec _ _ _ _ H _ P). cbn [sm_n_levels]. refine (mapM_keys _ _ _ _ _ _ E). intros k x K. unfold eval_level in K.
  repeat (apply bind_ok in K; destruct K as (? & _ & K); cbv zeta in K). injection K as <-. reflexivity.
Qed.

(** ** The other accessors *)
Lemma chan_in_iff' : forall c cs, chan_in c cs = true <-> In c cs.
Proof.
  intros c cs. unfold chan_in. rewrite existsb_exists. split.
  - intros (x & I & E). apply String.eqb_eq in E. subst x. exact I.
  - intros I. exists c. split; [exact I|apply String.eqb_refl].
Qed.
Lemma chan_in_not : forall c cs, ~ In c cs -> chan_in c cs = false.
Proof. intros c cs N. destruct (chan_in c cs) eqn:E; [|reflexivity]. apply chan_in_iff' in E. contradiction. Qed.
Lemma first_not : forall c cs, ~ In c cs -> first_index c cs = None.
Proof.
  induction cs as [|x t IH]; intros N; [reflexivity|]. cbn [first_index]. destruct (String.eqb_spec x c) as [->|D]; [exfalso; apply N; left; reflexivity|].
  rewrite IH; [reflexivity|]. intros I. apply N. right. exact I.
Qed.
Lemma assoc_not : forall B k (l : list (string * B)), ~ In k (map fst l) -> assoc k l = None.
Proof.
  induction l as [|[j x] t IH]; intros N; [reflexivity|]. cbn [assoc]. destruct (String.eqb_spec j k) as [->|D]; [exfalso; apply N; left; reflexivity|].
  apply IH. intros I. apply N. right. exact I.
Qed.
Lemma assoc_some : forall B k (l : list (string * B)), In k (map fst l) -> exists x, assoc k l = Some x /\ In (k, x) l.
Proof.
  induction l as [|[j x] t IH]; intros I; [destruct I|]. cbn [assoc]. destruct (String.eqb_spec j k) as [->|D]; [exists x; split; [reflexivity|left; reflexivity]|].
  destruct I as [E|I]; [cbn in E; congruence|]. destruct (IH I) as (y & E & J). exists y. split; [exact E|right; exact J].
Qed.
Lemma sget_not : forall B k (l : list (string * B)), ~ In k (map fst l) -> sget k l = Err KeyError.
Proof.
  induction l as [|[j x] t IH]; intros N; [reflexivity|]. cbn [sget]. destruct (String.eqb_spec j k) as [->|D]; [exfalso; apply N; left; reflexivity|].
  apply IH. intros I. apply N. right. exact I.
Qed.
