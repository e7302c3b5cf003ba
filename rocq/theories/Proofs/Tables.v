(** Proofs for C93 *)
From Coq Require Import String Sorted Permutation.
From Verif Require Import Base.Prelude Base.Rounding Base.ListUtil Base.FileSys Base.SortNames Spec.Project Spec.Tables Model.Project Model.Letsgo Model.Sampling Model.Decimate Model.Gather Model.Tables
  Proofs.Sampling Proofs.EvalFreqs Proofs.DecParams Proofs.DecFinal Proofs.Spectra Proofs.CalibrateFinal.
Open Scope list_scope. Open Scope Z_scope.

(** ** sorting *)
Lemma leb_refl a : String.leb a a = true.
Proof. destruct (String.leb_total a a); assumption. Qed.
Lemma insert_bar_perm y x l : Permutation (insert_bar y x l) (x :: l).
Proof. induction l as [|b t IH]; cbn; [apply Permutation_refl|]. destruct (bar_leb y x b); [apply Permutation_refl|]. rewrite IH. apply perm_swap. Qed.
Lemma sort_bars_perm y l : Permutation (sort_bars y l) l.
Proof. induction l as [|x t IH]; cbn; [constructor|]. rewrite insert_bar_perm. constructor. exact IH. Qed.
Lemma bar_leb_before y a b : bar_leb y a b = true -> bar_before y a b.
Proof.
  unfold bar_leb, bar_before. destruct (String.eqb_spec (y a) (y b)) as [E|E].
  - intros H. split; [rewrite E; apply leb_refl|intros _; lia].
  - intros H. split; [exact H|congruence].
Qed.
Lemma bar_leb_after y a b : bar_leb y a b = false -> bar_before y b a.
Proof.
  unfold bar_leb, bar_before. destruct (String.eqb_spec (y a) (y b)) as [E|E].
  - intros H. split; [rewrite E; apply leb_refl|intros _; lia].
  - intros H. split; [destruct (String.leb_total (y a) (y b)); congruence|congruence].
Qed.
Lemma before_trans y a b c : bar_before y a b -> bar_before y b c -> bar_before y a c.
Proof.
  intros [A1 A2] [B1 B2]. split; [exact (leb_trans _ _ _ A1 B1)|]. intros E.
  assert (E1 : y a = y b) by (apply String.leb_antisym; [exact A1|rewrite E; exact B1]).
  assert (E2 : y b = y c) by congruence. specialize (A2 E1). specialize (B2 E2). lia.
Qed.
Lemma insert_bar_sorted y x l : StronglySorted (bar_before y) l -> StronglySorted (bar_before y) (insert_bar y x l).
Proof.
  induction 1 as [|b t ST IH F]; cbn; [repeat constructor|]. destruct (bar_leb y x b) eqn:E.
  - constructor; [constructor; assumption|]. apply bar_leb_before in E. constructor; [exact E|]. rewrite Forall_forall in F |- *. intros z Hz. exact (before_trans y _ _ _ E (F z Hz)).
  - constructor; [exact IH|]. apply bar_leb_after in E. apply Forall_forall. intros z Hz. apply (Permutation_in _ (insert_bar_perm y x t)) in Hz.
    destruct Hz as [<-|Hz]; [exact E|]. rewrite Forall_forall in F. exact (F z Hz).
Qed.
Lemma sort_bars_sorted y l : StronglySorted (bar_before y) (sort_bars y l).
Proof. induction l as [|x t IH]; cbn; [constructor|]. apply insert_bar_sorted. exact IH. Qed.

(** ** the range *)
Lemma min_of_le x l : min_of x l <= x /\ forall z, In z l -> min_of x l <= z.
Proof.
  unfold min_of. revert x. induction l as [|y t IH]; intros x; cbn; [split; [lia|intros z []]|]. destruct (IH (Z.min x y)) as [A B].
  split; [lia|]. intros z [<-|Hz]; [lia|exact (B z Hz)].
Qed.
Lemma max_of_ge x l : x <= max_of x l /\ forall z, In z l -> z <= max_of x l.
Proof.
  unfold max_of. revert x. induction l as [|y t IH]; intros x; cbn; [split; [lia|intros z []]|]. destruct (IH (Z.max x y)) as [A B].
  split; [lia|]. intros z [<-|Hz]; [lia|exact (B z Hz)].
Qed.
Lemma max_of_in x l : In (max_of x l) (x :: l).
Proof.
  unfold max_of. revert x. induction l as [|y t IH]; intros x; cbn; [auto|]. destruct (IH (Z.max x y)) as [E|E]; [|auto].
  rewrite <- E. destruct (Z.max_spec x y) as [[_ ->]|[_ ->]]; auto.
Qed.
Lemma pad_nonneg rnd n : good_rnd rnd -> 0 <= n -> 0 <= qtrunc (rnd (rnd (1 # 10) * rnd (inject_Z n)))%Q.
Proof.
  intros G N. assert (A : (0 <= rnd (rnd (1 # 10) * rnd (inject_Z n))%Q)%Q).
  { apply (gr_nonneg G). assert (0 <= rnd (1 # 10))%Q by (apply (gr_nonneg G); discriminate).
    assert (0 <= rnd (inject_Z n))%Q by (apply (gr_nonneg G); change 0%Q with (inject_Z 0); rewrite <- Zle_Qle; exact N). nra. }
  unfold qtrunc. rewrite (proj2 (Qltb_false (rnd (rnd (1 # 10) * rnd (inject_Z n))%Q) 0%Q)) by exact A.
  change 0 with (qfloor 0). apply Qfloor_resp_le. exact A.
Qed.
Lemma timeline_spec rnd rows y ref : good_rnd rnd -> rows <> [] -> (forall r, In r rows -> tr_first r <= tr_last r) ->
  exists t, plot_timeline rnd rows y ref = Ok t /\ Permutation (tl_bars t) rows /\ StronglySorted (bar_before y) (tl_bars t) /\
    (forall r, In r (tl_bars t) -> visible t r) /\ tl_ref t = ref /\
    forall x, ref = Some x -> tl_from t <= x /\ ((exists r, In r rows /\ x <= tr_last r) -> x <= tl_to t).
Proof.
  intros G NE FL. destruct rows as [|r t]; [congruence|]. unfold plot_timeline. cbv zeta.
  destruct (min_of_le (tr_first r) (map tr_first t)) as [M1 M2]. destruct (max_of_ge (tr_last r) (map tr_last t)) as [X1 X2].
  set (lo0 := min_of (tr_first r) (map tr_first t)) in *. set (hi := max_of (tr_last r) (map tr_last t)) in *.
  set (lo := match ref with Some x => if x <? lo0 then x else lo0 | None => lo0 end).
  assert (L0 : lo <= lo0) by (unfold lo; destruct ref as [x|]; [destruct (Z.ltb_spec x lo0); lia|lia]).
  assert (LH : lo <= hi) by (pose proof (FL r (or_introl eq_refl)); lia).
  pose proof (pad_nonneg rnd (hi - lo) G ltac:(lia)) as PD. set (pad := qtrunc (rnd (rnd (1 # 10) * rnd (inject_Z (hi - lo))))%Q) in *.
  assert (IN : forall z, In z (r :: t) -> lo0 <= tr_first z /\ tr_last z <= hi).
  { intros z [<-|Hz]; [lia|]. split; [apply M2|apply X2]; apply in_map; exact Hz. }
  eexists. split; [reflexivity|]. cbn [tl_bars tl_from tl_to tl_ref]. split; [exact (sort_bars_perm y (r :: t))|]. split; [exact (sort_bars_sorted y (r :: t))|].
  split; [|split; [reflexivity|]].
  - intros z Hz. apply (Permutation_in _ (sort_bars_perm y (r :: t))) in Hz. destruct (IN z Hz). unfold visible. cbn [tl_from tl_to]. lia.
  - intros x ->. split.
    + unfold lo. destruct (Z.ltb_spec x lo0) as [C|C]; unfold lo in PD; [|lia]. destruct (Z.ltb_spec x lo0) in PD; lia.
    + intros (z & Hz & Hx). destruct (IN z Hz). lia.
Qed.

(** ** the tables *)
Lemma last_app {A} (l : list A) x d : last (l ++ [x]) d = x.
Proof. apply last_last. Qed.
Lemma site_row {D} now s (readers : list (reader D)) d st nt row : site_of now s readers d st ->
  (In row (site_table nt st) <-> exists name r md, kind_at s (d ++ [name]) = Some KDir /\ first_success readers (fun r => rd_md r s (d ++ [name])) r md /\
     row = mkTRow name (mm_fs md) (nt (mm_first md)) (nt (mm_last md)) (path_name d)).
Proof.
  intros (SD & ND & IN & _). unfold site_table. rewrite in_map_iff. split.
  - intros ((name & m) & <- & Hm). apply IN in Hm. destruct Hm as (K & r & md & F & ->). exists name, r, md. split; [exact K|]. split; [exact F|].
    cbn [snd me_md]. unfold me_name, st_name, path_name at 1. cbn [me_dir]. rewrite last_app, SD. reflexivity.
  - intros (name & r & md & K & F & ->). exists (name, mkMeas (path_name d) (d ++ [name]) md (rd_name r)). split.
    + cbn [snd me_md]. unfold me_name, st_name, path_name at 1. cbn [me_dir]. rewrite last_app, SD. reflexivity.
    + apply IN. split; [exact K|]. exists r, md. split; [exact F|reflexivity].
Qed.
Lemma site_names {D} now s (readers : list (reader D)) d st nt : site_of now s readers d st -> map tr_name (site_table nt st) = map fst (st_meas st) /\ forall row, In row (site_table nt st) -> tr_site row = path_name d.
Proof.
  intros (SD & ND & IN & _). unfold site_table. split.
  - rewrite map_map. apply map_ext_in. intros [name m] Hm. apply IN in Hm. destruct Hm as (K & r & md & F & ->). cbn [snd fst tr_name]. unfold me_name, path_name. cbn [me_dir]. apply last_app.
  - intros row Hr. apply in_map_iff in Hr. destruct Hr as (x & <- & _). cbn [tr_site]. unfold st_name. rewrite SD. reflexivity.
Qed.
Lemma path_two (p : path) a b : (p ++ [a; b])%list = ((p ++ [a]) ++ [b])%list.
Proof. rewrite <- app_assoc. reflexivity. Qed.
Lemma path_three (p : path) a b c : (p ++ [a; b; c])%list = ((p ++ [a; b]) ++ [c])%list.
Proof. rewrite <- app_assoc. reflexivity. Qed.
Lemma name_two (p : path) a b : path_name (p ++ [a; b]) = b.
Proof. rewrite path_two. unfold path_name. apply last_app. Qed.
Lemma project_rows {M D} now s (readers : list (reader D)) p (m : M) pr nt : project_of now s readers p m pr ->
  (forall row, In row (project_table nt pr) <-> exists site name md, on_disk s readers p site name md /\ row = mkTRow name (mm_fs md) (nt (mm_first md)) (nt (mm_last md)) site) /\
  NoDup (map (fun r => (tr_site r, tr_name r)) (project_table nt pr)).
Proof.
  intros (PD & PM & ND & SO & SN & _). split.
  - intros row. unfold project_table. rewrite in_flat_map. split.
    + intros ((site & st) & Hs & Hr). cbn [snd] in Hr. pose proof (SO site st Hs) as S. apply (site_row now s readers _ st nt row S) in Hr. destruct Hr as (name & r & md & K & F & ->).
      rewrite <- path_three in K. exists site, name, md. split; [|rewrite name_two; reflexivity]. split; [apply SN; apply in_map_iff; exists (site, st); auto|]. split; [exact K|]. exists r. rewrite path_three. exact F.
    + intros (site & name & md & (K1 & K2 & r & F) & ->). apply SN in K1. apply in_map_iff in K1. destruct K1 as ((site' & st) & E & Hs). cbn in E. subst site'.
      exists (site, st). split; [exact Hs|]. cbn [snd]. apply (site_row now s readers _ st nt _ (SO site st Hs)). exists name, r, md. rewrite <- path_three. split; [exact K2|]. split; [exact F|]. rewrite name_two. reflexivity.
  - unfold project_table. clear SN PD PM. induction (pr_sites pr) as [|[site st] l IH]; [constructor|]. cbn [flat_map snd]. rewrite map_app.
    cbn [map] in ND. inversion ND as [|? ? N1 N2]; subst. pose proof (SO site st (or_introl eq_refl)) as S. destruct (site_names now s readers _ st nt S) as [E1 E2].
    assert (D1 : NoDup (map (fun r => (tr_site r, tr_name r)) (site_table nt st))).
    { destruct S as (_ & NM & _). rewrite <- E1 in NM. clear - NM. induction (site_table nt st) as [|r t IH]; [constructor|]. cbn [map] in *. inversion NM; subst. constructor; [|apply IH; assumption].
      intros H. apply in_map_iff in H. destruct H as (r' & E & H). injection E as _ E. apply H1. rewrite <- E. apply in_map. exact H. }
    specialize (IH N2 (fun a b H => SO a b (or_intror H))).
    assert (DJ : forall k, In k (map (fun r => (tr_site r, tr_name r)) (site_table nt st)) -> ~ In k (map (fun r => (tr_site r, tr_name r)) (flat_map (fun x => site_table nt (snd x)) l))).
    { intros k Hk Hk'. apply in_map_iff in Hk. destruct Hk as (r & <- & Hr). apply in_map_iff in Hk'. destruct Hk' as (r' & E & Hr'). injection E as E _.
      apply in_flat_map in Hr'. destruct Hr' as ((site' & st') & Hs & Hr'). cbn [snd] in Hr'. destruct (site_names now s readers _ st' nt (SO site' st' (or_intror Hs))) as [_ E2'].
      rewrite (E2 r Hr), (E2' r' Hr'), !name_two in E. subst site'. apply N1. change site with (fst (site, st')). apply in_map. exact Hs. }
    clear - D1 IH DJ. induction (map (fun r => (tr_site r, tr_name r)) (site_table nt st)) as [|k t IHt]; [exact IH|]. cbn. inversion D1; subst. constructor.
    + rewrite in_app_iff. intros [H|H]; [contradiction|]. exact (DJ k (or_introl eq_refl) H).
    + apply IHt; [assumption|]. intros k' Hk'. apply DJ. right. exact Hk'.
Qed.
Lemma dec_table_spec rnd pw fuel c fs p : 0 <= ds_n_levels c -> 0 <= ds_per_level c -> setup_run rnd pw fuel c fs = Ok p ->
  exists t, dec_table p = Ok t /\ Z.of_nat (length t) = dp_n_levels p /\
    forall l row, nth_error t l = Some row -> level_eval_freqs p (Z.of_nat l) = Ok (fst row) /\ get_fs p (Z.of_nat l) = Ok (fst (snd row)) /\
      get_total_factor p (Z.of_nat l) = Ok (fst (snd (snd row))) /\ get_incremental_factor p (Z.of_nat l) = Ok (snd (snd (snd row))) /\
      forall i f, (Z.of_nat i < dp_per_level p) -> (nth_error (fst row) i = Some f <-> level_eval_freq p (Z.of_nat l) (Z.of_nat i) = Ok f).
Proof.
  intros N P H. destruct (setup_size _ _ _ _ _ _ N P H) as (SZ & NL & PL). destruct (setup_run_inv _ _ _ _ _ _ H) as (fr & fa & _ & _ & _ & LN & EP).
  assert (L1 : length (dp_dec_fs p) = Z.to_nat (dp_n_levels p)) by (rewrite EP; cbn [dp_dec_fs dp_n_levels]; unfold dec_fs; rewrite map_length; lia).
  assert (L2 : length (dp_factors p) = Z.to_nat (dp_n_levels p)) by (rewrite EP; cbn [dp_factors dp_n_levels]; lia).
  assert (L3 : length (dp_increments p) = Z.to_nat (dp_n_levels p)) by (rewrite EP; cbn [dp_increments dp_n_levels]; unfold dec_increments; rewrite map_length, combine_length; cbn [length]; lia).
  unfold dec_table, to_numpy. rewrite (proj2 (Z.eqb_eq _ _) SZ). cbv beta iota delta [bind]. unfold column. rewrite map_length, arange_length, L1, L2, L3, !Nat.eqb_refl. cbn [bind].
  eexists. split; [reflexivity|]. split; [rewrite !combine_length, map_length, arange_length; lia|].
  intros l [x [f [a b]]] Hl. apply nth_combine in Hl. destruct Hl as [Hx Hl]. apply nth_combine in Hl. destruct Hl as [Hf Hl]. apply nth_combine in Hl. destruct Hl as [Ha Hb]. cbn [fst snd].
  assert (LT : (l < Z.to_nat (dp_n_levels p))%nat) by (rewrite <- L1; apply nth_error_Some; congruence).
  assert (CL : check_level p (Z.of_nat l) = Ok tt).
  { unfold check_level. destruct (Z.ltb_spec (Z.of_nat l) 0); [lia|]. destruct (Z.geb_spec (Z.of_nat l) (dp_n_levels p)); [lia|]. reflexivity. }
  rewrite nth_error_map, arange_nth in Hx by lia. cbn [option_map] in Hx. injection Hx as <-.
  unfold get_fs, get_total_factor, get_incremental_factor, at_level. rewrite CL. cbn [bind]. rewrite Nat2Z.id, Hf, Ha, Hb.
  split; [unfold level_eval_freqs; rewrite CL; cbn [bind]; rewrite (Z.mul_comm (dp_per_level p)); reflexivity|]. split; [reflexivity|]. split; [reflexivity|]. split; [reflexivity|].
  intros i f0 Hi. unfold level_eval_freq. rewrite CL. cbn [bind]. unfold check_eval_idx. destruct (Z.ltb_spec (Z.of_nat i) 0); [lia|]. destruct (Z.geb_spec (Z.of_nat i) (dp_per_level p)); [lia|]. cbn [orb bind].
  assert (PP : 0 <= Z.of_nat l * dp_per_level p) by (apply Z.mul_nonneg_nonneg; lia).
  rewrite nth_error_slice by lia. destruct (Z.ltb_spec (Z.of_nat i) (Z.of_nat l * dp_per_level p + dp_per_level p - Z.of_nat l * dp_per_level p)); [|lia].
  rewrite (Z.mul_comm (dp_per_level p)). destruct (nth_error (dp_eval_freqs p) (Z.to_nat (Z.of_nat l * dp_per_level p + Z.of_nat i))); split; congruence.
Qed.
Lemma nodup_prod {A B} (l : list A) (l' : list B) : NoDup l -> NoDup l' -> NoDup (list_prod l l').
Proof.
  intros H H'. induction H as [|x t N ND IH]; [constructor|]. cbn [list_prod].
  assert (M : NoDup (map (fun y => (x, y)) l')) by (apply FinFun.Injective_map_NoDup; [intros a b E; congruence|exact H']).
  assert (DJ : forall k, In k (map (fun y => (x, y)) l') -> ~ In k (list_prod t l')).
  { intros k Hk Hk'. apply in_map_iff in Hk. destruct Hk as (y & <- & _). apply in_prod_iff in Hk'. apply N. apply Hk'. }
  induction (map (fun y => (x, y)) l') as [|k r IHr]; [exact IH|]. cbn [app]. inversion M; subst. constructor.
  - rewrite in_app_iff. intros [K|K]; [contradiction|]. exact (DJ k (or_introl eq_refl) K).
  - apply IHr; [assumption|]. intros k' Hk'. apply DJ. right. exact Hk'.
Qed.
Lemma n_evals_spec (s : selection) : 0 <= dp_per_level (sel_params s) -> exists pairs, NoDup pairs /\ Z.of_nat (length pairs) = get_n_evals s /\
  forall l e, In (l, e) pairs <-> exists n, get_n_wins s l e = Ok n.
Proof.
  intros P. exists (list_prod (arange (sel_n_levels s)) (arange (dp_per_level (sel_params s)))). 
  assert (NA : forall n, NoDup (arange n)) by (intros n; unfold arange; apply FinFun.Injective_map_NoDup; [intros a b; apply Nat2Z.inj|apply seq_NoDup]).
  split; [apply nodup_prod; apply NA|].
  split; [rewrite prod_length, !arange_length; unfold get_n_evals, sel_n_levels; rewrite Nat2Z.inj_mul; lia|].
  intros l e. rewrite in_prod_iff, !arange_in. unfold get_n_wins, sel_has_eval, sel_table, sel_n_levels. split.
  - intros [[A B] [C E]]. destruct (Z.geb_spec l (Z.of_nat (length (sel_tables s)))); [lia|]. destruct (nth_error (sel_tables s) (Z.to_nat l)) as [t|] eqn:N; [|apply nth_error_None in N; lia].
    destruct (Z.ltb_spec l 0); [lia|]. cbn [bind]. destruct (Z.leb_spec 0 e); [|lia]. destruct (Z.ltb_spec e (dp_per_level (sel_params s))); [|lia]. cbn [andb]. eexists; reflexivity.
  - intros (n & H). destruct (Z.geb_spec l (Z.of_nat (length (sel_tables s)))); [discriminate H|]. destruct (nth_error (sel_tables s) (Z.to_nat l)) as [t|]; [|discriminate H].
    destruct (Z.ltb_spec l 0); [discriminate H|]. cbn [bind] in H. destruct (Z.leb_spec 0 e); [|discriminate H]. destruct (Z.ltb_spec e (dp_per_level (sel_params s))); [|discriminate H]. lia.
Qed.
Lemma min_of_in x l : In (min_of x l) (x :: l).
Proof.
  unfold min_of. revert x. induction l as [|y t IH]; intros x; cbn; [auto|]. destruct (IH (Z.min x y)) as [E|E]; [|auto].
  rewrite <- E. destruct (Z.min_spec x y) as [[_ ->]|[_ ->]]; auto.
Qed.
Lemma pad_upper rnd n : good_rnd rnd -> 0 <= n -> qtrunc (rnd (rnd (1 # 10) * rnd (inject_Z n)))%Q <= n.
Proof.
  intros G N. assert (NQ : (0 <= inject_Z n)%Q) by (change 0%Q with (inject_Z 0); rewrite <- Zle_Qle; exact N).
  destruct (rnd_pos_bounds rnd (inject_Z n) G NQ) as [A1 A2].
  destruct (rnd_pos_bounds rnd (1 # 10) G ltac:(discriminate)) as [B1 B2].
  assert (P0 : (0 <= rnd (1 # 10) * rnd (inject_Z n))%Q) by nra.
  destruct (rnd_pos_bounds rnd _ G P0) as [C1 C2].
  assert (P1 : (0 <= rnd (rnd (1 # 10) * rnd (inject_Z n))%Q)%Q) by (apply (gr_nonneg G); exact P0).
  assert (U : (rnd (rnd (1 # 10) * rnd (inject_Z n))%Q <= inject_Z n)%Q).
  { assert (T1 : (rnd (1 # 10) <= 11 # 100)%Q) by lra. assert (T2 : (rnd (inject_Z n) <= 2 * inject_Z n)%Q) by lra.
    assert (T3 : (rnd (1 # 10) * rnd (inject_Z n) <= (11 # 100) * (2 * inject_Z n))%Q) by (assert (0 <= rnd (1#10))%Q by lra; assert (0 <= rnd (inject_Z n))%Q by nra; nra). nra. }
  unfold qtrunc. rewrite (proj2 (Qltb_false (rnd (rnd (1 # 10) * rnd (inject_Z n))%Q) 0%Q)) by exact P1.
  rewrite <- (Qfloor_Z n) at 2. apply Qfloor_resp_le. exact U.
Qed.
Lemma late_reference rnd rows y x : good_rnd rnd -> rows <> [] -> (forall r, In r rows -> tr_first r <= tr_last r) ->
  forall lo hi, (forall r, In r rows -> lo <= tr_first r /\ tr_last r <= hi) -> hi + (hi - lo) < x ->
  exists t, plot_timeline rnd rows y (Some x) = Ok t /\ tl_ref t = Some x /\ tl_to t < x.
Proof.
  intros G NE FL lo1 hi1 BB H. destruct rows as [|r t]; [congruence|]. unfold plot_timeline. cbv zeta.
  pose proof (min_of_in (tr_first r) (map tr_first t)) as MI. pose proof (max_of_in (tr_last r) (map tr_last t)) as XI.
  destruct (min_of_le (tr_first r) (map tr_first t)) as [M1 M2]. destruct (max_of_ge (tr_last r) (map tr_last t)) as [X1 X2].
  set (lo0 := min_of (tr_first r) (map tr_first t)) in *. set (hi := max_of (tr_last r) (map tr_last t)) in *.
  change (tr_first r :: map tr_first t) with (map tr_first (r :: t)) in MI. change (tr_last r :: map tr_last t) with (map tr_last (r :: t)) in XI.
  apply in_map_iff in MI. destruct MI as (a & Ea & Ha). apply in_map_iff in XI. destruct XI as (b & Eb & Hb).
  pose proof (FL r (or_introl eq_refl)) as FR. destruct (BB a Ha) as [Ba _]. destruct (BB b Hb) as [_ Bb].
  destruct (Z.ltb_spec x lo0) as [C|C]; [lia|].
  pose proof (pad_upper rnd (hi - lo0) G ltac:(lia)) as PU.
  eexists. split; [reflexivity|]. cbn [tl_ref tl_to]. split; [reflexivity|]. lia.
Qed.
