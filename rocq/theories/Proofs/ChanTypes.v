(** C85: channel types. *)
From Coq Require Import String Ascii Sorted.
From Verif Require Import Base.Prelude Base.ListUtil Base.FileSys Model.Gather Base.SortNames Model.ChanTypes Spec.ChanTypes Proofs.FileSys.
Open Scope list_scope.

Lemma name_in_iff c l : name_in c l = true <-> In c l.
Proof.
  unfold name_in. rewrite existsb_exists. split; [intros (x & H & E); apply String.eqb_eq in E; subst; exact H|intros H; exists c; rewrite String.eqb_refl; auto].
Qed.
Lemma electric_iff c : is_electric c = true <-> electric_name c.
Proof. unfold is_electric. change (electric_name c) with (In c ELECTRIC_CHANS). rewrite <- (name_in_iff c). destruct (name_in c ELECTRIC_CHANS); tauto. Qed.
Lemma magnetic_iff c : is_magnetic c = true <-> magnetic_name c.
Proof. unfold is_magnetic. change (magnetic_name c) with (In c MAGNETIC_CHANS). rewrite <- (name_in_iff c). destruct (name_in c MAGNETIC_CHANS); tauto. Qed.
Lemma names_disjoint c : electric_name c -> magnetic_name c -> False.
Proof. intros H K. cbn in H, K. repeat match goal with X : _ \/ _ |- _ => destruct X end; subst; try contradiction; try discriminate. Qed.

Lemma get_chan_type_iff c t : get_chan_type c = Ok t <-> (electric_name c /\ t = "electric"%string) \/ (magnetic_name c /\ t = "magnetic"%string).
Proof.
  unfold get_chan_type. destruct (is_electric c) eqn:E; [|destruct (is_magnetic c) eqn:M].
  - apply electric_iff in E. split; [intros [= <-]; auto|intros [[_ ->]|[M _]]; [reflexivity|destruct (names_disjoint c E M)]].
  - apply magnetic_iff in M. split; [intros [= <-]; auto|intros [[E' _]|[_ ->]]; [destruct (names_disjoint c E' M)|reflexivity]].
  - split; [discriminate|]. rewrite <- electric_iff, <- magnetic_iff. intuition congruence.
Qed.
Lemma get_chan_type_err c e : get_chan_type c = Err e -> e = ValueError /\ ~ electric_name c /\ ~ magnetic_name c.
Proof.
  unfold get_chan_type. rewrite <- electric_iff, <- magnetic_iff. destruct (is_electric c); [discriminate|]. destruct (is_magnetic c); [discriminate|].
  intros [= <-]. intuition congruence.
Qed.
Lemma make_ok d cm : make_chan_metadata d = Ok cm -> cd_name d = Some (ch_name cm) /\ type_of (cd_name d) (cd_type d) (ch_type cm).
Proof.
  unfold make_chan_metadata, type_of. destruct (cd_name d) as [n|], (cd_type d) as [t|]; try discriminate.
  - intros [= <-]. cbn. split; [reflexivity|]. exists n. auto.
  - destruct (get_chan_type n) eqn:E; [|discriminate]. intros [= <-]. cbn. split; [reflexivity|]. exists n. apply get_chan_type_iff in E. auto.
Qed.
Lemma type_unique n g t t' : type_of n g t -> type_of n g t' -> t = t'.
Proof.
  intros (x & -> & H) (y & E & H'). injection E as <-. destruct H as [->|[-> H]]; destruct H' as [E|[E H']]; try congruence.
  destruct H as [[H ->]|[H ->]], H' as [[H' ->]|[H' ->]]; try reflexivity; destruct (names_disjoint x); assumption.
Qed.
Lemma make_total d t : type_of (cd_name d) (cd_type d) t -> exists cm, make_chan_metadata d = Ok cm /\ ch_type cm = t.
Proof.
  intros (n & E & H). unfold make_chan_metadata. rewrite E. destruct H as [->|[-> H]]; [eexists; split; reflexivity|].
  rewrite (proj2 (get_chan_type_iff n t) H). eexists. split; reflexivity.
Qed.

Definition ty (dict : list (string * chan_dict)) (c t : string) : Prop := exists d, assoc c dict = Some d /\ type_of (cd_name d) (cd_type d) t.
(** the loop *)
Lemma loop_inv dict : forall chans acc cms, chans_metadata_of dict chans acc = Ok cms ->
  (forall c, In c chans -> exists d cm, assoc c dict = Some d /\ make_chan_metadata d = Ok cm /\ assoc c cms = Some cm) /\
  (forall c, ~ In c chans -> assoc c cms = assoc c acc).
Proof.
  induction chans as [|c chans IH]; intros acc cms; cbn [chans_metadata_of]; [intros [= <-]; split; [intros c []|reflexivity]|].
  destruct (assoc c dict) as [d|] eqn:D; cbn [bind]; [|discriminate]. destruct (make_chan_metadata d) as [cm|] eqn:M; cbn [bind]; [|discriminate].
  intros H. destruct (IH _ _ H) as [I1 I2]. split.
  - intros x [<-|Hx]; [|apply I1; exact Hx]. destruct (in_dec string_dec c chans) as [Hi|Hn]; [apply I1; exact Hi|].
    exists d, cm. split; [exact D|]. split; [exact M|]. rewrite (I2 c Hn), assoc_set_same. reflexivity.
  - intros x Hx. rewrite (I2 x) by (intros K; apply Hx; right; exact K). apply assoc_set_other. intros ->. apply Hx. left. reflexivity.
Qed.
Lemma loop_total dict : forall chans acc, (forall c, In c chans -> exists t, ty dict c t) -> exists cms, chans_metadata_of dict chans acc = Ok cms.
Proof.
  induction chans as [|c chans IH]; intros acc H; cbn [chans_metadata_of]; [eauto|].
  destruct (H c (or_introl eq_refl)) as (t & d & D & T). destruct (make_total d t T) as (cm & M & _). rewrite D. cbn [bind]. rewrite M. cbn [bind].
  apply IH. intros x Hx. apply H. right. exact Hx.
Qed.
Lemma loop_keys dict : forall chans acc cms, chans_metadata_of dict chans acc = Ok cms -> NoDup (map fst acc) ->
  NoDup (map fst cms).
Proof.
  induction chans as [|c chans IH]; intros acc cms; cbn [chans_metadata_of]; [intros [= <-]; auto|].
  destruct (assoc c dict) as [d|]; cbn [bind]; [|discriminate]. destruct (make_chan_metadata d) as [cm|]; cbn [bind]; [|discriminate].
  intros H N. apply (IH _ _ H). clear -N. induction acc as [|[k v] acc IH]; cbn; [constructor; [intros []|constructor]|].
  cbn in N. inversion N as [|? ? N1 N2]; subst. destruct (String.eqb k c) eqn:E; cbn; [constructor; assumption|]. constructor; [|apply IH; exact N2].
  intros K. apply N1. clear -K E. induction acc as [|[k' v'] acc IH]; cbn in *.
  - destruct K as [->|[]]. rewrite String.eqb_refl in E. discriminate.
  - destruct (String.eqb k' c) eqn:E'; cbn in *; [exact K|]. destruct K as [K|K]; [left; exact K|right; apply IH; exact K].
Qed.
Lemma assoc_in_nodup {A} (l : list (string * A)) k v : NoDup (map fst l) -> In (k, v) l -> assoc k l = Some v.
Proof.
  induction l as [|[x y] l IH]; cbn; [intros _ []|]. intros N [[= -> ->]|H]; [rewrite String.eqb_refl; reflexivity|].
  inversion N as [|? ? N1 N2]; subst. destruct (String.eqb x k) eqn:E; [|apply IH; assumption].
  apply String.eqb_eq in E. subst. exfalso. apply N1. change k with (fst (k, v)). apply in_map. exact H.
Qed.

Lemma select_part (test : chan_meta -> bool) (P : string -> Prop) tm : forall chans,
  (forall c, In c chans -> exists m, meta_of tm c = Ok m /\ (test m = true <-> P c)) ->
  exists l, select_chans test tm chans = Ok l /\ part P chans l.
Proof.
  induction chans as [|c chans IH]; intros H; cbn [select_chans]; [eexists; split; [reflexivity|constructor]|].
  destruct (H c (or_introl eq_refl)) as (m & M & T). rewrite M. cbn [bind].
  destruct IH as (l & L & HP); [intros x Hx; apply H; right; exact Hx|]. rewrite L. cbn [bind]. eexists. split; [reflexivity|].
  destruct (test m) eqn:E; [apply part_in|apply part_out]; try assumption; [apply T; reflexivity|]. intros K. apply T in K. discriminate.
Qed.
Lemma part_iff {A} (P R : A -> Prop) l r : (forall x, In x l -> (P x <-> R x)) -> part P l r -> part R l r.
Proof.
  intros H K. revert H. induction K as [|x l r Px K IH|x l r Px K IH]; intros H; [constructor| |]; [apply part_in|apply part_out]; try (apply IH; intros y Hy; apply H; right; exact Hy).
  - apply H; [left; reflexivity|exact Px].
  - intros Q. apply Px, H; [left; reflexivity|exact Q].
Qed.
Lemma part_in_iff {A} (P : A -> Prop) l r : part P l r -> forall x, In x r <-> In x l /\ P x.
Proof.
  induction 1 as [|y l r Py K IH|y l r Py K IH]; intros x; cbn; [tauto| |]; rewrite IH; split.
  - intros [->|[H1 H2]]; auto.
  - intros [[->|H1] H2]; auto.
  - intros [H1 H2]. auto.
  - intros [[->|H1] H2]; [contradiction|auto].
Qed.

Section Types.
  Variables (chans : list string) (n : option Z) (dict : list (string * chan_dict)) (tm : time_meta).
  Hypothesis H : get_time_metadata chans n dict = Ok tm.
  Lemma tm_inv : tm_chans tm = chans /\ tm_n_chans tm = validate_n_chans n chans /\ chans_metadata_of dict chans [] = Ok (tm_chans_metadata tm).
  Proof. unfold get_time_metadata in H. destruct (chans_metadata_of dict chans []) eqn:E; cbn [bind] in H; [|discriminate]. injection H as <-. auto. Qed.
  Lemma metas c : In c chans -> exists m, meta_of tm c = Ok m /\ ty dict c (ch_type m).
  Proof.
    intros Hc. destruct tm_inv as (_ & _ & E). destruct (proj1 (loop_inv dict chans [] _ E) c Hc) as (d & cm & D & M & A).
    exists cm. unfold meta_of. rewrite A. split; [reflexivity|]. exists d. split; [exact D|]. apply make_ok. exact M.
  Qed.
  Lemma ty_iff c m t : In c chans -> meta_of tm c = Ok m -> (String.eqb (ch_type m) t = true <-> ty dict c t).
  Proof.
    intros Hc M. destruct (metas c Hc) as (m' & M' & d & D & T). replace m' with m in * by congruence. rewrite String.eqb_eq. split.
    - intros <-. exists d. auto.
    - intros (d' & D' & T'). replace d' with d in * by congruence. eapply type_unique; eassumption.
  Qed.
  Lemma with_type t : exists l, get_chans_with_type tm t = Ok l /\ part (fun c => ty dict c t) chans l.
  Proof.
    unfold get_chans_with_type. destruct tm_inv as (-> & _ & _). apply select_part. intros c Hc. destruct (metas c Hc) as (m & M & _).
    exists m. split; [exact M|]. apply ty_iff; assumption.
  Qed.
  Lemma electric_part : exists l, get_electric_chans tm = Ok l /\ part (fun c => ty dict c "electric") chans l.
  Proof. exact (with_type "electric"). Qed.
  Lemma magnetic_part : exists l, get_magnetic_chans tm = Ok l /\ part (fun c => ty dict c "magnetic") chans l.
  Proof. exact (with_type "magnetic"). Qed.
  Lemma any_part t r : part (fun c => ty dict c t) chans r -> negb (Nat.eqb (List.length r) 0) = true <-> exists c, In c chans /\ ty dict c t.
  Proof.
    intros P. pose proof (part_in_iff _ _ _ P) as I. destruct r as [|x r]; cbn.
    - split; [discriminate|]. intros (c & Hc & T). destruct (proj2 (I c) (conj Hc T)).
    - split; [|reflexivity]. intros _. exists x. apply I. left. reflexivity.
  Qed.
  Lemma any_e : exists b, any_electric tm = Ok b /\ (b = true <-> exists c, In c chans /\ ty dict c "electric").
  Proof. destruct electric_part as (l & L & P). unfold any_electric. rewrite L. cbn [bind]. eexists. split; [reflexivity|]. apply any_part. exact P. Qed.
  Lemma any_m : exists b, any_magnetic tm = Ok b /\ (b = true <-> exists c, In c chans /\ ty dict c "magnetic").
  Proof. destruct magnetic_part as (l & L & P). unfold any_magnetic. rewrite L. cbn [bind]. eexists. split; [reflexivity|]. apply any_part. exact P. Qed.
  Lemma types_in t : In t (get_chan_types tm) <-> exists c, In c chans /\ ty dict c t.
  Proof.
    unfold get_chan_types. rewrite sorted_set_in, in_map_iff. destruct tm_inv as (_ & _ & E). destruct (loop_inv dict chans [] _ E) as [I1 I2].
    pose proof (loop_keys dict chans [] _ E (NoDup_nil _)) as N. split.
    - intros ([c m] & <- & K). cbn [snd]. pose proof (assoc_in_nodup _ _ _ N K) as A.
      destruct (in_dec string_dec c chans) as [Hc|Hc]; [|rewrite (I2 c Hc) in A; discriminate].
      exists c. split; [exact Hc|]. destruct (metas c Hc) as (m' & M & T). unfold meta_of in M. rewrite A in M. injection M as <-. exact T.
    - intros (c & Hc & T). destruct (metas c Hc) as (m & M & _). exists (c, m). split.
      + cbn. apply String.eqb_eq. apply (ty_iff c m t Hc M). exact T.
      + unfold meta_of in M. destruct (assoc c (tm_chans_metadata tm)) as [x|] eqn:A; [|discriminate]. injection M as <-. revert A. clear.
        induction (tm_chans_metadata tm) as [|[k v] l IH]; cbn; [discriminate|]. destruct (String.eqb k c) eqn:E; [|intros A; right; apply IH; exact A].
        apply String.eqb_eq in E. intros [= ->]. left. congruence.
  Qed.
End Types.
Lemma accepts chans n dict : (exists tm, get_time_metadata chans n dict = Ok tm) <-> forall c, In c chans -> exists t, ty dict c t.
Proof.
  split.
  - intros [tm H] c Hc. destruct (metas chans n dict tm H c Hc) as (m & _ & T). eauto.
  - intros H. unfold get_time_metadata. destruct (loop_total dict chans [] H) as [cms ->]. cbn [bind]. eauto.
Qed.
