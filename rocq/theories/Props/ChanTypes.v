(** Property C85: channel types and counts. *)
From Coq Require Import String Ascii Sorted.
From Verif Require Import Base.Prelude Base.FileSys Model.Gather Base.SortNames Model.ChanTypes Spec.ChanTypes Proofs.ChanTypes.
Open Scope list_scope.

(** ** C85: the groups of channels by type are the channels of that type in their order; the list
    of types is sorted, without repetition and complete *)
Theorem C85_types : forall chans n chans_dict tm, get_time_metadata chans n chans_dict = Ok tm ->
  let has_type c t := exists d, assoc c chans_dict = Some d /\ type_of (cd_name d) (cd_type d) t in
  (forall t, exists l, get_chans_with_type tm t = Ok l /\ part (fun c => has_type c t) chans l) /\
  (exists l, get_electric_chans tm = Ok l /\ part (fun c => has_type c "electric"%string) chans l) /\
  (exists l, get_magnetic_chans tm = Ok l /\ part (fun c => has_type c "magnetic"%string) chans l) /\
  (exists b, any_electric tm = Ok b /\ (b = true <-> exists c, In c chans /\ has_type c "electric"%string)) /\
  (exists b, any_magnetic tm = Ok b /\ (b = true <-> exists c, In c chans /\ has_type c "magnetic"%string)) /\
  (forall t, In t (get_chan_types tm) <-> exists c, In c chans /\ has_type c t) /\ NoDup (get_chan_types tm) /\
  StronglySorted (fun a b => String.leb a b = true) (get_chan_types tm) /\
  (forall c, In c chans -> exists! t, has_type c t).
Proof.
  intros chans n dict tm H has_type. split; [exact (with_type _ _ _ _ H)|]. split; [exact (electric_part _ _ _ _ H)|]. split; [exact (magnetic_part _ _ _ _ H)|].
  split; [exact (any_e _ _ _ _ H)|]. split; [exact (any_m _ _ _ _ H)|]. split; [exact (types_in _ _ _ _ H)|]. split; [apply sorted_set_nodup|]. split; [apply sorted_set_sorted|].
  intros c Hc. destruct (metas _ _ _ _ H c Hc) as (m & _ & d & D & T). exists (ch_type m). split; [exists d; auto|].
  intros t (d' & D' & T'). replace d' with d in * by congruence. eapply type_unique; eassumption.
Qed.
Print Assumptions C85_types.
(** metadata is accepted exactly when every channel is described and its type given or known *)
Theorem C85_accepted : forall chans n chans_dict,
  (exists tm, get_time_metadata chans n chans_dict = Ok tm) <->
  forall c, In c chans -> exists d t, assoc c chans_dict = Some d /\ type_of (cd_name d) (cd_type d) t.
Proof.
  intros. rewrite accepts. unfold ty. split; intros H c Hc.
  - destruct (H c Hc) as (t & d & K). eauto.
  - destruct (H c Hc) as (d & t & K). eauto.
Qed.
Print Assumptions C85_accepted.
(** a name alone: known names have one type, others raise ValueError *)
Theorem C85_names : forall c,
  (is_electric c = true <-> electric_name c) /\ (is_magnetic c = true <-> magnetic_name c) /\ ~ (electric_name c /\ magnetic_name c) /\
  (forall t, get_chan_type c = Ok t <-> (electric_name c /\ t = "electric"%string) \/ (magnetic_name c /\ t = "magnetic"%string)) /\
  (forall e, get_chan_type c = Err e -> e = ValueError /\ ~ electric_name c /\ ~ magnetic_name c).
Proof.
  intros c. split; [apply electric_iff|]. split; [apply magnetic_iff|]. split; [intros [E M]; exact (names_disjoint c E M)|].
  split; [apply get_chan_type_iff|apply get_chan_type_err].
Qed.
Print Assumptions C85_names.
(** the number of channels is right when it is left out; a given number is taken as it is *)
Theorem C85_counts : forall chans chans_dict tm, get_time_metadata chans None chans_dict = Ok tm -> tm_n_chans tm = Z.of_nat (List.length chans) /\ tm_chans tm = chans.
Proof. intros chans dict tm H. destruct (tm_inv _ _ _ _ H) as (C & N & _). auto. Qed.
Print Assumptions C85_counts.
Theorem C85_counts_refuted : forall chans chans_dict tm k, get_time_metadata chans None chans_dict = Ok tm ->
  exists tm', get_time_metadata chans (Some k) chans_dict = Ok tm' /\ tm_chans tm' = chans /\ tm_n_chans tm' = k.
Proof.
  intros chans dict tm k H. destruct (tm_inv _ _ _ _ H) as (_ & _ & E). unfold get_time_metadata. rewrite E. cbn [bind]. eexists. split; [reflexivity|]. split; reflexivity.
Qed.
Print Assumptions C85_counts_refuted.

(** *** an instance *)
Definition ctDict : list (string * chan_dict) :=
  [("Hx", mkChanDict (Some "Hx") None); ("a", mkChanDict (Some "Ey") None); ("Ex", mkChanDict (Some "Ex") None); ("t", mkChanDict (Some "t") (Some "temperature"))]%string.
Example C85_ex : exists tm, get_time_metadata ["t"; "Ex"; "Hx"; "a"]%string None ctDict = Ok tm /\
  get_electric_chans tm = Ok ["Ex"; "a"]%string /\ get_chans_with_type tm "temperature" = Ok ["t"]%string /\ any_magnetic tm = Ok true /\
  get_chan_types tm = ["electric"; "magnetic"; "temperature"]%string /\ tm_n_chans tm = 4%Z /\
  get_time_metadata ["t2"]%string None [("t2"%string, mkChanDict (Some "t2"%string) None)] = Err ValidationError.
Proof. eexists. split; [vm_compute; reflexivity|]. repeat split. Qed.
