(** C59 *)
From Coq Require Import String.
From Verif Require Import Base.Prelude Base.FileSys Proofs.FileSys Model.Process Spec.Process.
Open Scope list_scope.

Section ValInd.
  Variable P : val -> Prop.
  Hypothesis HStr : forall t, P (VStr t).
  Hypothesis HOther : forall t, P (VOther t).
  Hypothesis HList : forall l, Forall P l -> P (VList l).
  Hypothesis HDict : forall d, Forall (fun kv => P (snd kv)) d -> P (VDict d).
  Hypothesis HObj : forall c n fs, Forall (fun kv => P (snd kv)) fs -> P (VObj c n fs).
  Hypothesis HTf : forall c n fs, P (VTf c n fs).
  Fixpoint val_ind2 (v : val) : P v :=
    match v with
    | VStr t => HStr t
    | VOther t => HOther t
    | VList l => HList l ((fix go l := match l return Forall P l with [] => Forall_nil _ | x :: t => Forall_cons _ (val_ind2 x) (go t) end) l)
    | VDict d => HDict d ((fix go d := match d return Forall (fun kv => P (snd kv)) d with [] => Forall_nil _ | kv :: t => Forall_cons kv (val_ind2 (snd kv)) (go t) end) d)
    | VObj c n fs => HObj c n fs ((fix go d := match d return Forall (fun kv => P (snd kv)) d with [] => Forall_nil _ | kv :: t => Forall_cons kv (val_ind2 (snd kv)) (go t) end) fs)
    | VTf c n fs => HTf c n fs
    end.
End ValInd.

Lemma dict_del_none {A} k (d : list (string * A)) : ~ In k (map fst d) -> dict_del k d = d.
Proof.
  induction d as [|[x v] d IH]; cbn; [reflexivity|]. intros H. destruct (String.eqb_spec x k) as [->|E]; [exfalso; apply H; left; reflexivity|].
  rewrite IH; [reflexivity|]. intros K. apply H. right. exact K.
Qed.
Lemma dict_del_gone {A} k (d : list (string * A)) : ~ In k (map fst (dict_del k d)).
Proof.
  induction d as [|[x v] d IH]; cbn; [tauto|]. destruct (String.eqb_spec x k) as [->|E]; [exact IH|]. cbn. intros [H|H]; [congruence|exact (IH H)].
Qed.
Lemma dict_del_other {A} k j (d : list (string * A)) : j <> k -> assoc j (dict_del k d) = assoc j d.
Proof.
  intros N. induction d as [|[x v] d IH]; cbn; [reflexivity|]. destruct (String.eqb_spec x k) as [->|E]; cbn.
  - destruct (String.eqb_spec k j); [congruence|exact IH].
  - destruct (String.eqb x j); [reflexivity|exact IH].
Qed.
Lemma assoc_map {A B} (g : A -> B) k (d : list (string * A)) : assoc k (map (fun kv => (fst kv, g (snd kv))) d) = option_map g (assoc k d).
Proof. induction d as [|[x v] d IH]; cbn; [reflexivity|]. destruct (String.eqb x k); [reflexivity|exact IH]. Qed.
Lemma map_fst_map {A B} (g : A -> B) (d : list (string * A)) : map fst (map (fun kv => (fst kv, g (snd kv))) d) = map fst d.
Proof. rewrite map_map. reflexivity. Qed.
Lemma all_ok_spec {A} (l : list (res A)) xs : all_ok l = Ok xs -> l = map Ok xs.
Proof.
  revert xs. induction l as [|r l IH]; intros xs H; cbn in H; [injection H as <-; reflexivity|].
  destruct r as [x|]; [|discriminate]. cbn [bind] in H. destruct (all_ok l) as [ys|]; [|discriminate]. injection H as <-. cbn. rewrite (IH ys eq_refl). reflexivity.
Qed.
Lemma combine_fst_snd {A B} (l : list (A * B)) : combine (map fst l) (map snd l) = l.
Proof. induction l as [|[a b] l IH]; cbn; [reflexivity|]. rewrite IH. reflexivity. Qed.

Section Reg.
  Variable k : classes.
  Notation reg := (k_reg k).
  Notation validate_tf := (validate_tf (k_treg k) (k_tbase k)).
  Notation validate := (validate (k_reg k) (k_treg k) (k_tbase k)).
  Notation validate_list := (validate_list (k_reg k) (k_treg k) (k_tbase k)).
  Notation arg_of := (arg_of (k_reg k) (k_treg k) (k_tbase k)).
  Notation args_of := (args_of (k_reg k) (k_treg k) (k_tbase k)).
  Notation make := (make (k_reg k) (k_treg k) (k_tbase k)).

  Lemma validate_dict d : validate (VDict d) =
    match assoc "name"%string d with
    | None => (Err KeyError, VDict d)
    | Some (VStr n) => match assoc n reg with
                       | Some c => (match construct c None (dict_del "name"%string (args_of d)) with Ok o => Ok o | Err _ => Err ValueError end,
                                    VDict (after c (dict_del "name"%string (args_of d))))
                       | None => (Err ValueError, VDict (dict_del "name"%string d))
                       end
    | Some _ => (Err ValueError, VDict (dict_del "name"%string d))
    end.
  Proof.
    cbn [Model.Process.validate].
    assert (E : forall F : string * val -> string * arg, (forall j x, F (j, x) = (j, arg_of x)) -> map F d = args_of d).
    { intros F HF. unfold Model.Process.args_of. apply map_ext. intros [j x]. apply HF. }
    match goal with |- context [map ?F d] => rewrite (E F (fun j x => eq_refl)) end.
    destruct (assoc "name"%string d) as [[]|]; reflexivity.
  Qed.

  (** ** transfer functions *)
  Lemma plain_names prev fds fs : plain_fields prev fds fs -> map fst fs = map f_name fds.
  Proof. induction 1; cbn; [reflexivity|]. f_equal. assumption. Qed.
  Lemma plain_round prev fds fs args : plain_fields prev fds fs ->
    (forall j v, In (j, v) fs -> exists a, assoc j args = Some a /\ a_raw a = v) ->
    all_ok (map (fun kv => fst (snd kv)) (field_values fds prev args)) = Ok (map snd fs).
  Proof.
    induction 1 as [prev|prev f v fds fs co Ht Hc Hd Hp IH]; intros A; [reflexivity|].
    cbn [field_values map fst snd]. destruct (A _ _ (or_introl eq_refl)) as (a & Ea & Ra). rewrite Ea. unfold field_value at 1 2. rewrite Ht. cbn [fst]. rewrite Ra, Hc.
    cbn [all_ok bind]. rewrite IH; [reflexivity|]. intros j w Hj. apply A. right. exact Hj.
  Qed.
  Lemma plain_dict prev fds fs : plain_fields prev fds fs -> map (fun kv => (fst kv, to_dict (snd kv))) fs = fs.
  Proof. induction 1 as [|prev f v fds fs co Ht Hc Hd Hp IH]; cbn; [reflexivity|]. rewrite Hd, IH. reflexivity. Qed.
  Lemma tf_validate_name n d : assoc "name"%string d = Some (VStr n) ->
    fst (validate_tf (VDict d)) = match tf_class k n with
      | Some c => if String.eqb n "TransferFunction" then construct_tf c None (plain_args (dict_del "name"%string d))
                  else match construct_tf c None (plain_args (dict_del "name"%string d)) with Ok o => Ok o | Err _ => Err ValueError end
      | None => Err ValueError
      end.
  Proof.
    intros E. cbn [Model.Process.validate_tf]. rewrite E. unfold tf_class. destruct (String.eqb n "TransferFunction"); [reflexivity|]. destruct (assoc n (k_treg k)); reflexivity.
  Qed.
  Lemma tf_round : classes_ok k -> forall v, ordinary_tf k v -> fst (validate_tf (to_dict v)) = Ok v.
  Proof.
    intros [_ R] v O. destruct O as [n cl fs Hc Hp]. destruct (R n cl Hc) as (Hn & Nd & Nn & _). cbn [to_dict].
    rewrite (tf_validate_name n) by (cbn; reflexivity). rewrite Hc. rewrite (plain_dict _ _ _ Hp). cbn [dict_del]. rewrite String.eqb_refl.
    pose proof (plain_names _ _ _ Hp) as En. rewrite dict_del_none by (rewrite En; exact Nn).
    assert (E : construct_tf cl None (plain_args fs) = Ok (VTf n n fs)).
    { unfold construct_tf, construct_as. rewrite (plain_round [] (c_fields cl) fs (plain_args fs) Hp).
      - cbn [bind]. rewrite Hn, <- En, combine_fst_snd. reflexivity.
      - intros j v Hj. exists (plain_arg v). split; [|reflexivity]. unfold plain_args. rewrite (assoc_map plain_arg), (In_assoc j v fs); [reflexivity|rewrite En; exact Nd|exact Hj]. }
    rewrite E. destruct (String.eqb n "TransferFunction"); reflexivity.
  Qed.
  (** values of a class with plain fields only *)
  Lemma plain_made args fds : (forall f, In f fds -> stable (f_type f) /\ exists co, f_type f = FPlain co) ->
    forall prev xs, all_ok (map (fun kv => fst (snd kv)) (field_values fds prev args)) = Ok xs ->
    plain_fields prev fds (combine (map f_name fds) xs).
  Proof.
    induction fds as [|f fds IH]; intros H prev xs E.
    - cbn in E. injection E as <-. constructor.
    - cbn [field_values map fst snd] in E. set (r := field_value f prev (assoc (f_name f) args)) in *. cbn [all_ok] in E.
      destruct (fst r) as [v|] eqn:Er; [|discriminate]. cbn [bind] in E. destruct (all_ok _) as [ys|] eqn:Ey; [|discriminate]. cbn [bind] in E. injection E as <-.
      destruct (H f (or_introl eq_refl)) as (Hs & co & Ht). cbn [map combine]. assert (G : exists x, co prev x = Ok v).
      { subst r. unfold field_value in Er. rewrite Ht in Er. destruct (assoc (f_name f) args) as [a|]; cbn [fst] in Er; [exists (a_raw a); exact Er|].
        destruct (f_default f) as [d|]; [exists d; exact Er|discriminate]. }
      destruct G as [x Hx]. unfold stable in Hs. rewrite Ht in Hs. destruct (Hs prev x v Hx) as [S1 S2].
      apply plain_cons with co; [exact Ht|exact S1|exact S2|]. apply IH; [|exact Ey]. intros g Hg. apply H. right. exact Hg.
  Qed.
  Lemma tf_made : classes_ok k -> forall v o, sound k v -> fst (validate_tf v) = Ok o -> ordinary_tf k o.
  Proof.
    intros [_ R] v o S H. destruct v as [t|t|l|d|c n fs|c n fs]; try discriminate.
    - cbn [Model.Process.validate_tf] in H. destruct (assoc "name"%string d) as [nm|] eqn:En; [|discriminate].
      destruct nm as [n|t|l|d'|c n' fs|c n' fs]; try discriminate.
      pose proof (tf_validate_name n d En) as E. cbn [Model.Process.validate_tf] in E. rewrite En in E. rewrite E in H.
      destruct (tf_class k n) as [cl|] eqn:Hc; [|discriminate].
      assert (E2 : construct_tf cl None (plain_args (dict_del "name"%string d)) = Ok o).
      { destruct (String.eqb n "TransferFunction"); [exact H|]. destruct (construct_tf cl None _); [exact H|discriminate]. }
      destruct (R n cl Hc) as (Hn & Nd & Nn & Hf). unfold construct_tf, construct_as in E2. destruct (all_ok _) as [xs|] eqn:Ex; [|discriminate]. cbn [bind] in E2. injection E2 as <-.
      rewrite Hn. apply ordinary_tf_obj with cl; [exact Hc|]. exact (plain_made _ _ Hf [] xs Ex).
    - cbn in H. injection H as <-. exact S.
  Qed.

  (** ** round trip *)
  Definition good (v : val) : Prop := ordinary k v -> fst (validate (to_dict v)) = Ok v.
  Lemma ordinary_names prev fds fs : ordinary_fields k prev fds fs -> map fst fs = map f_name fds.
  Proof. revert prev fs. induction fds as [|f fds IH]; intros prev fs H; inversion H; subst; cbn; [reflexivity|]. f_equal. eapply IH. eassumption. Qed.
  Lemma field_round prev t v nm df : classes_ok k -> good v -> (forall l, v = VList l -> Forall good l) -> ordinary_field k prev t v ->
    fst (field_value (mkF nm t df) prev (Some (arg_of (to_dict v)))) = Ok v.
  Proof.
    intros R H1 H2 O. inversion O as [prev' co v' Hc Hp|prev' d v' Ho|prev' d l Hl|prev' v' Ho]; subst; cbn [field_value f_type Model.Process.arg_of a_raw a_one a_many a_tf fst].
    - rewrite Hp. exact Hc.
    - exact (H1 Ho).
    - specialize (H2 l eq_refl). cbn [to_dict Model.Process.validate_list fst].
      assert (E : all_ok (map fst (map validate (map to_dict l))) = Ok l).
      { clear - H2 Hl. induction Hl as [|x l Hx Hl IH]; [reflexivity|]. cbn [map all_ok]. rewrite (Forall_inv H2 Hx). cbn [bind]. rewrite (IH (Forall_inv_tail H2)). reflexivity. }
      rewrite E. reflexivity.
    - exact (tf_round R v Ho).
  Qed.
  Lemma fields_round args : classes_ok k -> forall fds prev fs, ordinary_fields k prev fds fs ->
    Forall (fun kv => good (snd kv) /\ forall l, snd kv = VList l -> Forall good l) fs ->
    (forall j v, In (j, v) fs -> assoc j args = Some (arg_of (to_dict v))) ->
    all_ok (map (fun kv => fst (snd kv)) (field_values fds prev args)) = Ok (map snd fs).
  Proof.
    intros R. induction fds as [|f fds IH]; intros prev fs O G A; inversion O as [|prev' f' v fds' fs' Of Ofs]; subst; [reflexivity|].
    cbn [field_values map fst snd]. rewrite (A _ _ (or_introl eq_refl)). destruct (Forall_inv G) as [G1 G2]. cbn [snd] in G1, G2.
    assert (F : fst (field_value f prev (Some (arg_of (to_dict v)))) = Ok v) by (destruct f as [nm t df]; exact (field_round prev t v nm df R G1 G2 Of)).
    rewrite F. cbn [all_ok bind]. rewrite (IH _ _ Ofs (Forall_inv_tail G)); [reflexivity|]. intros j w Hj. apply A. right. exact Hj.
  Qed.
  Lemma made_round c name fs : classes_ok k -> NoDup (map f_name (c_fields c)) -> ordinary_fields k [] (c_fields c) fs ->
    Forall (fun kv => good (snd kv) /\ forall l, snd kv = VList l -> Forall good l) fs ->
    make c name (map (fun kv => (fst kv, to_dict (snd kv))) fs) = Ok (VObj (c_name c) (match name with Some n => n | None => c_name c end) fs).
  Proof.
    intros R Nd O G. pose proof (ordinary_names _ _ _ O) as En. unfold Model.Process.make, construct, construct_as.
    rewrite (fields_round _ R (c_fields c) [] fs O G).
    - cbn [bind]. rewrite <- En, combine_fst_snd. reflexivity.
    - intros j v Hj. unfold Model.Process.args_of. rewrite (assoc_map arg_of), (assoc_map to_dict), (In_assoc j v fs); [reflexivity|rewrite En; exact Nd|exact Hj].
  Qed.
  Lemma round_trip_all : classes_ok k -> forall v, good v /\ forall l, v = VList l -> Forall good l.
  Proof.
    intros R. apply val_ind2.
    - intros t. split; [intros H; inversion H|discriminate].
    - intros t. split; [intros H; inversion H|discriminate].
    - intros l H. split; [intros K; inversion K|]. intros l' E. injection E as <-. apply Forall_forall. intros x Hx. exact (proj1 (proj1 (Forall_forall _ _) H x Hx)).
    - intros d H. split; [intros K; inversion K|discriminate].
    - intros c n fs H. split; [|discriminate]. intros O. inversion O as [c' fs' cl Ec Ef]; subst.
      destruct (proj1 R n cl Ec) as (Hn & Nd & Nn & _). cbn [to_dict]. rewrite validate_dict. cbn [assoc]. rewrite String.eqb_refl, Ec. cbn [fst].
      pose proof (ordinary_names _ _ _ Ef) as En.
      assert (Ed : dict_del "name"%string (args_of (("name"%string, VStr n) :: map (fun kv => (fst kv, to_dict (snd kv))) fs)) = args_of (map (fun kv => (fst kv, to_dict (snd kv))) fs)).
      { unfold Model.Process.args_of. cbn [map fst dict_del]. rewrite String.eqb_refl. apply dict_del_none. rewrite (map_fst_map arg_of), (map_fst_map to_dict), En. exact Nn. }
      rewrite Ed. change (construct cl None (args_of (map (fun kv => (fst kv, to_dict (snd kv))) fs))) with (make cl None (map (fun kv => (fst kv, to_dict (snd kv))) fs)).
      rewrite (made_round cl None fs R Nd Ef H), Hn. reflexivity.
    - intros c n fs. split; [intros H; inversion H|discriminate].
  Qed.
  Lemma c59_round_trip : classes_ok k -> forall o, ordinary k o -> fst (validate (to_dict o)) = Ok o.
  Proof. intros R o. exact (proj1 (round_trip_all R o)). Qed.
  (** a model that is no process itself, such as Configuration *)
  Lemma c59_config c n fs : classes_ok k -> NoDup (map f_name (c_fields c)) -> ordinary_fields k [] (c_fields c) fs ->
    make c (Some n) (map (fun kv => (fst kv, to_dict (snd kv))) fs) = Ok (VObj (c_name c) n fs).
  Proof. intros R Nd O. apply (made_round c (Some n) fs R Nd O). apply Forall_forall. intros kv _. exact (round_trip_all R (snd kv)). Qed.

  (** ** what validate and constructors give is ordinary *)
  Definition makes (v : val) : Prop := (forall o, fst (validate v) = Ok o -> ordinary k o) /\ (forall o, fst (validate_list v) = Ok o -> exists l, o = VList l /\ Forall (ordinary k) l).
  Lemma fields_made args c : classes_ok k -> class_ok k c ->
    (forall j a, assoc j args = Some a -> exists x, a = arg_of x /\ makes x /\ sound k x) ->
    forall fds prev xs, (forall f, In f fds -> In f (c_fields c)) -> all_ok (map (fun kv => fst (snd kv)) (field_values fds prev args)) = Ok xs ->
    ordinary_fields k prev fds (combine (map f_name fds) xs).
  Proof.
    intros R (Nd & Nn & Hf) Ha. induction fds as [|f fds IH]; intros prev xs G E.
    - cbn in E. injection E as <-. constructor.
    - cbn [field_values map fst snd] in E. set (r := field_value f prev (assoc (f_name f) args)) in *. cbn [all_ok] in E.
      destruct (fst r) as [v|] eqn:Er; [|discriminate]. cbn [bind] in E. destruct (all_ok _) as [ys|] eqn:Ey; [|discriminate]. cbn [bind] in E. injection E as <-.
      destruct (Hf f (G f (or_introl eq_refl))) as (Hs & Hd). cbn [map combine]. constructor; [|apply IH; [|exact Ey]; intros g Hg; apply G; right; exact Hg].
      subst r. unfold field_value in Er. destruct (assoc (f_name f) args) as [a|] eqn:Ea.
      + destruct (Ha _ a Ea) as (x & -> & [M1 M2] & Sx). cbn [Model.Process.arg_of a_raw a_one a_many a_tf] in Er. destruct (f_type f) as [co|d|d|]; cbn [fst] in Er.
        * destruct (Hs prev _ _ Er). apply ordinary_plain; assumption.
        * apply ordinary_one. exact (M1 v Er).
        * destruct (M2 v Er) as (l & -> & Hl). apply ordinary_many. exact Hl.
        * apply ordinary_tfun. exact (tf_made R x v Sx Er).
      + cbn [fst] in Er. destruct (f_default f) as [w|] eqn:Ed; [|discriminate]. destruct (Hd w eq_refl) as [[co Hco]|Ho].
        * rewrite Hco in Er, Hs |- *. destruct (Hs prev _ _ Er). apply ordinary_plain; assumption.
        * destruct (f_type f) as [co|d|d|].
          -- destruct (Hs prev _ _ Er). apply ordinary_plain; assumption.
          -- injection Er as <-. inversion Ho; subst. apply ordinary_one. assumption.
          -- injection Er as <-. inversion Ho; subst. apply ordinary_many. assumption.
          -- injection Er as <-. inversion Ho; subst. apply ordinary_tfun. assumption.
  Qed.
  Lemma sound_in d j x : sound k (VDict d) -> In (j, x) d -> sound k x.
  Proof. cbn [sound]. induction d as [|kv d IH]; intros S Ex; [destruct Ex|]. cbn [fold_right] in S. destruct Ex as [->|Ex]; [exact (proj1 S)|exact (IH (proj2 S) Ex)]. Qed.
  Lemma makes_all : classes_ok k -> forall v, sound k v -> makes v.
  Proof.
    intros R. apply (val_ind2 (fun v => sound k v -> makes v)).
    - intros t _. split; discriminate.
    - intros t _. split; discriminate.
    - intros l H S. split; [discriminate|]. intros o Ho. cbn [Model.Process.validate_list fst] in Ho. destruct (all_ok _) as [xs|] eqn:E; [|discriminate]. cbn [bind] in Ho. injection Ho as <-.
      exists xs. split; [reflexivity|]. apply all_ok_spec in E. rewrite map_map in E. revert xs E. cbn [sound] in S. induction H as [|x l Hx Hl IH]; intros [|y xs] E; try discriminate; constructor.
      + cbn [map] in E. injection E as E1 E2. cbn [fold_right] in S. exact (proj1 (Hx (proj1 S)) y E1).
      + cbn [map] in E. injection E as E1 E2. cbn [fold_right] in S. exact (IH (proj2 S) xs E2).
    - intros d H S. split; [|discriminate]. intros o Ho. rewrite validate_dict in Ho. destruct (assoc "name"%string d) as [[n|t|l|d'|c' n' fs'|c' n' fs']|]; try discriminate.
      destruct (assoc n reg) as [c|] eqn:Ec; [|discriminate]. cbn [fst] in Ho. destruct (construct c None _) as [o'|] eqn:Eo; [|discriminate]. injection Ho as ->.
      destruct (proj1 R n c Ec) as [Hn Hc]. unfold construct, construct_as in Eo. destruct (all_ok _) as [xs|] eqn:Ex; [|discriminate]. cbn [bind] in Eo. injection Eo as <-. rewrite Hn.
      apply ordinary_obj with c; [exact Ec|]. apply (fields_made _ c R Hc) with (prev := []) in Ex; [exact Ex| |tauto].
      intros j a Ha. destruct (String.eqb_spec j "name") as [->|Nj].
      { exfalso. rewrite (proj2 (assoc_none _ _) (dict_del_gone "name"%string (args_of d))) in Ha. discriminate. }
      rewrite (dict_del_other "name"%string j (args_of d) Nj) in Ha. unfold Model.Process.args_of in Ha. rewrite (assoc_map arg_of) in Ha.
      destruct (assoc j d) as [x|] eqn:Ej; [|discriminate]. injection Ha as <-. apply assoc_In in Ej. assert (Sx := sound_in d j x S Ej).
      exists x. split; [reflexivity|]. split; [exact (proj1 (Forall_forall _ _) H (j, x) Ej Sx)|exact Sx].
    - intros c n fs H S. split; [|discriminate]. intros o Ho. cbn in Ho. injection Ho as <-. exact S.
    - intros c n fs S. split; discriminate.
  Qed.
  Lemma c59_validated v o : classes_ok k -> sound k v -> fst (validate v) = Ok o -> ordinary k o /\ fst (validate (to_dict o)) = Ok o.
  Proof. intros R S H. assert (O := proj1 (makes_all R v S) o H). split; [exact O|exact (c59_round_trip R o O)]. Qed.
  Lemma made_fields c name d o : classes_ok k -> class_ok k c -> sound k (VDict d) -> make c name d = Ok o ->
    exists fs, o = VObj (c_name c) (match name with Some n => n | None => c_name c end) fs /\ ordinary_fields k [] (c_fields c) fs.
  Proof.
    intros R Hc S H. unfold Model.Process.make, construct, construct_as in H. destruct (all_ok _) as [xs|] eqn:Ex; [|discriminate]. cbn [bind] in H. injection H as <-.
    eexists. split; [reflexivity|]. apply (fields_made _ c R Hc) with (prev := []) in Ex; [exact Ex| |tauto].
    intros j a Ha. unfold Model.Process.args_of in Ha. rewrite (assoc_map arg_of) in Ha. destruct (assoc j d) as [x|] eqn:Ej; [|discriminate]. injection Ha as <-. apply assoc_In in Ej.
    assert (Sx := sound_in d j x S Ej). exists x. split; [reflexivity|]. split; [exact (makes_all R x Sx)|exact Sx].
  Qed.
  Lemma c59_constructed c d o : classes_ok k -> assoc (c_name c) reg = Some c -> sound k (VDict d) -> make c None d = Ok o ->
    ordinary k o /\ fst (validate (to_dict o)) = Ok o.
  Proof.
    intros R Ec S H. destruct (made_fields c None d o R (proj2 (proj1 R _ _ Ec)) S H) as (fs & -> & O).
    assert (Or : ordinary k (VObj (c_name c) (c_name c) fs)) by (apply ordinary_obj with c; assumption). split; [exact Or|exact (c59_round_trip R _ Or)].
  Qed.
  (** Configuration: constructed from JSON data, written with dict() and read again *)
  Lemma c59_config_json c n d o : classes_ok k -> class_ok k c -> sound k (VDict d) -> make c (Some n) d = Ok o ->
    exists fs, o = VObj (c_name c) n fs /\ to_dict o = VDict (("name"%string, VStr n) :: map (fun kv => (fst kv, to_dict (snd kv))) fs) /\
      make c (Some n) (map (fun kv => (fst kv, to_dict (snd kv))) fs) = Ok o.
  Proof.
    intros R Hc S H. destruct (made_fields c (Some n) d o R Hc S H) as (fs & -> & O). exists fs. split; [reflexivity|]. split; [reflexivity|].
    exact (c59_config c n fs R (proj1 Hc) O).
  Qed.

  (** ** the caller's dictionary *)
  Lemma after_keys c args : map fst (after c args) = map fst args.
  Proof. unfold after. rewrite map_map. reflexivity. Qed.
  Lemma map_fst_args d : map fst (args_of d) = map fst d.
  Proof. unfold Model.Process.args_of. rewrite map_map. reflexivity. Qed.
  Lemma del_keys (A : Type) (l : list (string * A)) : map fst (dict_del "name"%string l) = filter (fun j => negb (String.eqb j "name")) (map fst l).
  Proof. induction l as [|[j v] l IH]; cbn; [reflexivity|]. destruct (String.eqb j "name"); cbn; rewrite IH; reflexivity. Qed.
  Lemma validate_keys d : assoc "name"%string d <> None -> keys (snd (validate (VDict d))) = filter (fun j => negb (String.eqb j "name")) (map fst d).
  Proof.
    intros H. rewrite validate_dict.
    destruct (assoc "name"%string d) as [[n|t|l|d'|c' n' fs'|c' n' fs']|]; [| | | | | |congruence]; try (destruct (assoc n reg) as [c|]); cbn [snd keys]; rewrite ?after_keys, ?del_keys, ?map_fst_args; reflexivity.
  Qed.
  Lemma c59_mutates d : In "name"%string (map fst d) ->
    keys (snd (validate (VDict d))) = filter (fun j => negb (String.eqb j "name")) (map fst d) /\
    fst (validate (snd (validate (VDict d)))) = Err KeyError.
  Proof.
    intros H. assert (N : assoc "name"%string d <> None) by (intros E; apply assoc_none in E; exact (E H)).
    split; [exact (validate_keys d N)|]. pose proof (validate_keys d N) as K.
    assert (V : exists d', snd (validate (VDict d)) = VDict d').
    { rewrite validate_dict. destruct (assoc "name"%string d) as [[n|t|l|d'|c' n' fs'|c' n' fs']|]; try (destruct (assoc n reg) as [c|]); cbn [snd]; eexists; reflexivity. }
    destruct V as [d' V]. rewrite V in *. cbn [keys] in K. rewrite validate_dict. assert (E : assoc "name"%string d' = None).
    { apply assoc_none. rewrite K. intros F. apply filter_In in F. destruct F as [_ F]. rewrite String.eqb_refl in F. discriminate. }
    rewrite E. reflexivity.
  Qed.
  Lemma c59_tf_mutates d : In "name"%string (map fst d) -> snd (validate_tf (VDict d)) = VDict (dict_del "name"%string d) /\
    fst (validate_tf (snd (validate_tf (VDict d)))) = Err KeyError.
  Proof.
    intros H. assert (N : assoc "name"%string d <> None) by (intros E; apply assoc_none in E; exact (E H)).
    assert (E : snd (validate_tf (VDict d)) = VDict (dict_del "name"%string d)).
    { cbn [Model.Process.validate_tf]. destruct (assoc "name"%string d) as [[n|t|l|d'|c' n' fs'|c' n' fs']|]; try congruence; try reflexivity.
      destruct (String.eqb n "TransferFunction"); [reflexivity|]. destruct (assoc n (k_treg k)); reflexivity. }
    split; [exact E|]. rewrite E. cbn [Model.Process.validate_tf]. rewrite (proj2 (assoc_none _ _) (dict_del_gone "name"%string d)). reflexivity.
  Qed.

  (** ** names given by the user *)
  Lemma c59_custom_unknown c n fs : assoc n reg = None -> fst (validate (to_dict (VObj c n fs))) = Err ValueError.
  Proof. intros H. cbn [to_dict]. rewrite validate_dict. cbn [assoc]. rewrite String.eqb_refl, H. reflexivity. Qed.
  Lemma c59_custom_tf c n fs : tf_class k n = None -> fst (validate_tf (to_dict (VTf c n fs))) = Err ValueError.
  Proof. intros H. cbn [to_dict]. rewrite (tf_validate_name n) by reflexivity. rewrite H. reflexivity. Qed.
  Lemma c59_custom_other c n fs o : classes_ok k -> fst (validate (to_dict (VObj c n fs))) = Ok o -> class_of o = Some n.
  Proof.
    intros R H. cbn [to_dict] in H. rewrite validate_dict in H. cbn [assoc] in H. rewrite String.eqb_refl in H. destruct (assoc n reg) as [cl|] eqn:E; [|discriminate].
    cbn [fst] in H. destruct (construct cl None _) as [o'|] eqn:Eo; [|discriminate]. injection H as ->. unfold construct, construct_as in Eo. destruct (all_ok _); [|discriminate]. cbn [bind] in Eo. injection Eo as <-.
    cbn [class_of]. rewrite (proj1 (proj1 R n cl E)). reflexivity.
  Qed.

  (** ** a field declared for one class holds an object of any other *)
  Definition has_defaults (c : cls) : Prop := exists xs, all_ok (map (fun kv => fst (snd kv)) (field_values (c_fields c) [] [])) = Ok xs.
  Lemma c59_confusion c f declared d cl o : c_fields c = [f] -> f_type f = FProcess declared -> assoc d reg = Some cl -> c_name cl = d ->
    make cl None [] = Ok o ->
    make c None [(f_name f, VDict [("name"%string, VStr d)])] = Ok (VObj (c_name c) (c_name c) [(f_name f, o)]) /\ class_of o = Some d.
  Proof.
    intros Hc Ht Hd Hn Hm. split.
    - assert (V : fst (validate (VDict [("name"%string, VStr d)])) = Ok o).
      { rewrite validate_dict. cbn [assoc]. rewrite String.eqb_refl, Hd. unfold Model.Process.args_of. cbn [map fst dict_del]. rewrite String.eqb_refl. cbn [fst].
        unfold Model.Process.make, Model.Process.args_of in Hm. cbn [map] in Hm. rewrite Hm. reflexivity. }
      unfold Model.Process.make, construct, construct_as. rewrite Hc. cbn [field_values map fst snd all_ok]. unfold Model.Process.args_of. cbn [map fst snd assoc]. rewrite String.eqb_refl.
      unfold field_value. rewrite Ht. cbn [Model.Process.arg_of a_one fst]. rewrite V. reflexivity.
    - unfold Model.Process.make, construct, construct_as in Hm. destruct (all_ok _); [|discriminate]. cbn [bind] in Hm. injection Hm as <-. cbn. rewrite Hn. reflexivity.
  Qed.
End Reg.
