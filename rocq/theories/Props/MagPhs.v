(** Property C105: magnitudes and phases of spectra (SpectraData.get_mag_phs). *)
From Coq Require Import String.
From Verif Require Import Base.Prelude Base.NdArray Base.Cplx Model.Sampling Model.Time Model.Decimate Model.Window Model.Spectra
  Model.MagPhs Spec.MagPhs Proofs.ToySpec Proofs.MagPhs.
Open Scope list_scope. Open Scope Q_scope.

(** ** C105 *)
(** for every spectrum [idx] (all axes but the frequency axis): the magnitude and the angle of each coefficient; unwrapped
    phases are the angles up to whole turns, step by at most half a turn from one frequency to the next within the same
    spectrum, and are the angles themselves where these already do *)
Theorem C105_magnitudes_phases : forall absolute angle turn d level unwrap mag phs, 0 < turn ->
  get_mag_phs absolute angle turn d level unwrap = Ok (mag, phs) ->
  exists x, sd_at d level = Ok x /\ forall idx,
    ((exists v, nd_vec x idx = Some v) <-> exists w, nd_vec mag idx = Some w) /\ ((exists v, nd_vec x idx = Some v) <-> exists w, nd_vec phs idx = Some w) /\
    forall v, nd_vec x idx = Some v -> nd_vec mag idx = Some (map absolute v) /\
      exists p, nd_vec phs idx = Some p /\ (unwrap = false -> p = map angle v) /\
        (unwrap = true -> same_up_to_turns turn (map angle v) p /\ small_steps turn p /\ (small_steps turn (map angle v) -> Forall2 Qeq p (map angle v))).
Proof.
  intros absolute angle turn d level unwrap mag phs T H. destruct (mag_phs_vec _ _ _ _ _ _ _ _ H) as (x & X & K). exists x. split; [exact X|]. intros idx. destruct (K idx) as (K1 & K2 & K3).
  split; [split; [intros [v V]; eexists; apply (K3 v V)|intros [w W]; exact (K1 w W)]|]. split; [split; [intros [v V]; eexists; apply (K3 v V)|intros [w W]; exact (K2 w W)]|].
  intros v V. destruct (K3 v V) as [M P]. split; [exact M|]. eexists. split; [exact P|]. split; [intros ->; reflexivity|]. intros ->.
  split; [apply unwrap_turns; exact T|]. split; [apply unwrap_steps; exact T|]. apply unwrap_id. exact T.
Qed.
Print Assumptions C105_magnitudes_phases.
(** every phase curve that steps by less than half a turn is recovered from its angles *)
Theorem C105_recovers_curve : forall absolute angle turn d level mag phs x idx v curve, 0 < turn ->
  get_mag_phs absolute angle turn d level true = Ok (mag, phs) -> sd_at d level = Ok x -> nd_vec x idx = Some v ->
  same_up_to_turns turn (map angle v) curve -> smaller_steps turn curve ->
  exists p, nd_vec phs idx = Some p /\ Forall2 Qeq p curve.
Proof.
  intros absolute angle turn d level mag phs x idx v curve T H X V S1 S2. destruct (mag_phs_vec _ _ _ _ _ _ _ _ H) as (x' & X' & K). assert (x' = x) as -> by congruence.
  destruct (K idx) as (_ & _ & K3). destruct (K3 v V) as [_ P]. eexists. split; [exact P|]. exact (unique_curve turn _ _ _ T (unwrap_turns turn _ T) S1 (unwrap_steps turn _ T) S2).
Qed.
Print Assumptions C105_recovers_curve.
(** the coefficients come back from their magnitudes and phases, unwrapped or not *)
Theorem C105_polar_form : forall absolute angle (cis : Q -> cq) turn d level unwrap mag phs x idx v, 0 < turn ->
  (forall z, In z v -> ceq z (cscale (absolute z) (cis (angle z)))) -> (forall a b (n : Z), b == a + inject_Z n * turn -> ceq (cis b) (cis a)) ->
  get_mag_phs absolute angle turn d level unwrap = Ok (mag, phs) -> sd_at d level = Ok x -> nd_vec x idx = Some v ->
  exists m p, nd_vec mag idx = Some m /\ nd_vec phs idx = Some p /\ Forall2 ceq v (map (fun mp => cscale (fst mp) (cis (snd mp))) (combine m p)).
Proof.
  intros absolute angle cis turn d level unwrap mag phs x idx v T C P H X V. destruct (mag_phs_vec _ _ _ _ _ _ _ _ H) as (x' & X' & K). assert (x' = x) as -> by congruence.
  destruct (K idx) as (_ & _ & K3). destruct (K3 v V) as [K4 K5]. eexists _, _. split; [exact K4|]. split; [exact K5|]. apply (polar absolute angle cis turn); [exact C|exact P|].
  destruct unwrap; [apply unwrap_turns; exact T|]. split; [|cbn; intros a b A B; assert (b = a) as -> by congruence; reflexivity].
  clear. induction v as [|z v IH]; cbn [map]; constructor; [|exact IH]. exists 0%Z. change (inject_Z 0) with 0. ring.
Qed.
Print Assumptions C105_polar_form.
(** it succeeds for every array of windows, channels and frequencies; a level that is not there raises *)
Theorem C105_total : forall absolute angle turn d level unwrap,
  (forall x, sd_at d level = Ok (nd3 x) -> exists r, get_mag_phs absolute angle turn d level unwrap = Ok r) /\
  ((forall x, sd_at d level <> Ok x) -> get_mag_phs absolute angle turn d level unwrap = Err KeyError).
Proof.
  intros absolute angle turn d level unwrap. split.
  - intros x X. destruct (mag_phs_total absolute angle turn d level unwrap x X) as [phs P]. eexists. exact P.
  - intros N. unfold get_mag_phs, sd_at in *. destruct (find _ _) as [[k x]|]; [destruct (N x); reflexivity|reflexivity].
Qed.
Print Assumptions C105_total.

(** ** coefficients on the axes, a turn is 4: 1, 2i, -1, -3i, 2 turn round once, in a second channel they turn backwards *)
Definition mpAbs (z : cq) : Q := Qabs (re z) + Qabs (im z).
Definition mpAngle (z : cq) : Q := if Qeq_bool (im z) 0 then (if Qle_bool 0 (re z) then 0 else 2) else if Qle_bool 0 (im z) then 1 else -1.
Definition mpCis (q : Q) : cq := nth (Z.to_nat (qfloor q mod 4)) [mkC 1 0; mkC 0 1; mkC (-1) 0; mkC 0 (-1)] c0.
Definition mpTurn : list cq := [mkC 1 0; mkC 0 2; mkC (-1) 0; mkC 0 (-3); mkC 2 0].
Definition mpS : spec_data cq := toy_spec [[mpTurn; rev mpTurn]] [0; 1; 2; 3; 4].
Definition mpPhs : nd Q := match get_mag_phs mpAbs mpAngle 4 mpS 0 true with Ok (_, p) => p | Err _ => Ax [] end.
Definition mpMag : nd Q := match get_mag_phs mpAbs mpAngle 4 mpS 0 true with Ok (m, _) => m | Err _ => Ax [] end.
Lemma mp_run : get_mag_phs mpAbs mpAngle 4 mpS 0 true = Ok (mpMag, mpPhs).
Proof. vm_compute. reflexivity. Qed.
Example C105_ex : sd_at mpS 0 = Ok (nd3 [[mpTurn; rev mpTurn]]) /\ nd_vec (nd3 [[mpTurn; rev mpTurn]]) [0; 0]%nat = Some mpTurn /\
  (forall z, In z mpTurn -> ceq z (cscale (mpAbs z) (mpCis (mpAngle z)))) /\ (forall a b (n : Z), b == a + inject_Z n * 4 -> ceq (mpCis b) (mpCis a)) /\
  same_up_to_turns 4 (map mpAngle mpTurn) [0; 1; 2; 3; 4] /\ smaller_steps 4 [0; 1; 2; 3; 4] /\
  map mpAngle mpTurn = [0; 1; 2; -1; 0] /\
  option_map (map Qred) (nd_vec mpPhs [0; 0]%nat) = Some [0; 1; 2; 3; 4] /\ option_map (map Qred) (nd_vec mpPhs [0; 1]%nat) = Some [0; -1; -2; -3; -4] /\
  option_map (map Qred) (nd_vec mpMag [0; 0]%nat) = Some [1; 2; 1; 3; 2] /\
  get_mag_phs mpAbs mpAngle 4 mpS 1 true = Err KeyError.
Proof.
  split; [reflexivity|]. split; [reflexivity|]. split; [intros z [<-|[<-|[<-|[<-|[<-|[]]]]]]; split; vm_compute; reflexivity|]. split.
  { intros a b n E. unfold mpCis. assert (Q : qfloor b = (qfloor a + n * 4)%Z).
    { apply qfloor_unique; rewrite E; rewrite inject_Z_plus, inject_Z_mult; destruct (qfloor_spec a); change (inject_Z 4) with 4; lra. }
    rewrite Q, Z.mod_add by lia. split; reflexivity. }
  split; [split; [|intros a b A B; injection A as <-; injection B as <-; reflexivity]; cbn [map mpTurn]; constructor; [exists 0%Z; vm_compute; reflexivity|]; constructor; [exists 0%Z; vm_compute; reflexivity|]; constructor; [exists 0%Z; vm_compute; reflexivity|]; constructor; [exists 1%Z; vm_compute; reflexivity|]; constructor; [exists 1%Z; vm_compute; reflexivity|constructor]|].
  split; [intros [|[|[|[|[|[|i]]]]]] a b A B; try discriminate B; injection A as <-; injection B as <-; vm_compute; reflexivity|].
  split; [vm_compute; reflexivity|]. split; [vm_compute; reflexivity|]. split; [vm_compute; reflexivity|]. split; vm_compute; reflexivity.
Qed.
