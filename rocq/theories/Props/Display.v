(** Properties C73, C74: displayed data. *)
From Coq Require Import String Sorted.
From Verif Require Import Base.Prelude Base.B32 Base.ListUtil Base.Cplx Model.Sampling Model.Time Model.Display Spec.Display Proofs.Display.
Open Scope list_scope. Open Scope Q_scope.

(** ** C73 *)
(** up to 2^24 samples: the points shown are samples of the data at their own indices, in order, with the first and the
    last; values survive when float32 holds them *)
Theorem C73_points_are_samples : forall lttbc ycast data k, picks_points lttbc -> (Z.of_nat (length data) <= 2 ^ 24)%Z -> (3 <= k)%Z ->
  (forall y, In y data -> ycast (b32 y) = y) ->
  exists ps, chosen (length data) (Nat.min (Z.to_nat k) (length data)) ps /\
    apply_lttb b32 lttbc ycast data (Some k) = Ok (map Z.of_nat ps, map (fun p => nth p data 0) ps) \/
    data = [] /\ apply_lttb b32 lttbc ycast data (Some k) = Ok ([], []).
Proof. exact lttb_small. Qed.
Print Assumptions C73_points_are_samples.
(** without a limit every sample is shown at its own index *)
Theorem C73_no_limit : forall f32 lttbc ycast data, apply_lttb f32 lttbc ycast data None = Ok (map Z.of_nat (seq 0 (length data)), data).
Proof. exact lttb_none. Qed.
Print Assumptions C73_no_limit.
(** for any length the indices pass through float32 as well *)
Theorem C73_points_rounded : forall lttbc ycast data k, picks_points lttbc -> (3 <= k < Z.of_nat (length data))%Z ->
  exists ps, chosen (length data) (Z.to_nat k) ps /\
    apply_lttb b32 lttbc ycast data (Some k) =
      Ok (map (fun p => Decimate.qtrunc (b32 (inject_Z (Z.of_nat p)))) ps, map (fun p => ycast (b32 (nth p data 0))) ps).
Proof. exact lttb_spec. Qed.
Print Assumptions C73_points_rounded.
(** every recording of 2^24 + 2 samples: the value of the last sample is shown at the index (and time) of the one before *)
Theorem C73_long_recordings_refuted : forall lttbc ycast data k, picks_points lttbc -> Z.of_nat (length data) = 16777218%Z ->
  (3 <= k < Z.of_nat (length data))%Z ->
  exists idx vals, apply_lttb b32 lttbc ycast data (Some k) = Ok (idx ++ [16777216%Z], vals ++ [ycast (b32 (nth (length data - 1) data 0))]).
Proof. exact lttb_large. Qed.
Print Assumptions C73_long_recordings_refuted.
(** a downsampler: the first k - 1 points and the last *)
Definition first_points (xs ys : list Q) (k : Z) : res (list Q * list Q) :=
  let ps := seq 0 (Z.to_nat k - 1) ++ [(length xs - 1)%nat] in Ok (map (fun p => nth p xs 0) ps, map (fun p => nth p ys 0) ps).
Lemma first_points_ok : picks_points first_points.
Proof.
  intros xs ys k L K. exists (seq 0 (Z.to_nat k - 1) ++ [(length xs - 1)%nat]). split; [|reflexivity].
  assert (S : forall m b e, (b + m <= e)%nat -> StronglySorted lt (seq b m ++ [e])).
  { induction m as [|m IH]; intros b e H; cbn; [repeat constructor|]. constructor; [apply IH; lia|]. apply Forall_forall. intros x Hx.
    apply in_app_iff in Hx. destruct Hx as [Hx|[<-|[]]]; [apply in_seq in Hx; lia|lia]. }
  split; [apply S; lia|]. split; [rewrite app_length, seq_length; cbn; lia|]. split.
  - destruct (Z.to_nat k - 1)%nat as [|m] eqn:E; [lia|]. cbn [seq app]. eexists. reflexivity.
  - split; [eexists; reflexivity|]. intros p Hp. apply in_app_iff in Hp. destruct Hp as [Hp|[<-|[]]]; [apply in_seq in Hp; lia|lia].
Qed.
Example C73_ex : picks_points first_points /\ (forall y, In y [3; 1; 4; 1; 5] -> (fun q => Qred q) (b32 y) = y) /\
  apply_lttb b32 first_points Qred [3; 1; 4; 1; 5] (Some 3%Z) = Ok ([0; 1; 4]%Z, [3; 1; 5]).
Proof.
  split; [exact first_points_ok|]. split; [|vm_compute; reflexivity].
  intros y H. cbn [In] in H. destruct H as [<-|[<-|[<-|[<-|[<-|[]]]]]]; vm_compute; reflexivity.
Qed.
Example C73_long_ex : exists data : list Q, Z.of_nat (length data) = 16777218%Z.
Proof. exists (repeat 0 (Z.to_nat 16777218)). rewrite repeat_length. apply Z2Nat.id. discriminate. Qed.

(** ** C74 *)
(** ExHx and ExHy: the phase plus half a turn in [-180, 180), whatever the other frequencies *)
Theorem C74_wrapped_phase : forall angle key zs i z, key = "ExHx"%string \/ key = "ExHy"%string -> nth_error zs i = Some z ->
  exists p, nth_error (get_phase angle key zs) i = Some p /\ -(180) <= p /\ p < 180 /\ same_angle p (angle z + 180).
Proof.
  intros angle key zs i z K H. destruct (phase_wrapped angle key zs i z) as (p & A & _ & B); [destruct K as [->| ->]; reflexivity|exact H|].
  exists p. split; assumption.
Qed.
Print Assumptions C74_wrapped_phase.
(** the other components: the phase of every value up to whole turns, starting with the first value's phase and never
    jumping by more than half a turn *)
Theorem C74_unwrapped_phase : forall angle key zs, key <> "ExHx"%string -> key <> "ExHy"%string ->
  length (get_phase angle key zs) = length zs /\
  (forall i z, nth_error zs i = Some z -> exists p, nth_error (get_phase angle key zs) i = Some p /\ same_angle p (angle z)) /\
  (forall z, nth_error zs 0 = Some z -> nth_error (get_phase angle key zs) 0 = Some (angle z)) /\
  (forall i a b, nth_error (get_phase angle key zs) i = Some a -> nth_error (get_phase angle key zs) (S i) = Some b -> Qabs (b - a) <= 180).
Proof.
  intros angle key zs H1 H2. apply phase_unwrapped. unfold wrapped_key. destruct (String.eqb_spec key "ExHx"); [congruence|]. destruct (String.eqb_spec key "ExHy"); [congruence|]. reflexivity.
Qed.
Print Assumptions C74_unwrapped_phase.
(** documented range [0, 90] of ExHx and ExHy: values in the first quadrant are shown in [-180, -90] *)
Theorem C74_documented_range_refuted : forall angle key zs i z, key = "ExHx"%string \/ key = "ExHy"%string -> nth_error zs i = Some z ->
  0 <= angle z -> angle z <= 90 -> exists p, nth_error (get_phase angle key zs) i = Some p /\ p == angle z - 180.
Proof.
  intros angle key zs i z K H A B. destruct (phase_wrapped angle key zs i z) as (p & P & E & _); [destruct K as [->| ->]; reflexivity|exact H|].
  exists p. split; [exact P|]. rewrite E. rewrite (qmod_unique (angle z) (angle z) 360 0); [reflexivity|reflexivity|change (inject_Z 0) with 0; ring|exact A|].
  apply Qle_lt_trans with 90; [exact B|reflexivity].
Qed.
Print Assumptions C74_documented_range_refuted.
(** EyHx: the same value -170 degrees is shown as -170 alone and as 190 after a value at 170 *)
Theorem C74_context_refuted : let angle := re in let a := mkC 170 0 in let b := mkC (-(170)) 0 in
  map Qred (get_phase angle "EyHx" [b]) = [-(170)] /\ map Qred (get_phase angle "EyHx" [a; b]) = [170; 190].
Proof. vm_compute. split; reflexivity. Qed.
Print Assumptions C74_context_refuted.
Theorem C74_resistivity : forall cabs periods zs, (forall z, In z zs -> cabs z * cabs z == normsq z) -> length periods = length zs ->
  exists r, get_resistivity cabs periods zs = Ok r /\ length r = length zs /\ forall i t z, nth_error periods i = Some t -> nth_error zs i = Some z ->
    exists x, nth_error r i = Some x /\ x == t * normsq z / 5.
Proof. exact resistivity_spec. Qed.
Print Assumptions C74_resistivity.
Example C74_ex : map Qred (get_phase re "ExHy" [mkC 45 0; mkC (-(135)) 0; mkC 170 0; mkC (-(170)) 0]) = [-(135); 45; -(10); 10] /\
  map Qred (get_phase re "EyHy" [mkC 45 0; mkC (-(135)) 0; mkC 170 0; mkC (-(170)) 0]) = [45; -(135); -(190); -(170)].
Proof. vm_compute. split; reflexivity. Qed.
Example C74_resistivity_ex : let cabs := fun z => if Qeq_bool (re z) 3 then 5 else 13 in
  (forall z, In z [mkC 3 4; mkC 5 12] -> cabs z * cabs z == normsq z) /\
  exists r, get_resistivity cabs [10; 20] [mkC 3 4; mkC 5 12] = Ok r /\ map Qred r = [50; 676].
Proof. split; [intros z [<-|[<-|[]]]; vm_compute; reflexivity|]. eexists. split; vm_compute; reflexivity. Qed.
