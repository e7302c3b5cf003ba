(** C20 for single precision data: the fractional shift is lost from sample 2^23 on *)
From Coq Require Import String.
From Verif Require Import Base.Prelude Base.Rounding Base.B32 Base.ListUtil Base.Interp Model.Sampling Model.Time
  Spec.Sampling Spec.Time Proofs.Sampling Proofs.TimeMeta Proofs.TimeProc Proofs.TimeData Proofs.TimeData2.
Open Scope Q_scope.

Lemma count_below_ext xs ys x : Forall2 Qeq xs ys -> count_below xs x = count_below ys x.
Proof.
  induction 1 as [|a b t t' E _ IH]; cbn; [reflexivity|].
  rewrite (Qltb_comp _ _ E x x (Qeq_refl x)), IH. reflexivity.
Qed.

Lemma b32_arange n : (n <= 2 ^ 24)%Z ->
  Forall2 Qeq (map (fun k => b32 (inject_Z k)) (arange n)) (map (fun k => exact (inject_Z k)) (arange n)).
Proof.
  intros Hn. assert (F : forall k, In k (arange n) -> (Z.abs k < 2 ^ 24)%Z).
  { intros k Hk. unfold arange in Hk. apply in_map_iff in Hk. destruct Hk as (i & <- & Hi). apply in_seq in Hi. lia. }
  induction (arange n) as [|k t IH]; cbn [map]; constructor.
  - apply b32_int. apply F. left; reflexivity.
  - apply IH. intros; apply F; right; assumption.
Qed.

(** interpolating exactly at sample k+1 gives that sample *)
Lemma interp1d_b32_at n (r : list cell) k x : (0 <= k)%Z -> (k + 1 < n)%Z -> (n <= 2 ^ 24)%Z -> x == inject_Z (k + 1) ->
  nth_error r (Z.to_nat k) = Some (Some 0) -> nth_error r (Z.to_nat (k + 1)) = Some (Some 0) ->
  exists v, interp1d b32 (map (fun k => b32 (inject_Z k)) (arange n)) r x = Some v /\ v == 0.
Proof.
  intros Hk Hn Hb Hx Ha Hc. unfold interp1d.
  rewrite (count_below_ext _ _ x (b32_arange n Hb)).
  assert (CB : count_below (map (fun k => exact (inject_Z k)) (arange n)) x = Z.to_nat (k + 1)).
  { rewrite (count_below_comp _ x (inject_Z k + 1)) by (rewrite Hx, inject_Z_plus; reflexivity).
    pose proof (count_below_arange n k 1 Hk ltac:(lia) ltac:(lra) ltac:(lra) 0%Z ltac:(lia)) as C.
    rewrite Z.sub_0_r in C. unfold arange. rewrite Z.sub_0_r in C. exact C. }
  rewrite CB, map_length, arange_length.
  replace (Nat.max 1 (Nat.min (Z.to_nat (k + 1)) (Z.to_nat n - 1))) with (Z.to_nat (k + 1)) by lia.
  replace (Z.to_nat (k + 1) - 1)%nat with (Z.to_nat k) by lia.
  rewrite !nth_error_map, !arange_nth by lia. cbn [option_map]. rewrite Ha, Hc.
  eexists. split; [reflexivity|].
  assert (Z0 : forall y, y == 0 -> b32 y == 0) by (intros y Hy; rewrite (b32_comp _ _ Hy); reflexivity).
  assert (N1 : b32 (0 - 0) == 0) by (apply Z0; ring).
  match goal with |- b32 (b32 (b32 (b32 (0 - 0) / ?D) * ?X) + 0) == 0 => generalize D X end. intros D X.
  assert (N2 : b32 (b32 (0 - 0) / D) == 0) by (apply Z0; unfold Qdiv; rewrite N1; ring).
  assert (N3 : b32 (b32 (b32 (0 - 0) / D) * X) == 0) by (apply Z0; rewrite N2; ring).
  apply Z0. rewrite N3. ring.
Qed.

(** 2^23 + 3 samples, all 0 except the last two *)
Definition row32 (big : Z) : list cell := repeat (Some 0) (Z.to_nat (big + 1)) ++ [Some 1; Some 1].
Definition td32 (big : Z) : tdata :=
  mkData (mkMeta 1 ["Ex"%string] 1 (big + 3) 0 (inject_Z (big + 2)) "" [] []) "float32" [row32 big].

Section Big.
Variable big : Z.
Hypothesis Hbig : big = (2 ^ 23)%Z.

Lemma row32_length : length (row32 big) = Z.to_nat (big + 3).
Proof. unfold row32. rewrite app_length, repeat_length. cbn [length]. lia. Qed.
Lemma row32_nth k : (0 <= k <= big)%Z -> nth_error (row32 big) (Z.to_nat k) = Some (Some 0).
Proof.
  intros H. unfold row32. rewrite nth_error_app1 by (rewrite repeat_length; lia).
  apply nth_error_repeat. lia.
Qed.
Lemma row32_nth1 : nth_error (row32 big) (S (Z.to_nat big)) = Some (Some 1).
Proof.
  unfold row32. rewrite nth_error_app2 by (rewrite repeat_length; lia). rewrite repeat_length.
  replace (S (Z.to_nat big) - Z.to_nat (big + 1))%nat with 0%nat by lia. reflexivity.
Qed.
Lemma td32_consistent : consistent b64 (td32 big).
Proof.
  unfold consistent, td32. cbn [meta rows chans n_chans n_samples first_time last_time fs].
  split; [discriminate|]. split; [reflexivity|]. split; [reflexivity|]. split.
  - intros r [<-|[]]. rewrite row32_length. lia.
  - assert (P : period b64 1 == 1) by (vm_compute; reflexivity).
    rewrite (stamp_comp _ _ _ _ P). unfold stamp. replace (big + 3 - 1)%Z with (big + 2)%Z by lia. ring.
Qed.

Lemma quarter_lost : forall d, d == 1 -> b32 (b32 (inject_Z (2 ^ 23)) + b32 (b64 ((1#4) / d))) == inject_Z (2 ^ 23).
Proof.
  intros d Hd. assert (E : (1#4) / d == 1#4) by (rewrite Hd; reflexivity).
  rewrite (b64_comp _ _ E). vm_compute. reflexivity.
Qed.

Lemma shift32 : exists td' r',
  shift_timestamps b64 b32 (1#4) (td32 big) = Ok td' /\ nth_error (rows td') 0 = Some r' /\
  exists v, nth_error r' (Z.to_nat big) = Some (Some v) /\ v == 0.
Proof.
  unfold shift_timestamps.
  assert (D1 : dt b64 (meta (td32 big)) == 1) by (unfold dt; cbn [td32 meta fs]; vm_compute; reflexivity).
  assert (D : Qle_bool (dt b64 (meta (td32 big))) (1#4) = false) by (apply Qle_bool_false; rewrite D1; reflexivity).
  rewrite D. revert D1. generalize (dt b64 (meta (td32 big))). intros d D1. cbn [meta td32 n_samples rows].
  assert (L : (big + 3 <? 2)%Z = false) by (apply Z.ltb_ge; lia). rewrite L.
  eexists _, _. split; [reflexivity|]. cbn [rows new_time_data]. split; [cbn [map nth_error]; reflexivity|].
  rewrite nth_error_map, nth_error_map, arange_nth by lia. cbn [option_map].
  rewrite Z2Nat.id by lia.
  destruct (interp1d_b32_at (big + 3) (row32 big) (big - 1) (b32 (b32 (inject_Z big) + b32 (b64 ((1#4) / d))))) as (v & E & V).
  - lia.
  - lia.
  - lia.
  - rewrite Hbig. replace (2 ^ 23 - 1 + 1)%Z with (2 ^ 23)%Z by lia. apply quarter_lost. exact D1.
  - apply row32_nth. lia.
  - apply row32_nth. lia.
  - exists v. split; [f_equal; exact E|exact V].
Qed.
End Big.
