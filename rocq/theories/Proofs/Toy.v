(** Concrete oracles satisfying the contracts (used only in examples): filters are
    the identity, decimation takes every q-th sample, resampling repeats samples. *)
From Coq Require Import String.
From Verif Require Import Base.Prelude Base.Rounding Base.ListUtil Model.Sampling Model.Time Spec.Time.
Open Scope Z_scope.

Definition toy : oracles := {|
  o_filter := fun _ _ _ x => Ok x;
  o_resample := fun up down x => if (up <? 1) || (down <? 1) then Err ValueError else
     Ok (map (fun i => nth (Z.to_nat (Z.of_nat i * down / up)) x None)
          (seq 0 (Z.to_nat ((Z.of_nat (length x) * up + down - 1) / down))));
  o_decimate := fun q x => if q <? 1 then Err ValueError else
     Ok (map (fun i => nth (i * Z.to_nat q) x None) (seq 0 (Z.to_nat ((Z.of_nat (length x) + q - 1) / q))));
  o_isqrt := Z.sqrt;
  o_limit_denominator := fun x => x;
  o_garbage := fun _ _ => Some (0#1)%Q |}.

Lemma toy_good : good_oracles toy.
Proof.
  split; cbn.
  - intros b o c x y H. injection H as <-. reflexivity.
  - intros q x y. destruct (Z.ltb_spec q 1); [discriminate|]. intros H1. injection H1 as <-.
    split; [lia|]. rewrite map_length, seq_length, Z2Nat.id; [reflexivity|]. apply Z.div_pos; lia.
  - intros up down x y. destruct (Z.ltb_spec up 1); [discriminate|]. destruct (Z.ltb_spec down 1); [discriminate|].
    cbn [orb]. intros E. injection E as <-. split; [lia|]. split; [lia|].
    rewrite map_length, seq_length, Z2Nat.id; [reflexivity|]. apply Z.div_pos; nia.
  - intros; lia.
Qed.
