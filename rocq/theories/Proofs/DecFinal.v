(** Remaining statements for Props/Decimate.v *)
From Coq Require Import String.
From Verif Require Import Base.Prelude Base.Rounding Base.ListUtil Model.Sampling Model.Time Model.Decimate
  Spec.Sampling Spec.Time Spec.Decimate Proofs.DecParams.
Open Scope Q_scope.

Definition dec_td (n : Z) : tdata :=
  mkData (mkMeta 8 ["Ex"%string] 1 n 100 (100 + inject_Z (n - 1) * (1#8)) "" [] []) "float64"
    [map (fun k => Some (inject_Z k)) (arange n)].
Lemma dec_td_usable : usable b64 (dec_td 21).
Proof.
  split; [|split; [reflexivity|cbn; lia]].
  split; [discriminate|]. split; [reflexivity|]. split; [reflexivity|]. split; [intros r [<-|[]]; reflexivity|vm_compute; reflexivity].
Qed.

Lemma setup_size : forall rnd pw fuel c fs p, (0 <= ds_n_levels c)%Z -> (0 <= ds_per_level c)%Z ->
  setup_run rnd pw fuel c fs = Ok p ->
  Z.of_nat (length (dp_eval_freqs p)) = (dp_n_levels p * dp_per_level p)%Z /\ dp_n_levels p = ds_n_levels c /\
  dp_per_level p = ds_per_level c.
Proof.
  intros rnd pw fuel c fs p H1 H2 H. destruct (setup_run_inv _ _ _ _ _ _ H) as (freqs & factors & E1 & _ & _ & _ & ->).
  cbn [dp_eval_freqs dp_n_levels dp_per_level]. split; [|auto].
  unfold setup_eval_freqs in E1. destruct (ds_eval_freqs c) as [l|].
  - destruct (Z.eqb_spec (Z.of_nat (length l)) (ds_n_levels c * ds_per_level c)); cbn [negb] in E1; [|discriminate].
    destruct (existsb (fun f => Qltb (rnd (fs / 2)) f) l); [discriminate|]. injection E1 as <-. assumption.
  - injection E1 as <-. unfold get_eval_freqs_size. rewrite map_length, seq_length. nia.
Qed.
