(** Specification for C102: two transfer functions with the same inputs and cross channels and other outputs. *)
From Coq Require Import String.
From Verif Require Import Base.Prelude Base.ListUtil Base.Cplx Model.Sampling Model.Time Model.Gather Model.Regression Model.Pipeline Spec.Regression Spec.Superpose.
Open Scope list_scope. Open Scope Q_scope.
(** the configuration that asks for the outputs [outs] instead *)
Definition with_outputs (c : config) (outs : list chan) : config :=
  mkConfig (cf_name c) (cf_time c) (cf_dec c) (cf_resample c) (cf_max_single c) (cf_win c) (cf_target c) (cf_spec c) (cf_cal_chans c) (mkTf outs (tf_in (cf_tf c)) (tf_cross (cf_tf c))).
(** two solutions with the same frequencies that hold the same entries for the output [o], at every frequency *)
Definition same_output (c : chan) (sa sb : solution) : Prop :=
  so_freqs sb = so_freqs sa /\ tf_in (so_tf sb) = tf_in (so_tf sa) /\
  forall i, (i < length (so_freqs sa))%nat -> exists ta tb oa ob row, sol_tensor sa (Z.of_nat i) = Ok ta /\ sol_tensor sb (Z.of_nat i) = Ok tb /\
    nth_error (tf_out (so_tf sa)) oa = Some c /\ nth_error (tf_out (so_tf sb)) ob = Some c /\ nth_error ta oa = Some row /\ nth_error tb ob = Some row.
