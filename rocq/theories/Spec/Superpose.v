(** Specification for C101: a channel that is a combination of other channels. *)
From Coq Require Import String.
From Verif Require Import Base.Prelude Base.ListUtil Base.Cplx Model.Sampling Model.Time Model.Gather Model.Regression Spec.Regression Spec.Linear.
Open Scope list_scope. Open Scope Q_scope.
(** sample by sample, channel [o] is the combination of the channels [cs] with the coefficients [qs] *)
Definition combination (td : tdata) (o : chan) (cs : list chan) (qs : list Q) : Prop :=
  length qs = length cs /\ exists out us, channel_samples td o out /\ Forall2 (channel_samples td) cs us /\ mixes qs us out.
(** the entry of tensor [t] from input number [i] to the output channel [c] *)
Definition from_input (tf : tf_chans) (t : list (list cq)) (i : nat) (c : chan) (z : cq) : Prop :=
  exists o, nth_error (tf_out tf) o = Some c /\ entry2 t o i = Some z.
