(** Specification for C98: recordings that agree on some channels. *)
From Coq Require Import String.
From Verif Require Import Base.Prelude Model.Sampling Model.Time Model.Gather.
Open Scope list_scope.

(** channel [c] is recorded in both, with the same samples *)
Definition same_channel (a b : tdata) (c : chan) : Prop := exists i j r,
  nth_error (chans (meta a)) i = Some c /\ nth_error (rows a) i = Some r /\ nth_error (chans (meta b)) j = Some c /\ nth_error (rows b) j = Some r.
(** one row per channel, all as long as each other, no channel twice *)
Definition tidy (n : nat) (td : tdata) : Prop :=
  NoDup (chans (meta td)) /\ length (rows td) = length (chans (meta td)) /\ rows td <> [] /\ forall r, In r (rows td) -> length r = n.
(** two recordings of the same time that agree on the channels [cs]; order and other channels are free *)
Definition agree_on (cs : list chan) (a b : tdata) : Prop :=
  fs (meta b) = fs (meta a) /\ n_samples (meta b) = n_samples (meta a) /\ first_time (meta b) = first_time (meta a) /\ last_time (meta b) = last_time (meta a) /\
  (exists n, tidy n a /\ tidy n b) /\ forall c, In c cs -> same_channel a b c.
(** ApplyFunction leaves the channels it does not name undefined (C19), so it has to name these; a dictionary has no key twice *)
Definition defines (cs : list chan) (p : proc) : Prop :=
  match p with PApply fncs => NoDup (map fst fncs) /\ forall c, In c cs -> In c (map fst fncs) | _ => True end.
(** the channels a transfer function names *)
Definition tf_names (tf : tf_chans) : list chan := tf_out tf ++ tf_in tf ++ tf_cross tf.
