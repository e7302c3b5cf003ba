(** C53, with the size of a residual as its absolute value. *)
From Coq Require Import Qabs.
From Verif Require Import Base.Prelude Base.Rounding Model.Regression Spec.Regression Spec.Weights Proofs.Weights.
Open Scope list_scope. Open Scope Q_scope.

(** non-negative residuals: all three, for every rounding *)
Theorem C53_by_size_partial : forall rnd k, good_rnd rnd -> 0 < k ->
  robust_by_size (fun x => 0 <= x) (bisquare rnd k) /\ robust_by_size (fun x => 0 <= x) (huber rnd k) /\ robust_by_size (fun x => 0 <= x) (trimmed_mean k).
Proof. exact c53_by_size. Qed.
Print Assumptions C53_by_size_partial.
(** residuals of either sign (the residuals of a fit are centred): none of the three; however large a negative residual, Huber and trimmed mean keep its full weight *)
Theorem C53_signed_refuted : forall rnd k, good_rnd rnd -> 0 < k ->
  ~ robust_by_size (fun _ => True) (bisquare rnd k) /\ ~ robust_by_size (fun _ => True) (huber rnd k) /\ ~ robust_by_size (fun _ => True) (trimmed_mean k).
Proof. exact c53_signed. Qed.
Print Assumptions C53_signed_refuted.
Theorem C53_negative_full_weight : forall rnd k x, 0 < k -> x <= 0 -> huber rnd k [x] = [1] /\ trimmed_mean k [x] = [1].
Proof. exact c53_negative. Qed.
Print Assumptions C53_negative_full_weight.
Example C53_ex_signed : map Qred (huber exact 2 [-1000; 4]) = [1; 1 # 2] /\ trimmed_mean 2 [-1000; 4] = [1; 0] /\ map Qred (bisquare exact 4 [-8; 2]) = [9; 9 # 16].
Proof. vm_compute. repeat split. Qed.
