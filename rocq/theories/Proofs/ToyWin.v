(** Concrete recordings for the window examples *)
From Coq Require Import String.
From Verif Require Import Base.Prelude Base.Rounding Base.ListUtil Base.NdArray Model.Sampling Model.Time Model.Decimate Model.Window.
Open Scope Q_scope.

(** a level at [fs] Hz with [n] samples from [first] *)
Definition lev (fs first : Q) (n : Z) : level_md := mkLevelMd fs n first (first + inject_Z (n - 1) * period b64 fs).
(** row [c]: values 100 c + sample *)
Definition ramp (c : Z) (n : Z) : list cell := map (fun k => Some (inject_Z (100 * c + k))) (arange n).
Definition toyW (cs : list string) (levels : list level_md) : dec_data :=
  mkDecData (map lm_fs levels) cs (Z.of_nat (length levels)) (lm_first (hd (lev 1 0 1) levels)) (lm_last (hd (lev 1 0 1) levels))
    "" levels []
    (combine (arange (Z.of_nat (length levels)))
       (map (fun m => map (fun c => ramp c (lm_n_samples m)) (arange (Z.of_nat (length cs)))) levels)).
Definition nanos (t : Q) : Z := qfloor (t * inject_Z 1000000000).
