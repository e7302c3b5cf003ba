(** C93: tables and timelines of a project. *)
From Coq Require Import String Sorted.
From Verif Require Import Base.Prelude Base.FileSys Spec.Project Model.Project Model.Letsgo Model.Tables.
Open Scope list_scope. Open Scope Z_scope.

(** on disk, [p]/time/[site]/[name] is a directory that a reader can read; the first such reader gives [md] *)
Definition on_disk {D} (s : node) (readers : list (reader D)) (p : path) (site name : string) (md : meas_md) : Prop :=
  kind_at s (p ++ ["time"; site]%string) = Some KDir /\ kind_at s (p ++ ["time"; site; name]%string) = Some KDir /\
  exists r, first_success readers (fun r => rd_md r s (p ++ ["time"; site; name]%string)) r md.
(** the bars of a timeline: by panel, and in a panel by starting time *)
Definition bar_before (y : trow -> string) (a b : trow) : Prop := String.leb (y a) (y b) = true /\ (y a = y b -> tr_first a <= tr_first b).
(** the bar is within the drawn range *)
Definition visible (t : timeline) (r : trow) : Prop := tl_from t <= tr_first r /\ tr_last r <= tl_to t.
