(** Specification vocabulary for linear relations between channels. *)
From Coq Require Import String.
From Verif Require Import Base.Prelude Base.ListUtil Base.NdArray Base.Cplx
  Model.Time Model.Decimate Model.Spectra Model.Calibrate Model.Gather Model.Regression Model.Pipeline
  Spec.Calibrate Spec.Gather Spec.Regression.
Open Scope list_scope. Open Scope Q_scope.

(** [w = a u + v], entry by entry, for real and complex vectors of the same length *)
Definition axpy (a : Q) (u v w : list Q) : Prop :=
  length u = length w /\ length v = length w /\
  forall k x y z, nth_error u k = Some x -> nth_error v k = Some y -> nth_error w k = Some z -> z == a * x + y.
Definition caxpy (a : Q) (u v w : list cq) : Prop :=
  length u = length w /\ length v = length w /\
  forall k x y z, nth_error u k = Some x -> nth_error v k = Some y -> nth_error w k = Some z -> ceq z (cplus (cscale a x) y).

(** a numerical routine on samples is linear: whether it fails depends on the number of samples only, and
    where it does not fail it is a linear map *)
Definition linear_routine (T : list cell -> res (list cell)) : Prop :=
  forall n, (forall u, length u = n -> exists e, T (map Some u) = Err e) \/
    exists f, (forall u, length u = n -> T (map Some u) = Ok (map Some (f u))) /\
      forall a u v w, length w = n -> axpy a u v w -> axpy a (f u) (f v) (f w).
(** the same for a transform to complex coefficients *)
Definition linear_transform (T : list cell -> res (list cq)) : Prop :=
  forall n, (forall u, length u = n -> exists e, T (map Some u) = Err e) \/
    exists f, (forall u, length u = n -> T (map Some u) = Ok (f u)) /\
      forall a u v w, length w = n -> axpy a u v w -> caxpy a (f u) (f v) (f w).
(** and for a filter on complex coefficients *)
Definition linear_filter (f : list cq -> list cq) : Prop := forall a u v w, caxpy a u v w -> caxpy a (f u) (f v) (f w).

(** signal.decimate, resample_poly, detrend + window + rfft and the smoothing filters are linear *)
Definition linear_library (L : library) : Prop :=
  (forall q, linear_routine (o_decimate (l_orc L) q)) /\ (forall p q, linear_routine (o_resample (l_orc L) p q)) /\
  (forall w n, linear_transform (l_transform L w n)) /\
  (forall s, linear_filter (l_uniform L s)) /\ (forall s, linear_filter (l_gaussian L s)).

(** sample by sample, [out] is the combination of [ins] with the coefficients [zs] *)
Definition mixes (zs : list Q) (ins : list (list Q)) (out : list Q) : Prop :=
  (forall u, In u ins -> length u = length out) /\
  forall k x, nth_error out k = Some x -> x == dot zs (map (fun u => nth k u 0) ins).
(** the samples of a channel, none missing *)
Definition channel_samples (td : tdata) (c : chan) (u : list Q) : Prop :=
  exists i, nth_error (chans (meta td)) i = Some c /\ nth_error (rows td) i = Some (map Some u).
(** every output channel is, sample by sample, its row of [Zt] applied to the input channels *)
Definition mixed (td : tdata) (tf : tf_chans) (Zt : list (list Q)) : Prop :=
  Forall2 (fun c zs => length zs = length (tf_in tf) /\ exists out ins, channel_samples td c out /\
             Forall2 (channel_samples td) (tf_in tf) ins /\ mixes zs ins out) (tf_out tf) Zt.
Definition real (q : Q) : cq := mkC q 0.

(** the windows of the evaluation data determine the tensor: only 0 solves the homogeneous equations *)
Definition evals_determine (ed : spec_data cq) (tf : tf_chans) (level f : Z) : Prop :=
  forall D, length D = length (tf_in tf) ->
    (forall w irow crow c, (0 <= w)%Z -> window_row ed (tf_in tf) level w f irow -> window_row ed (tf_cross tf) level w f crow -> In c crow ->
       ceq (cdot D (map (fun x => ctimes x (conj_ c)) irow)) c0) ->
    Forall (fun d => ceq d c0) D.

(** the time processors that act on every channel in the same linear way *)
Definition linear_proc (p : proc) : Prop :=
  match p with
  | PSubsection _ _ | PLowPass _ _ | PHighPass _ _ | PBandPass _ _ _ | PNotch _ _ _ | PResample _ | PDecimate _ _ | PRemoveMean => True
  | PMultiply (AScalar _) => True
  | _ => False
  end.
