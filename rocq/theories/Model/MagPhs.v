(** Model of SpectraData.get_mag_phs (resistics/spectra.py 133-140) and of numpy's unwrap, which it calls with the default
    options along the last axis (the frequencies).

    Simplifications: np.absolute and np.angle are parameters acting on each coefficient; the phases are rational numbers
    and unwrapping is computed without rounding; a turn (2 pi in the code) is a parameter. *)
From Coq Require Import String.
From Verif Require Import Base.Prelude Base.NdArray Base.Cplx Model.Sampling Model.Time Model.Decimate Model.Window Model.Spectra.
Open Scope list_scope. Open Scope Q_scope.

(** the remainder with the sign of the divisor, numpy.mod *)
Definition float_mod (x t : Q) : Q := x - t * inject_Z (qfloor (x / t)).
(** numpy.unwrap, what is added for a difference dd of neighbours: half a turn is the default discontinuity *)
Definition unwrap_correction (t dd : Q) : Q :=
  let high := t / 2 in let low := - high in
  let m := float_mod (dd - low) t + low in
  let ddmod := if Qeq_bool m low && negb (Qle_bool dd 0) then high else m in
  if Qle_bool high (Qabs dd) then ddmod - dd else 0.
(** the corrections are summed up (cumsum) *)
Fixpoint unwrap_from (t acc prev : Q) (l : list Q) : list Q :=
  match l with
  | [] => []
  | y :: r => let acc' := acc + unwrap_correction t (y - prev) in (y + acc') :: unwrap_from t acc' y r
  end.
Definition np_unwrap (t : Q) (l : list Q) : list Q :=
  match l with [] => [] | x :: r => x :: unwrap_from t 0 x r end.

(** get_mag_phs 133-140: the level is looked up in the data, not checked like in get_level *)
Definition get_mag_phs (absolute angle : cq -> Q) (turn : Q) (d : spec_data cq) (level : Z) (unwrap : bool) : res (nd Q * nd Q) :=
  spec <- sd_at d level ;;
  mag <- nd_last (fun v => Ok (map absolute v)) spec ;;
  phs <- nd_last (fun v => Ok (map angle v)) spec ;;
  if unwrap then phs' <- nd_last (fun v => Ok (np_unwrap turn v)) phs ;; Ok (mag, phs') else Ok (mag, phs).
