(** Model of what is displayed: plot.py lttb_downsample and apply_lttb, transfunc.py ImpedanceTensor.get_resistivity
    and get_phase.

    Simplifications: the figures themselves are not modelled; angles are in degrees throughout (the code unwraps in
    radians and converts, the same thing in exact arithmetic); arithmetic on angles and resistivities is exact;
    np.angle and np.absolute are parameters, as is the lttbc package. *)
From Coq Require Import String.
From Verif Require Import Base.Prelude Base.ListUtil Base.Cplx Model.Sampling Model.Time Model.Decimate.
Open Scope list_scope. Open Scope Q_scope.

(** plot.py 16-53; [f32] is the conversion to float32, [qtrunc] the one back to integers (x are sample indices),
    [ycast] the one back to the dtype of the data *)
Definition lttb_downsample (f32 : Q -> Q) (lttbc : list Q -> list Q -> Z -> res (list Q * list Q)) (ycast : Q -> Q)
  (x : list Z) (y : list Q) (max_pts : Z) : res (list Z * list Q) :=
  if negb (Nat.eqb (length x) (length y)) then Err ValueError
  else if (max_pts >=? Z.of_nat (length x))%Z then Ok (x, y)
  else '(nx, ny) <- lttbc (map (fun i => f32 (inject_Z i)) x) (map f32 y) max_pts ;;
       Ok (map qtrunc nx, map ycast ny).
(** plot.py 56-82 *)
Definition apply_lttb f32 lttbc ycast (data : list Q) (max_pts : option Z) : res (list Z * list Q) :=
  let indices := arange (Z.of_nat (length data)) in
  match max_pts with
  | None => Ok (indices, data)
  | Some k => lttb_downsample f32 lttbc ycast indices data k
  end.

(** np.mod *)
Definition qmod (x m : Q) : Q := x - m * inject_Z (qfloor (x / m)).
(** numpy.unwrap with period 360: the correction for one difference *)
Definition unwrap_correction (dd : Q) : Q :=
  if Qltb (Qabs dd) 180 then 0 else
  let ddmod := qmod (dd + 180) 360 - 180 in
  let ddmod := if Qeq_bool ddmod (-(180)) && Qltb 0 dd then 180 else ddmod in
  ddmod - dd.
Fixpoint unwrap_from (prev total : Q) (l : list Q) : list Q :=
  match l with
  | [] => []
  | x :: t => let total := total + unwrap_correction (x - prev) in (x + total) :: unwrap_from x total t
  end.
Definition unwrap (l : list Q) : list Q := match l with [] => [] | x :: t => x :: unwrap_from x 0 t end.

(** ImpedanceTensor.get_phase, transfunc.py 398-424; [angle] is np.angle in degrees *)
Definition get_phase (angle : cq -> Q) (key : string) (component : list cq) : list Q :=
  let phase := unwrap (map angle component) in
  if String.eqb key "ExHx" || String.eqb key "ExHy" then map (fun p => qmod p 360 - 180) phase else phase.
(** get_resistivity, 378-396; [cabs] is np.absolute; arrays of different length do not broadcast *)
Definition get_resistivity (cabs : cq -> Q) (periods : list Q) (component : list cq) : res (list Q) :=
  if Nat.eqb (length periods) (length component)
  then Ok (map (fun pz : Q * cq => (2 # 10) * fst pz * (cabs (snd pz) * cabs (snd pz))) (combine periods component))
  else Err ValueError.
