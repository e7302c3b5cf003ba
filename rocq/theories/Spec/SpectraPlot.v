(** Specification vocabulary for the spectra figures (C89). *)
From Coq Require Import String Sorted.
From Verif Require Import Base.Prelude Base.B32 Base.ListUtil Base.NdArray Base.Cplx Model.Sampling Model.Time Model.Decimate Model.Window
  Model.Spectra Model.Display Model.SpectraPlot Spec.Display Spec.Calibrate Spec.Gather.
Open Scope list_scope. Open Scope Z_scope.

Definition sum (l : list Q) : Q := fold_right Qplus 0%Q l.
(** [v] is the mean over the windows [ws] of the modulus of the coefficient of channel [c] at frequency [f] *)
Definition mean_modulus (cabs : cq -> Q) (x : list (list (list cq))) (ws : list nat) (c f : nat) (v : Q) : Prop :=
  ws <> [] /\ exists zs, Forall2 (fun w z => coef x w c f = Some z) ws zs /\
    (v == sum (map cabs zs) / inject_Z (Z.of_nat (length ws)))%Q.
(** the points of a curve over [n] frequencies: all of them, or when there are more than [max_pts] a choice of [max_pts]
    with the first and the last, whose values have passed through float32 *)
Definition points (ycast : Q -> Q) (max_pts : option Z) (n : nat) (ps : list nat) (conv : Q -> Q) : Prop :=
  match max_pts with
  | Some k => if Z.of_nat n <=? k then ps = seq 0 n /\ conv = (fun v => v) else chosen n (Z.to_nat k) ps /\ conv = (fun v => ycast (b32 v))
  | None => ps = seq 0 n /\ conv = (fun v => v)
  end.
(** a limit the downsampling package accepts *)
Definition limit_ok (max_pts : option Z) (n : nat) : Prop :=
  match max_pts with Some k => 3 <= k \/ Z.of_nat n <= k | None => True end.
(** the curve is the mean modulus over the windows [ws] of channel [c] against the frequencies *)
Definition shows (cabs : cq -> Q) (ycast : Q -> Q) (max_pts : option Z) (x : list (list (list cq))) (ws : list nat) (c : nat)
  (freqs : list Q) (t : trace) : Prop :=
  exists ps conv ys, points ycast max_pts (length freqs) ps conv /\ length ys = length freqs /\
    (forall f v, nth_error ys f = Some v -> mean_modulus cabs x ws c f v) /\
    tr_x t = map (fun p => nth p freqs 0%Q) ps /\ tr_y t = Some (map (fun p => conv (nth p ys 0%Q)) ps).
(** a level of spectra data: metadata, and a full array windows x channels x frequencies agreeing with it *)
Definition spectra_level (d : spec_data cq) (level : Z) (m : spec_level) (x : list (list (list cq))) : Prop :=
  0 <= level < sm_n_levels (sd_md d) /\ nth_error (sm_levels (sd_md d)) (Z.to_nat level) = Some m /\ sd_at d level = Ok (nd3 x) /\
  Z.of_nat (length x) = sl_n_wins m /\ shaped x (length (sm_chans (sd_md d))) (length (sl_freqs m)) /\ x <> [] /\
  Z.of_nat (length (sl_freqs m)) <= 2 ^ 24.

(** [groups] divides the times into consecutive intervals of length [freq], starting with the one of the first time, each
    with its left end and the positions of its times in order. The ends lie whole multiples of [freq] from midnight of
    the first day plus [offset]. *)
Definition midnight_before (t : Z) (m : Z) : Prop := (exists d, m = d * 86400000000000) /\ m <= t < m + 86400000000000.
Definition consecutive_groups (freq offset : Z) (times : list Z) (groups : list (Z * list Z)) : Prop :=
  exists first midnight e, nth_error times 0 = Some first /\ midnight_before first midnight /\
    (exists q, e = midnight + offset + q * freq) /\ e <= first < e + freq /\
    forall i label ks, nth_error groups i = Some (label, ks) -> label = e + Z.of_nat i * freq /\ StronglySorted Z.lt ks /\
      forall k, In k ks <-> 0 <= k /\ exists t, nth_error times (Z.to_nat k) = Some t /\ label <= t < label + freq.
(** no group for times after the last one *)
Definition no_group_after (times : list Z) (groups : list (Z * list Z)) : Prop :=
  forall i label ks, nth_error groups i = Some (label, ks) -> exists t, In t times /\ label <= t.
Definition every_time_grouped (times : list Z) (groups : list (Z * list Z)) : Prop :=
  forall k, (k < length times)%nat -> exists g, In g groups /\ In (Z.of_nat k) (snd g).
(** the length of the default grouping: whole days covering the first and the last time *)
Definition covering_days (first last len : Z) : Prop :=
  exists a b, midnight_before first a /\ (exists d, b = d * 86400000000000) /\ b - 86400000000000 < last <= b /\ len = b - a.
(** a value of a section *)
Definition cell_of {A} (z : list (list A)) (f g : nat) : option A := match nth_error z f with Some r => nth_error r g | None => None end.
(** one section: for every frequency and group the logarithm of the mean modulus over the windows of the group; the
    colour ticks are the whole powers of ten within the values *)
Definition section_of (cabs : cq -> Q) (log10 : Q -> Q) (x : list (list (list cq))) (freqs : list Q) (freq : Z) (groups : list (Z * list Z)) (c : nat) (h : heatmap) : Prop :=
  hm_row h = Z.of_nat c + 1 /\ hm_y h = freqs /\ hm_x h = map (fun g => fst g + freq / 2) groups /\
  length (hm_z h) = length freqs /\ (forall r, In r (hm_z h) -> length r = length groups) /\
  (forall f g label ks z, nth_error groups g = Some (label, ks) -> cell_of (hm_z h) f g = Some z ->
     exists v, mean_modulus cabs x (map Z.to_nat ks) c f v /\ z = log10 v) /\
  (forall k, In k (hm_ticks h) <-> (exists r z, In r (hm_z h) /\ In z r /\ z <= inject_Z k)%Q /\ (exists r z, In r (hm_z h) /\ In z r /\ inject_Z k <= z)%Q).
(** the length of the groups: the grouping asked for, else the covering days *)
Definition stack_len (nt : Q -> Z) (d : spec_data cq) (grouping : option Z) (freq : Z) : Prop :=
    match grouping with Some g => freq = g | None => covering_days (nt (sm_first (sd_md d))) (nt (sm_last (sd_md d))) freq end.
