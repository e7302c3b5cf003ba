(** C92: what the spectra of a recording are. *)
From Verif Require Import Base.Prelude Base.NdArray Base.Cplx Model.Time Model.Decimate Model.Spectra Model.Pipeline.
Open Scope list_scope. Open Scope Z_scope.

(** window [k] of a channel: [w] samples from sample k * increment on *)
Definition window_samples (w increment : Z) (k : nat) (row : list cell) : list cell :=
  firstn (Z.to_nat w) (skipn (k * Z.to_nat increment) row).
(** the number of whole windows in [n] samples *)
Definition n_windows (n w increment : Z) : Z := (n - w) / increment + 1.

(** [y] holds, for each of the whole windows and each channel of [ld] (rows of [n] samples), the transform of the window's
    samples; data with one channel has no channel axis *)
Definition holds_spectra (L : library) (w increment n : Z) (ld : list (list cell)) (y : nd cq) : Prop :=
  nd_len y = Ok (n_windows n w increment) /\
  forall k, Z.of_nat k < n_windows n w increment ->
    ((2 <= length ld)%nat -> forall ch row, nth_error ld ch = Some row ->
       exists v, l_transform L w (l_next_fast_len L w) (window_samples w increment k row) = Ok v /\ nd_vec y [k; ch] = Some v) /\
    (length ld = 1%nat -> forall row, nth_error ld 0 = Some row ->
       exists v, l_transform L w (l_next_fast_len L w) (window_samples w increment k row) = Ok v /\ nd_vec y [k] = Some v).
