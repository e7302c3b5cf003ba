(** Specification vocabulary for the regression. *)
From Coq Require Import String.
From Verif Require Import Base.Prelude Base.Cplx
  Model.Time Model.Spectra Model.Calibrate Model.Gather Model.Regression.
Open Scope list_scope. Open Scope Q_scope.

(** scalar products, real and complex *)
Fixpoint dot (a b : list Q) : Q := match a, b with x :: s, y :: t => x * y + dot s t | _, _ => 0 end.
Fixpoint cdot (a b : list cq) : cq := match a, b with x :: s, y :: t => cplus (ctimes x y) (cdot s t) | _, _ => c0 end.
(** the real linear system [P x = b] *)
Definition real_system (P : list (list Q)) (x b : list Q) : Prop := Forall2 (fun row y => dot row x == y) P b.
(** the complex equations of output channel number [o]: for every window and cross channel,
    sum_j Z_j (in_j conj(cross)) = out conj(cross) *)
Definition complex_system (cmul : cq -> cq -> cq) (Z : list cq) (o : nat) (outs ins crosses : list (list cq)) : Prop :=
  forall w orow irow crow z c,
    nth_error outs w = Some orow -> nth_error ins w = Some irow -> nth_error crosses w = Some crow ->
    nth_error orow o = Some z -> In c crow ->
    ceq (cdot Z (map (fun x => cmul x (conj_ c)) irow)) (cmul z (conj_ c)).
(** real and imaginary parts, interleaved *)
Definition interleaved (Z : list cq) : list Q := concat (map (fun z => [re z; im z]) Z).

(** a matrix with [n] columns *)
Definition wide (n : nat) (m : list (list cq)) : Prop := forall row, In row m -> length row = n.
(** the data of evaluation frequency number [k] *)
Definition freq_data (g : gathered cq) (k : nat) (outs ins crosses : list (list cq)) : Prop :=
  dict_get (Z.of_nat k) (cb_data (g_out g)) = Ok outs /\ dict_get (Z.of_nat k) (cb_data (g_in g)) = Ok ins /\
  dict_get (Z.of_nat k) (cb_data (g_cross g)) = Ok crosses.
(** data for every evaluation frequency, windows aligned, one column per channel *)
Definition good_gathered (tf : tf_chans) (g : gathered cq) : Prop :=
  forall k, (k < length (cb_eval_freqs (g_out g)))%nat -> exists outs ins crosses, freq_data g k outs ins crosses /\
    length ins = length outs /\ length crosses = length outs /\
    wide (length (tf_out tf)) outs /\ wide (length (tf_in tf)) ins /\ wide (length (tf_cross tf)) crosses.
(** arrays of np.empty have the requested shape *)
Definition junk_shape (junk1 : nat -> list Q) (junk2 : nat -> nat -> list (list Q)) : Prop :=
  (forall n, length (junk1 n) = n) /\ forall n m, length (junk2 n m) = n /\ forall row, In row (junk2 n m) -> length row = m.

(** the outputs are [Z] applied to the inputs: out_o = sum_j Z_oj in_j in every window *)
Definition generated_by (Z : list (list cq)) (outs ins : list (list cq)) : Prop :=
  forall w orow irow, nth_error outs w = Some orow -> nth_error ins w = Some irow -> Forall2 (fun Zo z => ceq z (cdot Zo irow)) Z orow.
(** the inputs determine the tensor: only 0 solves the homogeneous equations *)
Definition determined (n_in : nat) (ins crosses : list (list cq)) : Prop :=
  forall D, length D = n_in ->
    (forall w irow crow c, nth_error ins w = Some irow -> nth_error crosses w = Some crow -> In c crow ->
       ceq (cdot D (map (fun x => ctimes x (conj_ c)) irow)) c0) ->
    Forall (fun d => ceq d c0) D.
(** a least squares fit of at least one equation: one coefficient per column, solving the system whenever it is solvable *)
Definition least_squares (fit : list (list Q) -> list Q -> res (list Q)) : Prop :=
  forall P b n, P <> [] -> (forall row, In row P -> length row = n) -> length b = length P ->
    exists x, fit P b = Ok x /\ length x = n /\ ((exists y, length y = n /\ real_system P y b) -> real_system P x b).

(** no two (output, input) pairs share their concatenated name *)
Definition keys_distinct (tf : tf_chans) : Prop :=
  forall o i o' i', In o (tf_out tf) -> In i (tf_in tf) -> In o' (tf_out tf) -> In i' (tf_in tf) ->
    component_key o i = component_key o' i' -> o = o' /\ i = i'.
(** one [n_out] x [n_in] matrix per frequency *)
Definition tensor_shape (tf : tf_chans) (n : nat) (tensors : list (list (list cq))) : Prop :=
  length tensors = n /\ forall t, In t tensors -> length t = length (tf_out tf) /\ forall row, In row t -> length row = length (tf_in tf).
Definition entry3 {A} (t : list (list (list A))) (i j k : nat) : option A :=
  match nth_error t i with Some m => match nth_error m j with Some r => nth_error r k | None => None end | None => None end.
Definition entry2 {A} (m : list (list A)) (j k : nat) : option A := match nth_error m j with Some r => nth_error r k | None => None end.

(** weights in [0,1], 1 for a zero residual, non-increasing in the residual taken with its sign ([robust_by_size] in Spec.Weights takes the absolute value),
    for residual vectors with entries in [dom] *)
Definition robust_weights (dom : Q -> Prop) (W : list Q -> list Q) : Prop :=
  forall r, (forall x, In x r -> dom x) -> length (W r) = length r /\
    forall i x w, nth_error r i = Some x -> nth_error (W r) i = Some w ->
      0 <= w /\ w <= 1 /\ (x == 0 -> w == 1) /\
      forall j y v, nth_error r j = Some y -> nth_error (W r) j = Some v -> x <= y -> v <= w.

(** all levels but the last have [P] frequencies, the last at most [P]; at least one window per level *)
Definition level_counts (P : Z) (d : spec_data cq) : Prop :=
  forall l m, nth_error (sm_levels (sd_md d)) l = Some m ->
    sl_n_freqs m = Z.of_nat (length (sl_freqs m)) /\ (sl_n_freqs m <= P)%Z /\ (1 <= sl_n_wins m)%Z /\
    ((Z.of_nat l + 1 < sm_n_levels (sd_md d))%Z -> sl_n_freqs m = P).
