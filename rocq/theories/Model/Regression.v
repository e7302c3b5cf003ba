(** Model of resistics/regression.py and of the parts of transfunc.py it uses.

    Simplifications: numbers are exact rationals; the complex product of numpy is a
    parameter [cmul]; the contents of np.empty are parameters [junk1], [junk2]; the
    scikit-learn estimator is a parameter [fit]; n_out, n_in and n_cross of the transfer
    function are the lengths of its channel lists (their default); logging, history and
    contributors are dropped. *)
From Coq Require Import String.
From Verif Require Import Base.Prelude Base.ListUtil Base.NdArray Base.Cplx
  Model.Sampling Model.Time Model.Decimate Model.Window Model.Spectra Model.Calibrate Model.Gather.
Open Scope list_scope. Open Scope Q_scope.

(** ** Dictionaries with string keys, in insertion order *)
Fixpoint sget {B} (k : string) (d : list (string * B)) : res B :=
  match d with [] => Err KeyError | (j, v) :: t => if String.eqb j k then Ok v else sget k t end.
Fixpoint sset {B} (k : string) (v : B) (d : list (string * B)) : list (string * B) :=
  match d with [] => [(k, v)] | (j, x) :: t => if String.eqb j k then (j, v) :: t else (j, x) :: sset k v t end.

(** enumerate *)
Definition enum {B} (l : list B) : list (nat * B) := combine (seq 0 (length l)) l.
Definition nth_res {B} (l : list B) (i : nat) : res B := match nth_error l i with Some x => Ok x | None => Err IndexError end.

(** d[off::2] = vals, entry [x] becoming [f x v]; ValueError unless the lengths agree *)
Fixpoint stride_upd {B C} (f : B -> C -> res B) (off : nat) (vals : list C) (d : list B) : res (list B) :=
  match d with
  | [] => match vals with [] => Ok [] | _ => Err ValueError end
  | x :: t => match off with
              | S o => r <- stride_upd f o vals t ;; Ok (x :: r)
              | O => match vals with
                     | [] => Err ValueError
                     | v :: vs => x' <- f x v ;; r <- stride_upd f 1 vs t ;; Ok (x' :: r)
                     end
              end
  end.
Definition put {B} (_ v : B) : res B := Ok v.

(** d[a:b] = rows *)
Definition slice_set {B} (a b : nat) (rows d : list B) : res (list B) :=
  if Nat.eqb (length rows) (Nat.min b (length d) - a) then Ok (firstn a d ++ rows ++ skipn b d) else Err ValueError.

(** broadcasting of the first axis *)
Definition zip_rows {B C D} (f : B -> C -> D) (a : list B) (b : list C) : res (list D) :=
  if Nat.eqb (length a) (length b) then Ok (map (fun x => f (fst x) (snd x)) (combine a b)) else
  match a, b with
  | [x], _ => Ok (map (fun y => f x y) b)
  | _, [y] => Ok (map (fun x => f x y) a)
  | _, _ => Err ValueError
  end.

(** RegressionInputData, 39-161 *)
Record reg_input := mkReg { ri_tf : tf_chans; ri_freqs : list Q; ri_obs : list (list (string * list Q)); ri_preds : list (list (list Q)) }.
(** get_inputs 145-161 *)
Definition get_inputs (r : reg_input) (freq_idx : nat) (out_chan : chan) : res (list Q * list (list Q)) :=
  o <- nth_res (ri_obs r) freq_idx ;; b <- sget out_chan o ;; p <- nth_res (ri_preds r) freq_idx ;; Ok (b, p).

Section Prepare.
  Variable cmul : cq -> cq -> cq.
  Variable junk1 : nat -> list Q.
  Variable junk2 : nat -> nat -> list (list Q).

  (** out_data[..., np.newaxis] * np.conjugate(cross_data[:, np.newaxis, :]), 480-489 *)
  Definition powers (a cross : list (list cq)) : res (list (list (list cq))) :=
    zip_rows (fun row crow => map (fun x => map (fun y => cmul x (conj_ y)) crow) row) a cross.
  Definition cross_powers (g : gathered cq) (eval_idx : Z) : res (list (list (list cq)) * list (list (list cq))) :=
    o <- dict_get eval_idx (cb_data (g_out g)) ;;
    i <- dict_get eval_idx (cb_data (g_in g)) ;;
    c <- dict_get eval_idx (cb_data (g_cross g)) ;;
    po <- powers o c ;; pi <- powers i c ;; Ok (po, pi).
  (** one channel of _get_obs 511-515 (262-266) *)
  Definition obs_chan (flattened : list cq) : res (list Q) :=
    d <- stride_upd put 0 (map re flattened) (junk1 (2 * length flattened)) ;;
    stride_upd put 1 (map im flattened) d.
  (** _get_obs 509-516 (260-267) *)
  Fixpoint obs_loop (p : list (list (list cq))) (chans : list (nat * chan)) (obs : list (string * list Q)) : res (list (string * list Q)) :=
    match chans with
    | [] => Ok obs
    | (idx, c) :: rest =>
      rows <- mapM (fun win => nth_res win idx) p ;;
      v <- obs_chan (concat rows) ;;
      obs_loop p rest (sset c v obs)
    end.
  Definition get_obs (tf : tf_chans) (p : list (list (list cq))) : res (list (string * list Q)) := obs_loop p (enum (tf_out tf)) [].
  (** np.swapaxes(in_powers, 0, 1) of a matrix with n columns *)
  Definition swap (n : nat) (m : list (list cq)) : res (list (list cq)) :=
    mapM (fun c => mapM (fun row => nth_res row c) m) (seq 0 n).
  (** preds_win[offr::2, offc::2] = vals *)
  Definition put_block (offr offc : nat) (vals : list (list Q)) (d : list (list Q)) : res (list (list Q)) :=
    stride_upd (fun row v => stride_upd put offc v row) offr vals d.
  (** _get_preds_win 600-608 (351-359) *)
  Definition preds_win (tf : tf_chans) (in_powers : list (list cq)) : res (list (list Q)) :=
    s <- swap (length (tf_cross tf)) in_powers ;;
    let rr := map (map re) s in
    let ii := map (map im) s in
    d <- put_block 0 0 rr (junk2 (2 * length (tf_cross tf)) (2 * length (tf_in tf))) ;;
    d <- put_block 0 1 (map (map Qopp) ii) d ;;
    d <- put_block 1 0 ii d ;;
    put_block 1 1 rr d.
  (** _get_preds 588-596 (339-347) *)
  Fixpoint preds_loop (tf : tf_chans) (wins : list (nat * list (list cq))) (d : list (list Q)) : res (list (list Q)) :=
    match wins with
    | [] => Ok d
    | (iwin, p) :: rest =>
      let per_win := (2 * length (tf_cross tf))%nat in
      let idx_from := (iwin * per_win)%nat in
      rows <- preds_win tf p ;;
      d' <- slice_set idx_from (idx_from + per_win) rows d ;;
      preds_loop tf rest d'
    end.
  Definition get_preds (tf : tf_chans) (p : list (list (list cq))) : res (list (list Q)) :=
    preds_loop tf (enum p) (junk2 (length p * (2 * length (tf_cross tf))) (2 * length (tf_in tf))).
  (** RegressionPreparerGathered.run 415-438 *)
  Definition prepare_freq (tf : tf_chans) (po pi : list (list (list cq))) : res (list (string * list Q) * list (list Q)) :=
    o <- get_obs tf po ;; p <- get_preds tf pi ;; Ok (o, p).
  Definition prepare_gathered (tf : tf_chans) (g : gathered cq) : res reg_input :=
    l <- mapM (fun x : nat * Q => pp <- cross_powers g (Z.of_nat (fst x)) ;; r <- prepare_freq tf (fst pp) (snd pp) ;; Ok (snd x, r))
           (enum (cb_eval_freqs (g_out g))) ;;
    Ok (mkReg tf (map fst l) (map (fun x => fst (snd x)) l) (map (fun x => snd (snd x)) l)).

  (** RegressionPreparerSpectra: a windows x channels x frequencies array *)
  Definition as_cube (x : nd cq) : res (list (list (list cq))) :=
    match x with
    | Sc _ => Err IndexError
    | Ax ws => mapM (fun w => as_rows w) ws
    end.
  (** _get_cross_powers 231-240: windows x channels x cross x frequencies *)
  Definition powers4 (a cross : list (list (list cq))) : res (list (list (list (list cq)))) :=
    r <- zip_rows (fun win cwin => mapM (fun x => mapM (fun y => zip_rows (fun u v => cmul u (conj_ v)) x y) cwin) win) a cross ;;
    mapM (fun x => x) r.
  (** powers[..., idx] *)
  Definition at_freq (p : list (list (list (list cq)))) (idx : nat) : res (list (list (list cq))) :=
    mapM (mapM (mapM (fun v => nth_res v idx))) p.
  Definition level_powers (tf : tf_chans) (d : spec_data cq) (level : Z) :=
    o <- sd_get_chans d level (tf_out tf) ;; i <- sd_get_chans d level (tf_in tf) ;; c <- sd_get_chans d level (tf_cross tf) ;;
    o <- as_cube o ;; i <- as_cube i ;; c <- as_cube c ;;
    po <- powers4 o c ;; pi <- powers4 i c ;; Ok (po, pi).
  (** run 173-189 *)
  Definition prepare_spectra (tf : tf_chans) (d : spec_data cq) : res reg_input :=
    ls <- mapM (fun level => m <- sd_level_md d level ;;
                  pp <- level_powers tf d level ;;
                  mapM (fun x : nat * Q => po <- at_freq (fst pp) (fst x) ;; pi <- at_freq (snd pp) (fst x) ;;
                                           r <- prepare_freq tf po pi ;; Ok (snd x, r)) (enum (sl_freqs m)))
            (arange (sm_n_levels (sd_md d))) ;;
    let l := concat ls in
    Ok (mkReg tf (map fst l) (map (fun x => fst (snd x)) l) (map (fun x => snd (snd x)) l)).
End Prepare.

(** ** Solving *)
(** Component, transfunc.py 13-38 *)
Definition component := (list Q * list Q)%type.
(** get_component_key, transfunc.py 41-63 *)
Definition component_key (out_chan in_chan : chan) : string := append out_chan in_chan.
(** Solution 611-742 *)
Record solution := mkSol { so_tf : tf_chans; so_freqs : list Q; so_components : list (string * component) }.
(** get_value, transfunc.py 32-34; a negative index counts from the end *)
Definition get_value (c : component) (eval_idx : Z) : res cq :=
  match py_nth (fst c) eval_idx, py_nth (snd c) eval_idx with Some a, Some b => Ok (mkC a b) | _, _ => Err IndexError end.
(** get_component 717-721, to_numpy 36-38 *)
Definition get_component (s : solution) (key : string) : res (list cq) :=
  match sget key (so_components s) with
  | Err _ => Err ValueError
  | Ok c => if Nat.eqb (length (fst c)) (length (snd c)) then Ok (map (fun x => mkC (fst x) (snd x)) (combine (fst c) (snd c))) else Err ValueError
  end.
(** get_tensor 737-742 *)
Definition sol_tensor (s : solution) (eval_idx : Z) : res (list (list cq)) :=
  mapM (fun o => mapM (fun i => c <- sget (component_key o i) (so_components s) ;; get_value c eval_idx) (tf_in (so_tf s))) (tf_out (so_tf s)).

(** SolverScikit._get_tensor 833-837 *)
Definition get_tensor (tf : tf_chans) (coef : list Q) : res (list cq) :=
  mapM (fun in_idx => a <- nth_res coef (in_idx * 2) ;; b <- nth_res coef (in_idx * 2 + 1) ;; Ok (mkC a b)) (seq 0 (length (tf_in tf))).
(** _get_solution 862-879: tensors[:, out_idx, in_idx] *)
Definition column (tensors : list (list (list cq))) (o i : nat) : res (list cq) :=
  mapM (fun t => row <- nth_res t o ;; nth_res row i) tensors.
Fixpoint set_components (tensors : list (list (list cq))) (pairs : list ((nat * chan) * (nat * chan))) (d : list (string * component)) : res (list (string * component)) :=
  match pairs with
  | [] => Ok d
  | ((o, oc), (i, ic)) :: rest =>
    v <- column tensors o i ;;
    set_components tensors rest (sset (component_key oc ic) (map re v, map im v) d)
  end.
Definition get_solution (tf : tf_chans) (freqs : list Q) (tensors : list (list (list cq))) : res solution :=
  c <- set_components tensors (list_prod (enum (tf_out tf)) (enum (tf_in tf))) [] ;;
  Ok (mkSol tf freqs c).
Section Solve.
  (** model.fit(preds, obs); model.coef_ *)
  Variable fit : list (list Q) -> list Q -> res (list Q).
  (** _solve 779-788 *)
  Definition solve (r : reg_input) : res solution :=
    tensors <- mapM (fun eval_idx => mapM (fun c => x <- get_inputs r eval_idx c ;; coef <- fit (snd x) (fst x) ;; get_tensor (ri_tf r) coef)
                                          (tf_out (ri_tf r))) (seq 0 (length (ri_freqs r))) ;;
    get_solution (ri_tf r) (ri_freqs r) tensors.
End Solve.

(** ** Weights of SolverScikitWLS, with rounding after every operation *)
Section Weights.
  Variable rnd : Q -> Q.
  Definition square (x : Q) : Q := rnd (x * x).
  (** bisquare 1092-1095; k = 4.685 by default *)
  Definition bisquare (k : Q) (r : list Q) : list Q :=
    map (fun x => let thresh := (let q := rnd (x / k) in if Qltb 1 q then 1 else q) in square (rnd (1 - square thresh))) r.
  (** huber 1112-1116; k = 1.345 by default *)
  Definition huber (k : Q) (r : list Q) : list Q := map (fun x => if Qltb k x then rnd (k / x) else 1) r.
  (** trimmed_mean 1134-1138; k = 2 by default *)
  Definition trimmed_mean (k : Q) (r : list Q) : list Q := map (fun x => if Qle_bool x k then 1 else 0) r.
End Weights.
