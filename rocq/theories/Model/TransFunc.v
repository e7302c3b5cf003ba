(** Model of the definition of transfer functions, resistics/transfunc.py 66-146, 265-348,
    351-376, 561-588: construction, to_string, and of the regression with the channel counts
    n_out, n_in and n_cross of the transfer function, which regression.py uses next to
    the channel lists (Model/Regression.v takes the lengths of the lists instead).

    Simplifications: the types of the arguments are those declared (pydantic's coercions are
    in Model/Process.v); a matrix without rows has no number of columns here, so that with no
    cross channel at all n_in is not compared with the data. *)
From Coq Require Import String Ascii.
From Verif Require Import Base.Prelude Base.ListUtil Base.NdArray Base.Cplx
  Model.Sampling Model.Time Model.Decimate Model.Window Model.Spectra Model.Calibrate Model.Gather Model.Regression.
Open Scope list_scope. Open Scope Z_scope.

(** TransferFunction, transfunc.py 114-128 *)
Record transfer_function := mkTF {
  t_name : string; t_variation : string; t_out : list chan; t_in : list chan; t_cross : list chan;
  t_n_out : Z; t_n_in : Z; t_n_cross : Z }.
(** the keyword arguments; None: left out, or None given *)
Record tf_args := mkArgs {
  a_name : option string; a_variation : option string; a_out : option (list chan); a_in : option (list chan);
  a_cross : option (list chan); a_n_out : option Z; a_n_in : option Z; a_n_cross : option Z }.
(** a class and the defaults of its fields: TransferFunction 114-128, ImpedanceTensor 374-376, Tipper 586-588 *)
Record tf_class := mkClass { k_name : string; k_variation : string; k_out : option (list chan); k_in : option (list chan) }.
Definition generic_tf : tf_class := mkClass "TransferFunction" "generic" None None.
Definition impedance_tensor : tf_class := mkClass "ImpedanceTensor" "default" (Some ["Ex"; "Ey"]%string) (Some ["Hx"; "Hy"]%string).
Definition tipper_tf : tf_class := mkClass "Tipper" "default" (Some ["Hz"]%string) (Some ["Hx"; "Hy"]%string).

Definition or_default {B} (a d : option B) : option B := match a with Some x => Some x | None => d end.
(** the validators 272-300 look up the channels validated before; a missing one is a KeyError, which pydantic
    does not catch, while other failures end in a ValidationError when all fields have been looked at *)
Definition count_of (given : option Z) (chans : option (list chan)) : res Z :=
  match given with
  | Some n => Ok n
  | None => match chans with Some l => Ok (Z.of_nat (length l)) | None => Err KeyError end
  end.
Definition make_tf (k : tf_class) (a : tf_args) : res transfer_function :=
  let name := match a_name a with Some n => n | None => k_name k end in                     (* 265-270 *)
  let variation := match a_variation a with Some v => v | None => k_variation k end in
  let out := or_default (a_out a) (k_out k) in
  let ins := or_default (a_in a) (k_in k) in
  cross <- match or_default (a_cross a) ins with Some l => Ok l | None => Err KeyError end ;;  (* 272-279 *)
  n_out <- count_of (a_n_out a) out ;;                                                        (* 281-286 *)
  n_in <- count_of (a_n_in a) ins ;;                                                          (* 288-293 *)
  n_cross <- count_of (a_n_cross a) (Some cross) ;;                                           (* 295-300 *)
  match out, ins with
  | Some o, Some i => if (16 <? Z.of_nat (String.length variation))%Z then Err ValidationError  (* constr(max_length=16) *)
                      else Ok (mkTF name variation o i cross n_out n_in n_cross)
  | _, _ => Err ValidationError
  end.
(** n_eqns_per_output 302-304, n_regressors 306-308 *)
Definition n_eqns_per_output (t : transfer_function) : Z := Z.of_nat (length (t_cross t)).
Definition n_regressors (t : transfer_function) : Z := t_n_in t.
(** what the dictionary of a transfer function gives to a constructor *)
Definition args_of_tf (t : transfer_function) : tf_args :=
  mkArgs (Some (t_name t)) (Some (t_variation t)) (Some (t_out t)) (Some (t_in t)) (Some (t_cross t))
    (Some (t_n_out t)) (Some (t_n_in t)) (Some (t_n_cross t)).
(** the channels alone, as used by Model/Regression.v *)
Definition channels (t : transfer_function) : tf_chans := mkTf (t_out t) (t_in t) (t_cross t).

(** ** to_string *)
Fixpoint spaces (n : nat) : string := match n with O => EmptyString | S m => String " " (spaces m) end.
(** f"{s:{w}s}" *)
Definition ljust (w : nat) (s : string) : string := (s ++ spaces (w - String.length s))%string.
Definition max_length (l : list string) : nat := fold_right (fun s m => Nat.max (String.length s) m) 0%nat l.
Definition chan_at (l : list chan) (i : nat) : res chan := nth_res l i.
(** _out_chan_string 325-330 *)
Definition out_chan_string (t : transfer_function) (il max_len : nat) : res string :=
  if t_n_out t <=? Z.of_nat il then Ok (spaces (max_len + 4))
  else c <- chan_at (t_out t) il ;; Ok ("| " ++ ljust max_len c ++ " |")%string.
(** _in_chan_string 332-336 *)
Definition in_chan_string (t : transfer_function) (il max_len : nat) : res string :=
  if t_n_in t <=? Z.of_nat il then Ok ""%string
  else c <- chan_at (t_in t) il ;; Ok ("| " ++ ljust max_len c ++ " |")%string.
(** _tensor_string 338-348; a negative width is a ValueError *)
Definition tensor_string (t : transfer_function) (il max_len : nat) : res string :=
  if t_n_out t <=? Z.of_nat il then
    let w := ((Z.of_nat max_len * 2 + 1) + 1) * t_n_in t + 3 in
    if w <? 0 then Err ValueError else Ok (spaces (Z.to_nat w))
  else
    els <- mapM (fun chan => o <- chan_at (t_out t) il ;; Ok (ljust (2 * max_len + 1) (o ++ "_" ++ chan) ++ " ")%string) (t_in t) ;;
    Ok ("| " ++ String.concat "" els ++ "|")%string.
(** the lines of to_string 310-323; rstrip("\n") removes the line end after the last *)
Definition tf_line (t : transfer_function) (max_len line_equals il : nat) : res string :=
  o <- out_chan_string t il max_len ;;
  i <- in_chan_string t il max_len ;;
  x <- tensor_string t il max_len ;;
  Ok (o ++ " " ++ (if Nat.eqb il line_equals then "=" else " ") ++ " " ++ x ++ " " ++ i)%string.
Definition tf_lines (t : transfer_function) : res (list string) :=
  match t_in t ++ t_out t with
  | [] => Err ValueError                                                (* max of an empty list *)
  | names =>
    let n_lines := Nat.max (length (t_in t)) (length (t_out t)) in
    mapM (tf_line t (max_length names) ((n_lines - 1) / 2)) (seq 0 n_lines)
  end.
Definition newline : string := String (ascii_of_nat 10) EmptyString.
Definition tf_to_string (t : transfer_function) : res string := l <- tf_lines t ;; Ok (String.concat newline l).

(** ** Regression with the counts *)
(** numpy's broadcasting of one axis in an assignment *)
Definition bcast {B} (n : nat) (l : list B) : res (list B) :=
  if Nat.eqb (length l) n then Ok l else match l with [x] => Ok (repeat x n) | _ => Err ValueError end.
(** the size of an axis of np.empty, np.zeros *)
Definition axis (n : Z) : res nat := if n <? 0 then Err ValueError else Ok (Z.to_nat n).
Section Counted.
  Variable cmul : cq -> cq -> cq.
  Variable junk1 : nat -> list Q.
  Variable junk2 : nat -> nat -> list (list Q).
  (** _get_preds_win, regression.py 598-608 (349-359) *)
  Definition preds_win_n (t : transfer_function) (in_powers : list (list cq)) : res (list (list Q)) :=
    nc <- axis (t_n_cross t) ;;
    ni <- axis (t_n_in t) ;;
    s <- swap (length (t_cross t)) in_powers ;;
    let block m := rows <- mapM (bcast ni) m ;; bcast nc rows in
    rr <- block (map (map re) s) ;;
    ni_ <- block (map (map Qopp) (map (map im) s)) ;;
    ii <- block (map (map im) s) ;;
    d <- put_block 0 0 rr (junk2 (2 * nc) (2 * ni)) ;;
    d <- put_block 0 1 ni_ d ;;
    d <- put_block 1 0 ii d ;;
    put_block 1 1 rr d.
  (** _get_preds 588-596 (339-347) *)
  Fixpoint preds_loop_n (t : transfer_function) (per_win : nat) (wins : list (nat * list (list cq))) (d : list (list Q)) : res (list (list Q)) :=
    match wins with
    | [] => Ok d
    | (iwin, p) :: rest =>
      let idx_from := (iwin * per_win)%nat in
      rows <- preds_win_n t p ;;
      d' <- slice_set idx_from (idx_from + per_win) rows d ;;
      preds_loop_n t per_win rest d'
    end.
  Definition get_preds_n (t : transfer_function) (p : list (list (list cq))) : res (list (list Q)) :=
    rows <- axis (Z.of_nat (length p) * (2 * t_n_cross t)) ;;
    ni <- axis (t_n_in t) ;;
    preds_loop_n t (Z.to_nat (2 * t_n_cross t)) (enum p) (junk2 rows (2 * ni)).
  (** RegressionPreparerGathered.run 415-438 *)
  Definition prepare_gathered_n (t : transfer_function) (g : gathered cq) : res reg_input :=
    l <- mapM (fun x : nat * Q =>
                 pp <- cross_powers cmul g (Z.of_nat (fst x)) ;;
                 o <- get_obs junk1 (channels t) (fst pp) ;; p <- get_preds_n t (snd pp) ;; Ok (snd x, (o, p)))
           (enum (cb_eval_freqs (g_out g))) ;;
    Ok (mkReg (channels t) (map fst l) (map (fun x => fst (snd x)) l) (map (fun x => snd (snd x)) l)).
End Counted.
(** SolverScikit._get_tensor 833-837 *)
Definition get_tensor_n (t : transfer_function) (coef : list Q) : res (list cq) :=
  n <- axis (t_n_in t) ;;
  mapM (fun in_idx => a <- nth_res coef (in_idx * 2) ;; b <- nth_res coef (in_idx * 2 + 1) ;; Ok (mkC a b)) (seq 0 n).
Section SolveCounted.
  Variable fit : list (list Q) -> list Q -> res (list Q).
  (** _solve 779-788 and _get_solution 862-879: row [iout] of an array with n_out rows *)
  Definition solve_n (t : transfer_function) (r : reg_input) : res solution :=
    n_out <- axis (t_n_out t) ;;
    _ <- axis (t_n_in t) ;;
    tensors <- mapM (fun eval_idx => mapM (fun c : nat * chan =>
                       x <- get_inputs r eval_idx (snd c) ;; coef <- fit (snd x) (fst x) ;; v <- get_tensor_n t coef ;;
                       if Nat.ltb (fst c) n_out then Ok v else Err IndexError) (enum (t_out t))) (seq 0 (length (ri_freqs r))) ;;
    get_solution (channels t) (ri_freqs r) tensors.
  (** run_regression_preparer and run_solver, letsgo.py 448-487 *)
  Definition regression_n (cmul : cq -> cq -> cq) (junk1 : nat -> list Q) (junk2 : nat -> nat -> list (list Q)) (t : transfer_function) (g : gathered cq) : res solution :=
    r <- prepare_gathered_n cmul junk1 junk2 t g ;; solve_n t r.
End SolveCounted.
(** Solution.get_tensor 737-742: zeros with n_out rows and n_in columns, filled channel by channel *)
Definition sol_tensor_n (t : transfer_function) (s : solution) (eval_idx : Z) : res (list (list cq)) :=
  n_out <- axis (t_n_out t) ;;
  n_in <- axis (t_n_in t) ;;
  m <- sol_tensor s eval_idx ;;
  if Nat.ltb n_out (length (t_out t)) && negb (Nat.eqb (length (t_in t)) 0) || Nat.ltb n_in (length (t_in t)) && negb (Nat.eqb (length (t_out t)) 0)
  then Err IndexError
  else Ok (map (fun row => row ++ repeat c0 (n_in - length row)) m ++ repeat (repeat c0 n_in) (n_out - length m)).
