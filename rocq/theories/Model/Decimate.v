(** Model of resistics/decimate.py (without plotting, printing and file access).

    Simplifications: [while True] loops take a bound on the number of turns and
    return [Err OutOfFuel] when it is used up; np.power(2, i/2) is the parameter
    [pw]; logging and history messages are dropped. *)
From Coq Require Import String.
From Verif Require Import Base.Prelude Base.Rounding Base.ListUtil Model.Sampling Model.Time.
Open Scope Q_scope.

(** DecimationParameters, decimate.py 145-192 *)
Record dec_params := mkDecParams {
  dp_fs : Q; dp_n_levels : Z; dp_per_level : Z; dp_min_samples : Z;
  dp_eval_freqs : list Q; dp_factors : list Z; dp_increments : list Z; dp_dec_fs : list Q }.

(** DecimationSetup, decimate.py 332-367 *)
Record dec_setup := mkDecSetup {
  ds_n_levels : Z; ds_per_level : Z; ds_min_samples : Z; ds_div_factor : Z;
  ds_eval_freqs : option (list Q) }.

(** DecimatedLevelMetadata, 497-511 *)
Record level_md := mkLevelMd { lm_fs : Q; lm_n_samples : Z; lm_first : time; lm_last : time }.

(** DecimatedData with DecimatedMetadata, 514-599. Channel metadata and the opaque
    fields are copied unchanged from the time data and kept as one field. *)
Record dec_data := mkDecData {
  dd_fs : list Q; dd_chans : list chan; dd_n_levels : Z; dd_first : time; dd_last : time;
  dd_info : string; dd_levels_md : list level_md; dd_history : list creator;
  dd_data : list (Z * list (list cell)) }.

(** rows of a reshaped (n, per) array *)
Fixpoint chunks {A} (n per : nat) (l : list A) : list (list A) :=
  match n with
  | O => []
  | S k => firstn per l :: chunks k per (skipn per l)
  end.

(** np.max of a non-empty array *)
Fixpoint qmax_list (x : Q) (l : list Q) : Q :=
  match l with [] => x | y :: t => qmax_list (if Qltb x y then y else x) t end.
Definition np_max (l : list Q) : res Q :=
  match l with [] => Err ValueError | x :: t => Ok (qmax_list x t) end.

(** [.astype(int)] *)
Definition qtrunc (x : Q) : Z := if Qltb x 0 then (- qfloor (- x))%Z else qfloor x.

Section Decimate.
  Variable rnd : Q -> Q.
  Variable pw : nat -> Q.   (* np.power(2, i / 2) *)
  Variable orc : oracles.

  (** the i-th frequency, 66 and 101 (ii = i + 1) *)
  Definition nth_eval_freq (fs : Q) (i : nat) : Q := rnd (rnd (fs / 4) / pw i).

  (** get_eval_freqs_min, 56-71 *)
  Fixpoint eval_freqs_loop (fuel : nat) (fs f_min : Q) (i : nat) : res (list Q) :=
    match fuel with
    | O => Err OutOfFuel
    | S k => let freq := nth_eval_freq fs i in
             if Qltb freq f_min then Ok []
             else r <- eval_freqs_loop k fs f_min (S i) ;; Ok (freq :: r)
    end.
  Definition get_eval_freqs_min (fuel : nat) (fs f_min : Q) : res (list Q) :=
    if Qle_bool f_min 0 then Err ValueError
    else if Qltb (rnd (fs / 4)) f_min then Err ValueError
    else eval_freqs_loop fuel fs f_min 0.

  (** get_eval_freqs_size, 100-101 *)
  Definition get_eval_freqs_size (fs : Q) (n_freqs : Z) : list Q :=
    map (nth_eval_freq fs) (seq 0 (Z.to_nat n_freqs)).

  (** get_eval_freqs, 137-142 *)
  Definition get_eval_freqs (fuel : nat) (fs : Q) (f_min : option Q) (n_freqs : option Z) : res (list Q) :=
    match f_min, n_freqs with
    | None, None => Err ValueError
    | Some f, _ => get_eval_freqs_min fuel fs f
    | None, Some n => Ok (get_eval_freqs_size fs n)
    end.

  (** DecimationParameters.set_dec_increments, 194-201: element-wise float division
      by the previous factor, truncated *)
  Definition increment (f prev : Z) : Z := qtrunc (rnd (rnd (inject_Z f) / rnd (inject_Z prev))).
  Definition dec_increments (factors : list Z) : list Z :=
    map (fun fp => increment (fst fp) (snd fp)) (combine factors (1%Z :: factors)).
  (** set_dec_fs, 203-209 *)
  Definition dec_fs (fs : Q) (factors : list Z) : list Q :=
    map (fun f => rnd (fs * rnd (1 / rnd (inject_Z f)))) factors.

  (** DecimationParameters(...), both validators with no user value *)
  Definition make_params (fs : Q) (n_levels per_level min_samples : Z) (freqs : list Q) (factors : list Z)
    : res dec_params :=
    if (min_samples <=? 0)%Z then Err ValidationError                       (* 188 PositiveInt *)
    else if negb (Z.of_nat (length factors) =? n_levels)%Z then Err ValueError (* 198-200 shapes *)
    else Ok (mkDecParams fs n_levels per_level min_samples freqs factors
               (dec_increments factors) (dec_fs fs factors)).

  (** check_level 218-221, check_eval_idx 223-226 *)
  Definition check_level (p : dec_params) (level : Z) : res unit :=
    if (level <? 0)%Z || (level >=? dp_n_levels p)%Z then Err ValueError else Ok tt.
  Definition check_eval_idx (p : dec_params) (idx : Z) : res unit :=
    if (idx <? 0)%Z || (idx >=? dp_per_level p)%Z then Err ValueError else Ok tt.

  (** DecimationParameters.get_eval_freqs 228-244 *)
  Definition level_eval_freqs (p : dec_params) (level : Z) : res (list Q) :=
    _ <- check_level p level ;;
    let index_from := (dp_per_level p * level)%Z in
    Ok (slice index_from (index_from + dp_per_level p) (dp_eval_freqs p)).
  (** DecimationParameters.get_eval_freq 246-265 *)
  Definition level_eval_freq (p : dec_params) (level idx : Z) : res Q :=
    _ <- check_level p level ;;
    _ <- check_eval_idx p idx ;;
    match nth_error (dp_eval_freqs p) (Z.to_nat (dp_per_level p * level + idx)) with
    | Some f => Ok f
    | None => Err IndexError
    end.
  (** list indexing at a checked level: get_fs 267-282, get_total_factor 284-299,
      get_incremental_factor 301-316 *)
  Definition at_level {A} (p : dec_params) (level : Z) (l : list A) : res A :=
    _ <- check_level p level ;;
    match nth_error l (Z.to_nat level) with Some x => Ok x | None => Err IndexError end.
  Definition get_fs p level := at_level p level (dp_dec_fs p).
  Definition get_total_factor p level := at_level p level (dp_factors p).
  Definition get_incremental_factor p level := at_level p level (dp_increments p).

  (** DecimationSetup._get_eval_freqs, 394-424 *)
  Definition setup_eval_freqs (c : dec_setup) (fs : Q) : res (list Q) :=
    let nyquist := rnd (fs / 2) in
    let n_freqs := (ds_n_levels c * ds_per_level c)%Z in
    match ds_eval_freqs c with
    | None => Ok (get_eval_freqs_size fs n_freqs)
    | Some l => if negb (Z.of_nat (length l) =? n_freqs)%Z then Err ValueError
                else if existsb (fun f => Qltb nyquist f) l then Err ValueError
                else Ok l
    end.

  (** DecimationSetup._get_decimation_factor, 453-494 *)
  Fixpoint factor_loop (fuel : nat) (div : Z) (fs target : Q) (factor : Z) : res Z :=
    match fuel with
    | O => Err OutOfFuel
    | S k => if (div =? 0)%Z then Err ZeroDivisionError else
             let test_fs := rnd (fs / inject_Z div) in
             if Qle_bool target test_fs then factor_loop k div test_fs target (factor * div)
             else Ok factor
    end.
  Definition decimation_factor (fuel : nat) (div : Z) (fs f_max : Q) : res Z :=
    let target_fs := rnd (f_max * 4) in
    if Qltb fs target_fs then Ok 1%Z
    else factor_loop fuel div fs target_fs 1.

  (** DecimationSetup._get_factors, 426-451 *)
  Definition setup_factors (fuel : nat) (c : dec_setup) (fs : Q) (freqs : list Q) : res (list Z) :=
    mapM (fun lev => m <- np_max lev ;; decimation_factor fuel (ds_div_factor c) fs m)
         (chunks (Z.to_nat (ds_n_levels c)) (Z.to_nat (ds_per_level c)) freqs).

  (** DecimationSetup.run, 369-392 *)
  Definition setup_run (fuel : nat) (c : dec_setup) (fs : Q) : res dec_params :=
    freqs <- setup_eval_freqs c fs ;;
    factors <- setup_factors fuel c fs freqs ;;
    make_params fs (ds_n_levels c) (ds_per_level c) (ds_min_samples c) freqs factors.

  (** Decimator._decimate 776-783 and _resample 785-791 *)
  Definition dec_step (use_resample : bool) (maxf : Z) (td : tdata) (factor : Z) : res tdata :=
    if (factor =? 1)%Z then Ok td
    else if use_resample then
      if (factor =? 0)%Z then Err ZeroDivisionError
      else resample rnd orc (rnd (fs (meta td) / inject_Z factor)) td
    else if (factor <? 1)%Z then Err ValidationError   (* time.py 2029 conint(ge=1) *)
    else decimate rnd orc factor maxf td.

  (** Decimator.run, the loop 757-768 *)
  Definition level_of (td : tdata) : level_md :=
    mkLevelMd (fs (meta td)) (n_samples (meta td)) (first_time (meta td)) (last_time (meta td)).
  Fixpoint dec_loop (use_resample : bool) (maxf min_samples : Z) (incs : list Z) (ilevel : Z) (td : tdata)
    : res (list (Z * list (list cell)) * list level_md) :=
    match incs with
    | [] => Ok ([], [])
    | f :: rest =>
      td' <- dec_step use_resample maxf td f ;;
      if (n_samples (meta td') <? min_samples)%Z then Ok ([], [])
      else '(d, l) <- dec_loop use_resample maxf min_samples rest (ilevel + 1) td' ;;
           Ok ((ilevel, rows td') :: d, level_of td' :: l)
    end.
  (** Decimator.run 734-774, _get_metadata 793-802, DecimatedData.__init__ 595-599
      (data[0] is evaluated for the log message) *)
  Definition decimator_run (use_resample : bool) (maxf : Z) (p : dec_params) (td : tdata) : res dec_data :=
    '(data, lmd) <- dec_loop use_resample maxf (dp_min_samples p)
                      (firstn (Z.to_nat (dp_n_levels p)) (dp_increments p)) 0 td ;;
    match data with
    | [] => Err KeyError
    | _ => Ok (mkDecData (map lm_fs lmd) (chans (meta td)) (Z.of_nat (length lmd))
                 (first_time (meta td)) (last_time (meta td)) (info (meta td)) lmd
                 (history (meta td) ++ [COther "Decimator"]) data)
    end.

  (** DecimatedData.get_level, 601-622 (a negative level is a missing key) *)
  Definition get_level (d : dec_data) (level : Z) : res (list (list cell)) :=
    if (level >=? dd_n_levels d)%Z then Err ValueError
    else match find (fun kv => Z.eqb (fst kv) level) (dd_data d) with
         | Some (_, x) => Ok x
         | None => Err KeyError
         end.
End Decimate.
