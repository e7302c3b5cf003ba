(** Model of the processing runs of resistics/letsgo.py: quick_tf, process_time_to_evals,
    process_evals_to_tf and the stages they call (281-487, 611-652, 700-808).

    Simplifications: logging is dropped; a project is what its measurement directories
    hold (the time data a reader delivers, or the exception it raises) and its evals
    directories are a store keyed by site, measurement and configuration name: that
    the directories are distinct is C61, that data written there is read back is C65;
    storing the solution is modelled in Letsgo.v. The regression preparer is the
    default RegressionPreparerGathered; the solver is its fit. *)
From Coq Require Import String.
From Verif Require Import Base.Prelude Base.Rounding Base.ListUtil Base.NdArray Base.Cplx
  Model.Sampling Model.Time Model.Decimate Model.Window Model.Spectra Model.Calibrate Model.Gather Model.Regression.
Open Scope list_scope. Open Scope Q_scope.

(** the spectra processors of spectra.py *)
Inductive sproc := SUniform (proportion : Q) | SGaussian (sigma : Q).

(** Configuration, config.py 28-151: the parts the runs use. [cf_target] chooses
    WindowerTarget instead of Windower. *)
Record config := mkConfig {
  cf_name : string; cf_time : list proc; cf_dec : dec_setup; cf_resample : bool; cf_max_single : Z;
  cf_win : win_setup; cf_target : option win_target; cf_spec : list sproc;
  cf_cal_chans : option (list chan); cf_tf : tf_chans }.

(** what the libraries do *)
Record library := mkLib {
  l_rnd : Q -> Q; l_drnd : Q -> Q; l_orc : oracles; l_pw : nat -> Q; l_fuel : nat;
  l_ns_time : Q -> Z; l_ns_delta : Q -> Z; l_next_fast_len : Z -> Z;
  l_transform : Z -> Z -> list cell -> res (list cq);
  l_uniform : Z -> list cq -> list cq; l_gaussian : Q -> list cq -> list cq;
  l_cis : Q -> cq; l_cdiv : cq -> cq -> cq; l_cmul : cq -> cq -> cq;
  l_junk : Z -> nat -> nat -> list (list cq); l_junk1 : nat -> list Q; l_junk2 : nat -> nat -> list (list Q);
  l_fit : list (list Q) -> list Q -> res (list Q) }.

Section Pipeline.
  Variable L : library.
  Let rnd := l_rnd L.

  (** run_windowing 331-353 *)
  Definition run_windowing (c : config) (ref : time) (d : dec_data) : res win_data :=
    wp <- win_setup_run rnd (cf_win c) (dd_n_levels d) (dd_fs d) ;;
    match cf_target c with
    | None => windower_run rnd (l_ns_time L) (l_ns_delta L) ref wp d
    | Some t => windower_target_run rnd (l_ns_time L) (l_ns_delta L) t ref wp d
    end.
  (** run_spectra_processors 376-397 *)
  Definition run_sproc (p : sproc) (d : spec_data cq) : res (spec_data cq) :=
    match p with
    | SUniform x => smooth_uniform rnd (l_uniform L) x d
    | SGaussian x => smooth_gaussian (l_gaussian L) x d
    end.
  Fixpoint run_sprocs (ps : list sproc) (d : spec_data cq) : res (spec_data cq) :=
    match ps with [] => Ok d | p :: t => d' <- run_sproc p d ;; run_sprocs t d' end.

  (** DecimationSetup.run and Decimator.run as called by run_decimation 303-328 *)
  Definition dec_params_of (c : config) (fs : Q) : res dec_params := setup_run rnd (l_pw L) (l_fuel L) (cf_dec c) fs.
  Definition run_decimation (c : config) (p : dec_params) (td : tdata) : res dec_data :=
    decimator_run rnd (l_orc L) (cf_resample c) (cf_max_single c) p td.

  (** the stages from time data to evaluation frequencies, shared by quick_tf (641-647)
      and process_time_to_evals (725-731): the parameters and the data *)
  Definition to_evals (c : config) (ref : time) (td : tdata) : res (dec_params * spec_data cq) :=
    td' <- run_all rnd (l_drnd L) (l_orc L) (cf_time c) td ;;
    p <- dec_params_of c (fs (meta td')) ;;
    dd <- run_decimation c p td' ;;
    wd <- run_windowing c ref dd ;;
    sd <- fourier_run rnd (l_next_fast_len L) (l_transform L) wd ;;
    sd <- run_sprocs (cf_spec c) sd ;;
    ed <- evals_run p sd ;;
    Ok (p, ed).
  (** run_sensor_calibration 424-445; [cal]: the configured readers on the calibration directory *)
  Definition run_calibration (c : config) (cal : list (chan -> res cal_data)) (d : spec_data cq) : res (spec_data cq) :=
    calibrator_run (l_cis L) (l_cdiv L) cal (cf_cal_chans c) d.
  (** run_regression_preparer 448-467 and run_solver 470-487 *)
  Definition run_regression (c : config) (g : gathered cq) : res solution :=
    r <- prepare_gathered (l_cmul L) (l_junk1 L) (l_junk2 L) (cf_tf c) g ;;
    solve (l_fit L) r.

  (** quick_tf 611-652; [name] is the name of the directory *)
  Definition quick_tf (c : config) (cal : option (list (chan -> res cal_data))) (name : string) (td : tdata) : res solution :=
    '(p, ed) <- to_evals c (first_time (meta td)) td ;;
    ed <- match cal with Some readers => run_calibration c readers ed | None => Ok ed end ;;
    g <- quick_gather name p (cf_tf c) ed ;;
    run_regression c g.

  (** ** Projects *)
  (** the measurements: sampling frequency of the metadata read when the project was
      loaded, and what reading the time data gives *)
  Definition raw_site := list (string * (Q * res tdata)).
  Definition raw_project := list (string * raw_site).
  (** the evals directories *)
  Definition store := list ((string * string * string) * spec_data cq).
  Definition key_eqb (a b : string * string * string) : bool :=
    String.eqb (fst (fst a)) (fst (fst b)) && String.eqb (snd (fst a)) (snd (fst b)) && String.eqb (snd a) (snd b).
  Fixpoint store_get (k : string * string * string) (s : store) : option (spec_data cq) :=
    match s with [] => None | (j, d) :: t => if key_eqb j k then Some d else store_get k t end.
  (** SpectraDataWriter overwrites (common.py 914); [saved] is what the reader will return:
      writer and reader add a record each, spectra.py 789-793 and 830-836 *)
  Definition saved (d : spec_data cq) : spec_data cq :=
    mkSpec (with_spec_history (sd_md d) (sm_history (sd_md d) ++ [COther "SpectraDataWriter"; COther "SpectraDataReader"])) (sd_data d).

  (** proj[site_name][meas_name], project.py 262-268 and 155-161 *)
  Definition find_meas (proj : raw_project) (site meas : string) : res (Q * res tdata) :=
    match find (fun s => String.eqb (fst s) site) proj with
    | None => Err SiteNotFoundError
    | Some (_, ms) => match find (fun m => String.eqb (fst m) meas) ms with
                      | None => Err MeasurementNotFoundError
                      | Some (_, x) => Ok x
                      end
    end.
  (** process_time_to_evals 700-737 *)
  Definition evals_of (c : config) (cal : list (chan -> res cal_data)) (ref : time) (proj : raw_project) (site meas : string) : res (spec_data cq) :=
    '(_, r) <- find_meas proj site meas ;;
    td <- r ;;
    '(_, ed) <- to_evals c ref td ;;
    run_calibration c cal ed.
  Definition process_time_to_evals (c : config) (cal : list (chan -> res cal_data)) (ref : time) (proj : raw_project)
    (site meas : string) (s : store) : store * res unit :=
    match evals_of c cal ref proj site meas with
    | Ok ed => (((site, meas, cf_name c), saved ed) :: s, Ok tt)
    | Err e => (s, Err e)
    end.

  (** several runs of process_time_to_evals, one after the other *)
  Record command := mkCmd { cm_config : config; cm_cal : list (chan -> res cal_data); cm_ref : time; cm_site : string; cm_meas : string }.
  Definition cmd_key (x : command) : string * string * string := (cm_site x, cm_meas x, cf_name (cm_config x)).
  Definition run_cmd (proj : raw_project) (x : command) (s : store) : store * res unit :=
    process_time_to_evals (cm_config x) (cm_cal x) (cm_ref x) proj (cm_site x) (cm_meas x) s.
  Fixpoint run_session (proj : raw_project) (l : list command) (s : store) : store :=
    match l with [] => s | x :: t => run_session proj t (fst (run_cmd proj x s)) end.

  (** the project as Selector and ProjectGather see it: reading a missing evals directory fails *)
  Definition view (config_name : string) (proj : raw_project) (s : store) : Gather.project cq :=
    map (fun st : string * raw_site =>
           (fst st, map (fun m : string * (Q * res tdata) =>
                           (fst m, (fst (snd m), match store_get (fst st, fst m, config_name) s with
                                                 | Some d => Ok d | None => Err ReadError end))) (snd st))) proj.
  (** process_evals_to_tf 740-800 (storing the solution, 801-807, is in Letsgo.v) *)
  Definition process_evals_to_tf (c : config) (proj : raw_project) (s : store) (fs : Q)
    (out_site : string) (in_site cross_site : option string) : res solution :=
    let sites := out_site :: match in_site with Some x => [x] | None => [] end ++ match cross_site with Some x => [x] | None => [] end in
    let pr := view (cf_name c) proj s in
    p <- dec_params_of c fs ;;
    sel <- selector_run pr sites p ;;
    g <- project_gather (l_junk L) pr sel (cf_tf c) out_site in_site cross_site ;;
    run_regression c g.
End Pipeline.
