(** Model of quick_spectra and quick_view, resistics/letsgo.py 531-608, and of quick_tf (611-652) from the
    directory on. Logging is dropped; the configuration is given (None takes the default one). *)
From Coq Require Import String.
From Verif Require Import Base.Prelude Base.NdArray Base.Cplx Base.FileSys Model.Project Model.Letsgo Model.Sampling Model.Time Model.Decimate Model.Window Model.Spectra
  Model.Calibrate Model.Regression Model.Pipeline Model.TimePlot.
Open Scope list_scope. Open Scope Q_scope.

Section Quick.
  Variable L : library.

  (** the spectra of a recording, letsgo.py 603-608 *)
  Definition spectra_of (c : config) (td : tdata) : res (spec_data cq) :=
    let ref_time := first_time (meta td) in                                               (* 603 *)
    td' <- run_all (l_rnd L) (l_drnd L) (l_orc L) (cf_time c) td ;;                       (* 604 *)
    p <- dec_params_of L c (fs (meta td')) ;;                                             (* 605 *)
    dd <- run_decimation L c p td' ;;                                                     (* 606 *)
    wd <- run_windowing L c ref_time dd ;;                                                (* 607 *)
    fourier_run (l_rnd L) (l_next_fast_len L) (l_transform L) wd.                         (* 608 *)
  (** quick_spectra, letsgo.py 574-608 *)
  Definition quick_spectra (readers : list (reader tdata)) (c : config) (s : node) (d : path) : res (spec_data cq) :=
    td <- quick_read s readers d ;; spectra_of c td.
  (** quick_tf, letsgo.py 611-652, with the reading of line 639 *)
  Definition quick_tf_dir (readers : list (reader tdata)) (c : config) (cal : option (list (chan -> res cal_data))) (s : node) (d : path) : res solution :=
    td <- quick_read s readers d ;; quick_tf L c cal (path_name d) td.

  (** the plotting libraries *)
  Variable f32 : Q -> Q.
  Variable lttbc : list Q -> list Q -> Z -> res (list Q * list Q).
  Variable ycast : Q -> Q.
  Variable lttb_missing : list cell -> Z -> res (list Z * list cell).
  (** quick_view, letsgo.py 531-571; colour and legend of TimeData.plot are its defaults, time.py 640-641 *)
  Definition quick_view (readers : list (reader tdata)) (c : config) (decimate : bool) (max_pts : Z) (s : node) (d : path) : res figure :=
    td <- quick_read s readers d ;;                                                       (* 565 *)
    td' <- run_all (l_rnd L) (l_drnd L) (l_orc L) (cf_time c) td ;;                       (* 566 *)
    if negb decimate
    then time_plot (l_rnd L) (l_ns_time L) (l_ns_delta L) f32 lttbc ycast lttb_missing td' None None (inl "blue"%string) (CName "TimeData") (Some max_pts)   (* 567-568 *)
    else p <- dec_params_of L c (fs (meta td')) ;;                                        (* 569 *)
         dd <- run_decimation L c p td' ;;                                                (* 570 *)
         dec_plot (l_rnd L) (l_ns_time L) (l_ns_delta L) f32 lttbc ycast lttb_missing dd (dtype td') (Some max_pts).   (* 571 *)
End Quick.
