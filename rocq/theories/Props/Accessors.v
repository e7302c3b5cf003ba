(** Property C71: reading channels and frequencies out of windowed and spectra data. *)
From Coq Require Import String.
From Verif Require Import Base.Prelude Base.ListUtil Base.NdArray Model.Sampling Model.Time Model.Decimate Model.Window Model.Spectra Model.Gather
  Spec.Calibrate Spec.Gather Proofs.Accessors.
Open Scope list_scope. Open Scope Z_scope.

(** WindowedData.get_chan: of every window the row of the (first) channel with the name; unknown names raise *)
Theorem C71_windowed_get_chan : forall (d : win_data) level (x : list (list (list cell))) c, wd_get_level d level = Ok (nd3 x) -> x <> [] ->
  (forall win, In win x -> length win = length (wd_chans d)) ->
  (~ In c (wd_chans d) -> wd_get_chan d level c = Err ChannelNotFoundError) /\
  forall i, nth_error (wd_chans d) i = Some c -> (forall j, (j < i)%nat -> nth_error (wd_chans d) j <> Some c) ->
    exists y, wd_get_chan d level c = Ok (nd2 y) /\ length y = length x /\
      forall w win, nth_error x w = Some win -> nth_error y w = nth_error win i.
Proof. exact wd_chan. Qed.
Print Assumptions C71_windowed_get_chan.
Theorem C71_spectra_get_chan : forall (A : Type) (d : spec_data A) level x c, sd_get_level d level = Ok (nd3 x) -> x <> [] ->
  (forall win, In win x -> length win = length (sm_chans (sd_md d))) ->
  (~ In c (sm_chans (sd_md d)) -> sd_get_chan d level c = Err ChannelNotFoundError) /\
  forall i, nth_error (sm_chans (sd_md d)) i = Some c -> (forall j, (j < i)%nat -> nth_error (sm_chans (sd_md d)) j <> Some c) ->
    exists y, sd_get_chan d level c = Ok (nd2 y) /\ length y = length x /\
      forall w win, nth_error x w = Some win -> nth_error y w = nth_error win i.
Proof. exact @sd_chan. Qed.
Print Assumptions C71_spectra_get_chan.
(** get_chans: the rows in the order of the request, repetitions included *)
Theorem C71_spectra_get_chans : forall (A : Type) (d : spec_data A) level x cs, sd_get_level d level = Ok (nd3 x) ->
  (forall win, In win x -> length win = length (sm_chans (sd_md d))) -> sm_chans (sd_md d) <> [] ->
  ((exists c, In c cs /\ ~ In c (sm_chans (sd_md d))) -> sd_get_chans d level cs = Err ChannelNotFoundError) /\
  (incl cs (sm_chans (sd_md d)) -> exists y, sd_get_chans d level cs = Ok (nd3 y) /\ length y = length x /\
    forall w win, nth_error x w = Some win -> exists rows, nth_error y w = Some rows /\
      Forall2 (fun c row => exists i, nth_error (sm_chans (sd_md d)) i = Some c /\
        (forall j, (j < i)%nat -> nth_error (sm_chans (sd_md d)) j <> Some c) /\ nth_error win i = Some row) cs rows).
Proof. exact @sd_chans. Qed.
Print Assumptions C71_spectra_get_chans.
(** get_freq: entry [w, c] is coefficient [f] of channel c in window w; axes of length one are dropped *)
Theorem C71_spectra_get_freq : forall (A : Type) (d : spec_data A) level x m C F f, sd_get_level d level = Ok (nd3 x) -> sd_level_md d level = Ok m ->
  (1 <= length x)%nat -> (1 <= C)%nat -> shaped x C F -> Z.of_nat F = sl_n_freqs m ->
  (f < 0 \/ sl_n_freqs m <= f -> sd_get_freq d level f = Err ValueError) /\
  (0 <= f < sl_n_freqs m -> exists y, sd_get_freq d level f = Ok (squeeze (nd2 y)) /\ length y = length x /\
    (forall zs, In zs y -> length zs = C) /\
    (forall w c, match nth_error y w with Some zs => nth_error zs c | None => None end = coef x w c (Z.to_nat f)) /\
    ((2 <= length x)%nat -> (2 <= C)%nat -> sd_get_freq d level f = Ok (nd2 y))).
Proof. exact @sd_freq. Qed.
Print Assumptions C71_spectra_get_freq.

Definition C71_d : spec_data Z :=
  mkSpec (mkSpecMd [4; 2]%Q ["Ex"; "Hy"]%string 2 0 10 "" [mkSpecLevel 4 2 4 1 0 3 [0; 1; 2]%Q; mkSpecLevel 2 3 4 1 0 2 [0; 1]%Q] 0 [])
    [(0, nd3 [[[1; 2; 3]; [4; 5; 6]]; [[7; 8; 9]; [10; 11; 12]]]); (1, nd3 [[[13; 14]; [15; 16]]; [[17; 18]; [19; 20]]; [[21; 22]; [23; 24]]])].
Example C71_ex : sd_get_level C71_d 1 = Ok (nd3 [[[13; 14]; [15; 16]]; [[17; 18]; [19; 20]]; [[21; 22]; [23; 24]]]) /\
  sd_get_chan C71_d 1 "Hy"%string = Ok (nd2 [[15; 16]; [19; 20]; [23; 24]]) /\ sd_get_chan C71_d 1 "Hx"%string = Err ChannelNotFoundError /\
  sd_get_chans C71_d 0 ["Hy"; "Ex"; "Hy"]%string = Ok (nd3 [[[4; 5; 6]; [1; 2; 3]; [4; 5; 6]]; [[10; 11; 12]; [7; 8; 9]; [10; 11; 12]]]) /\
  sd_get_freq C71_d 0 2 = Ok (nd2 [[3; 6]; [9; 12]]) /\ sd_get_freq C71_d 0 3 = Err ValueError /\
  shaped [[[1; 2; 3]; [4; 5; 6]]; [[7; 8; 9]; [10; 11; 12]]] 2 3.
Proof.
  do 6 (split; [vm_compute; reflexivity|]). intros w [<-|[<-|[]]]; (split; [reflexivity|]); intros r [<-|[<-|[]]]; reflexivity.
Qed.
Definition C71_w : win_data := mkWinData [4]%Q ["Ex"; "Hy"]%string 1 0 10 "" [mkWinLevel 4 2 2 1 0] 0 []
  [(0, nd3 [[[Some 1; Some 2]; [Some 3; None]]; [[Some 5; Some 6]; [Some 7; Some 8]]]%Q)].
Example C71_windowed_ex : wd_get_chan C71_w 0 "Hy"%string = Ok (nd2 [[Some 3; None]; [Some 7; Some 8]]%Q).
Proof. vm_compute. reflexivity. Qed.
(** the returned array has no window axis when there is one window *)
Example C71_squeezed : let d := mkSpec (mkSpecMd [4]%Q ["Ex"; "Hy"]%string 1 0 10 "" [mkSpecLevel 4 1 4 1 0 2 [0; 1]%Q] 0 []) [(0, nd3 [[[1; 2]; [3; 4]]])] in
  sd_get_freq d 0 1 = Ok (nd1 [2; 4]).
Proof. vm_compute. reflexivity. Qed.
