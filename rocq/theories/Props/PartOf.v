(** C99: a window holds the same samples whether the recording is processed whole or in part.

    A recording and a longer one that contains it, processed with the same reference time: each window of
    the part is the window of that number of the whole, sample by sample, and so are its spectra. *)
From Coq Require Import String.
From Verif Require Import Base.Prelude Base.Rounding Base.ListUtil Base.NdArray Base.Cplx Model.Sampling Model.Time Model.Decimate Model.Window Model.Spectra Model.Pipeline
  Spec.Sampling Spec.Time Spec.Window Spec.PartOf.
From Verif Require Import Proofs.PartOf Proofs.ToyWin.
From Verif Require Props.Pipeline.
Open Scope list_scope. Open Scope Q_scope.

(** ** the window table *)
(** the windows of the part are windows of the whole, at the same samples *)
Theorem C99_table : forall rnd nt ndl ref k m m' w o table table', recorded rnd m -> recorded rnd m' -> precise rnd ref m -> precise rnd ref m' -> part_level k m m' ->
  ref <= lm_first m' -> (0 <= o < w)%Z -> (w <= 2 ^ 52)%Z -> get_win_table rnd nt ndl ref m w o = Ok table -> get_win_table rnd nt ndl ref m' w o = Ok table' ->
  forall r, In r table -> exists r', In r' table' /\ wr_global r' = wr_global r /\ wr_from r' = (wr_from r + k)%Z /\ wr_to r' = (wr_to r + k)%Z.
Proof.
  intros rnd nt ndl ref k m m' w o t t' R R' P P' PL Hr Ho Hw HT HT' r Hi. apply In_nth_error in Hi. destruct Hi as [i Hi].
  destruct (table_part _ _ _ _ _ _ _ _ _ _ _ R R' P P' PL Hr Ho Hw HT HT' i r Hi) as (i' & r' & E & K). exists r'. split; [exact (nth_error_In _ _ E)|exact K].
Qed.
Print Assumptions C99_table.
(** every correctly rounded arithmetic: samples appended to a recording add rows at the end of its table and change none *)
Theorem C99_table_rounded : forall rnd nt ndl ref m m' w o table table', good_rnd rnd -> sampled rnd m -> sampled rnd m' ->
  lm_fs m = lm_fs m' -> lm_first m = lm_first m' -> (lm_n_samples m <= lm_n_samples m')%Z ->
  ref <= lm_first m' -> (0 <= o < w)%Z -> (2 <= w)%Z -> lm_last m' <= stamp ref (period rnd (lm_fs m')) (2 ^ 47) ->
  get_win_table rnd nt ndl ref m w o = Ok table -> get_win_table rnd nt ndl ref m' w o = Ok table' -> exists more, table' = table ++ more.
Proof. exact table_more. Qed.
Print Assumptions C99_table_rounded.
(** binary64, 3 Hz: three samples cut off at the start. Window 1 starts at sample 12 of the whole recording; of the part it starts
    at sample 8, which is sample 11 of the whole *)
Theorem C99_cut_at_start_refuted :
  let T := period b64 3 in let m' := lev 3 0 200 in let m := lev 3 (stamp 0 T 3) 197 in
  sampled b64 m /\ sampled b64 m' /\ lm_first m == stamp (lm_first m') T 3 /\
  exists table table' r r', get_win_table b64 nanos nanos 0 m 16 4 = Ok table /\ get_win_table b64 nanos nanos 0 m' 16 4 = Ok table' /\
    In r table /\ In r' table' /\ wr_global r = 1%Z /\ wr_global r' = 1%Z /\ wr_from r' = 12%Z /\ wr_from r = 8%Z.
Proof.
  cbv zeta. split; [repeat split; vm_compute; try reflexivity; discriminate|]. split; [repeat split; vm_compute; try reflexivity; discriminate|]. split; [reflexivity|].
  eexists _, _, _, _. split; [vm_compute; reflexivity|]. split; [vm_compute; reflexivity|]. split; [left; reflexivity|]. split; [right; left; reflexivity|]. repeat split.
Qed.
Print Assumptions C99_cut_at_start_refuted.

(** ** the windows *)
Theorem C99_windows : forall rnd nt ndl ref k p d d' wd wd' i x x' m m' w o ld ld' wl wl',
  windower_run rnd nt ndl ref p d = Ok wd -> windower_run rnd nt ndl ref p d' = Ok wd' ->
  wd_get_level wd (Z.of_nat i) = Ok x -> wd_get_level wd' (Z.of_nat i) = Ok x' -> wd_level_md wd (Z.of_nat i) = Ok wl -> wd_level_md wd' (Z.of_nat i) = Ok wl' ->
  nth_error (wp_win_sizes p) i = Some w -> nth_error (wp_olap_sizes p) i = Some o ->
  nth_error (dd_levels_md d) i = Some m -> nth_error (dd_levels_md d') i = Some m' -> get_level d (Z.of_nat i) = Ok ld -> get_level d' (Z.of_nat i) = Ok ld' ->
  dd_chans d = dd_chans d' -> (2 <= length (dd_chans d'))%nat -> shape_ok d' m' ld' -> part_rows k (lm_n_samples m) ld ld' -> part_level k m m' ->
  recorded rnd m -> recorded rnd m' -> precise rnd ref m -> precise rnd ref m' -> ref <= lm_first m' -> (o < w)%Z -> (2 <= w < lm_n_samples m)%Z -> (w <= 2 ^ 52)%Z ->
  part_windows (length (dd_chans d')) (wl_n_wins wl) (wl_offset wl) x (wl_n_wins wl') (wl_offset wl') x'.
Proof.
  intros rnd nt ndl ref k p d d' wd wd' i x x' m m' w o ld ld' wl wl' H H' X X' Y Y' W O M M' D D' CC.
  exact (fun C2 SH PR PL R R' P P' Hr WO WN WB => proj2 (proj2 (proj2 (proj2 (proj2 (c99_windows rnd nt ndl ref k p p d d' wd wd' i x x' m m' w o ld ld' wl wl' H H' X X' Y Y' W O W O M M' D D' (f_equal _ CC) C2 SH PR PL R R' P P' Hr WO WN WB)))))).
Qed.
Print Assumptions C99_windows.
(** every correctly rounded arithmetic, samples appended at the end *)
Theorem C99_windows_rounded : forall rnd nt ndl ref p d d' wd wd' i x x' m m' w o ld ld' wl wl', good_rnd rnd ->
  windower_run rnd nt ndl ref p d = Ok wd -> windower_run rnd nt ndl ref p d' = Ok wd' ->
  wd_get_level wd (Z.of_nat i) = Ok x -> wd_get_level wd' (Z.of_nat i) = Ok x' -> wd_level_md wd (Z.of_nat i) = Ok wl -> wd_level_md wd' (Z.of_nat i) = Ok wl' ->
  nth_error (wp_win_sizes p) i = Some w -> nth_error (wp_olap_sizes p) i = Some o ->
  nth_error (dd_levels_md d) i = Some m -> nth_error (dd_levels_md d') i = Some m' -> get_level d (Z.of_nat i) = Ok ld -> get_level d' (Z.of_nat i) = Ok ld' ->
  dd_chans d = dd_chans d' -> (2 <= length (dd_chans d'))%nat -> shape_ok d' m' ld' -> part_rows 0 (lm_n_samples m) ld ld' ->
  lm_fs m = lm_fs m' -> lm_first m = lm_first m' -> (lm_n_samples m <= lm_n_samples m')%Z ->
  sampled rnd m -> sampled rnd m' -> ref <= lm_first m' -> lm_last m' <= stamp ref (period rnd (lm_fs m')) (2 ^ 47) -> (o < w)%Z -> (2 <= w < lm_n_samples m)%Z -> (w <= 1000000)%Z ->
  part_windows (length (dd_chans d')) (wl_n_wins wl) (wl_offset wl) x (wl_n_wins wl') (wl_offset wl') x'.
Proof.
  intros rnd nt ndl ref p d d' wd wd' i x x' m m' w o ld ld' wl wl' G H H' X X' Y Y' W O M M' D D' CC.
  exact (fun C2 SH PR EF E1 EN S S' Hr LB WO WN WB => proj2 (proj2 (proj2 (proj2 (proj2 (c99_windows_more rnd nt ndl ref p p d d' wd wd' i x x' m m' w o ld ld' wl wl' G H H' X X' Y Y' W O W O M M' D D' (f_equal _ CC) C2 SH PR EF E1 EN S S' Hr LB WO WN WB)))))).
Qed.
Print Assumptions C99_windows_rounded.

(** ** the spectra at the evaluation frequencies, of the level that is not decimated *)
Theorem C99_spectra : forall L c ref k a b a' b' p p2 rest ea eb m, cf_target c = None ->
  to_evals L c ref a = Ok (p, ea) -> to_evals L c ref b = Ok (p2, eb) ->
  run_all (l_rnd L) (l_drnd L) (l_orc L) (cf_time c) a = Ok a' -> run_all (l_rnd L) (l_drnd L) (l_orc L) (cf_time c) b = Ok b' ->
  part_of k a' b' -> dp_increments p = 1%Z :: rest -> (2 <= length (chans (meta b')))%nat -> ref <= first_time (meta b') ->
  sd_level_md ea 0 = Ok m -> (sl_olap_size m < sl_win_size m)%Z -> (2 <= sl_win_size m < n_samples (meta a'))%Z ->
  recorded (l_rnd L) (level_of a') -> recorded (l_rnd L) (level_of b') -> precise (l_rnd L) ref (level_of a') -> precise (l_rnd L) ref (level_of b') -> (sl_win_size m <= 2 ^ 52)%Z ->
  part_spectra (length (chans (meta b'))) 0 ea eb.
Proof. intros L c ref k a b a' b' p p2 rest ea eb m HT A B RA RB PO IN C2 Hr HM WO WN. exact (c99_spectra L c ref HT k a b a' b' p p2 rest ea eb m A B RA RB PO IN C2 Hr HM WO WN). Qed.
Print Assumptions C99_spectra.
(** every correctly rounded arithmetic, samples appended at the end *)
Theorem C99_spectra_rounded : forall L c ref a b a' b' p p2 rest ea eb m, good_rnd (l_rnd L) -> cf_target c = None ->
  to_evals L c ref a = Ok (p, ea) -> to_evals L c ref b = Ok (p2, eb) ->
  run_all (l_rnd L) (l_drnd L) (l_orc L) (cf_time c) a = Ok a' -> run_all (l_rnd L) (l_drnd L) (l_orc L) (cf_time c) b = Ok b' ->
  part_of 0 a' b' -> first_time (meta a') = first_time (meta b') -> dp_increments p = 1%Z :: rest -> (2 <= length (chans (meta b')))%nat -> ref <= first_time (meta b') ->
  sd_level_md ea 0 = Ok m -> (sl_olap_size m < sl_win_size m)%Z -> (2 <= sl_win_size m < n_samples (meta a'))%Z ->
  sampled (l_rnd L) (level_of a') -> sampled (l_rnd L) (level_of b') -> last_time (meta b') <= stamp ref (period (l_rnd L) (fs (meta b'))) (2 ^ 47) -> (sl_win_size m <= 1000000)%Z ->
  part_spectra (length (chans (meta b'))) 0 ea eb.
Proof. intros L c ref a b a' b' p p2 rest ea eb m G HT A B RA RB PO F IN C2 Hr HM WO WN S S' LB WB. exact (c99_spectra_more L c ref HT 0 a b a' b' p p2 rest ea eb m A B RA RB PO IN C2 Hr HM WO WN G eq_refl F S S' LB WB). Qed.
Print Assumptions C99_spectra_rounded.

(** ** examples: 128 Hz in binary64, and the toy pipeline at 8 Hz *)
Example C99_table_ex : recorded b64 (lev 128 (5 + (100 # 128)) 700) /\ recorded b64 (lev 128 5 1000) /\ part_level 100 (lev 128 (5 + (100 # 128)) 700) (lev 128 5 1000) /\
  precise b64 1 (lev 128 (5 + (100 # 128)) 700) /\ precise b64 1 (lev 128 5 1000) /\
  (exists t, get_win_table b64 nanos nanos 1 (lev 128 (5 + (100 # 128)) 700) 256 64 = Ok t /\ map wr_global t = [4; 5]%Z /\ map wr_from t = [156; 348]%Z) /\
  (exists t, get_win_table b64 nanos nanos 1 (lev 128 5 1000) 256 64 = Ok t /\ map wr_global t = [3; 4; 5; 6]%Z /\ map wr_from t = [64; 256; 448; 640]%Z).
Proof.
  split; [repeat split; vm_compute; try reflexivity; discriminate|]. split; [repeat split; vm_compute; try reflexivity; discriminate|]. split; [apply conj; [vm_compute; reflexivity|]; apply conj; [vm_compute; discriminate|]; apply conj; [vm_compute; reflexivity|vm_compute; discriminate]|].
  split; [right; split; [reflexivity|exists 7%Z, 612%Z; repeat split; vm_compute; try reflexivity; discriminate]|]. split; [right; split; [reflexivity|exists 7%Z, 512%Z; repeat split; vm_compute; try reflexivity; discriminate]|].
  split; (eexists; split; [vm_compute; reflexivity|]; split; vm_compute; reflexivity).
Qed.
Definition part99 (k n : Z) (td : tdata) : tdata := let m := meta td in
  mkData (mkMeta (fs m) (chans m) (n_chans m) n (first_time m + inject_Z k * (1 # 8)) (first_time m + inject_Z (k + n - 1) * (1 # 8)) "" [] []) (dtype td) (map (slice k (k + n)) (rows td)).
Definition whole99 : tdata := Props.Pipeline.toyTd 100 64.
Example C99_spectra_ex : let L := Props.Pipeline.toyL in let c := Props.Pipeline.toyC [] None in let a := part99 9 40 whole99 in
  cf_target c = None /\ part_of 9 a whole99 /\ recorded b64 (level_of a) /\ recorded b64 (level_of whole99) /\ precise b64 100 (level_of a) /\ precise b64 100 (level_of whole99) /\
  exists p ea eb m rest, to_evals L c 100 a = Ok (p, ea) /\ to_evals L c 100 whole99 = Ok (p, eb) /\ dp_increments p = 1%Z :: rest /\
    sd_level_md ea 0 = Ok m /\ sl_win_size m = 8%Z /\ sl_olap_size m = 2%Z /\ sl_n_wins m = 5%Z /\ sl_offset m = 2%Z /\ part_spectra 2 0 ea eb.
Proof.
  cbv zeta. split; [reflexivity|].
  assert (PO : part_of 9 (part99 9 40 whole99) whole99).
  { split; [reflexivity|]. split; [reflexivity|]. split; [discriminate|]. split; [vm_compute; reflexivity|]. split; [discriminate|]. split; [reflexivity|]. split; [reflexivity|]. intros r [<-|[<-|[]]]; vm_compute; reflexivity. }
  assert (RA : recorded b64 (level_of (part99 9 40 whole99))) by (repeat split; vm_compute; try reflexivity; discriminate).
  assert (RB : recorded b64 (level_of whole99)) by (repeat split; vm_compute; try reflexivity; discriminate).
  assert (PA : precise b64 100 (level_of (part99 9 40 whole99))) by (right; split; [reflexivity|]; exists 3%Z, 9%Z; repeat split; vm_compute; try reflexivity; discriminate).
  assert (PB : precise b64 100 (level_of whole99)) by (right; split; [reflexivity|]; exists 3%Z, 0%Z; repeat split; vm_compute; try reflexivity; discriminate).
  do 5 (split; [assumption|]).
  assert (exists p ea eb m rest, to_evals Props.Pipeline.toyL (Props.Pipeline.toyC [] None) 100 (part99 9 40 whole99) = Ok (p, ea) /\ to_evals Props.Pipeline.toyL (Props.Pipeline.toyC [] None) 100 whole99 = Ok (p, eb) /\ dp_increments p = 1%Z :: rest /\
    sd_level_md ea 0 = Ok m /\ sl_win_size m = 8%Z /\ sl_olap_size m = 2%Z /\ sl_n_wins m = 5%Z /\ sl_offset m = 2%Z) as (p & ea & eb & m & rest & E1 & E2 & E3 & E4 & E5 & E6 & E7 & E8).
  { eexists _, _, _, _, _. split; [vm_compute; reflexivity|]. split; [vm_compute; reflexivity|]. split; [vm_compute; reflexivity|]. split; [vm_compute; reflexivity|]. repeat split; vm_compute; reflexivity. }
  exists p, ea, eb, m, rest. do 8 (split; [assumption|]).
  refine (C99_spectra Props.Pipeline.toyL (Props.Pipeline.toyC [] None) 100 9 _ _ (part99 9 40 whole99) whole99 p p rest ea eb m eq_refl E1 E2 eq_refl eq_refl PO E3 _ _ E4 _ _ RA RB PA PB _).
  - apply le_n.
  - vm_compute; discriminate.
  - rewrite E5, E6. reflexivity.
  - rewrite E5. split; vm_compute; congruence.
  - rewrite E5. vm_compute. discriminate.
Qed.
