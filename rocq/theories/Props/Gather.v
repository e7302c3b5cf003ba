(** Properties C46-C49: selecting shared windows and gathering their spectra.
    [junk] is the uninitialised memory of np.empty: the theorems hold whatever it contains. *)
From Coq Require Import String Sorted.
From Verif Require Import Base.Prelude Base.ListUtil Base.NdArray
  Model.Sampling Model.Time Model.Decimate Model.Window Model.Spectra Model.Calibrate Model.Gather Spec.Calibrate Spec.Gather
  Proofs.Gather Proofs.GatherData Proofs.GatherFinal Proofs.GatherQuick.
Open Scope list_scope. Open Scope Z_scope.

(** ** Two sites. "A" has three measurements, windows 3..5 (one level 1 window), 4..8 and one at
    another sampling frequency; "B" has windows 4..7 *)
Definition toy_level (off : Z) (n : nat) : spec_level := mkSpecLevel 16 (Z.of_nat n) 16 4 off 2 [1; 2]%Q.
Definition toy_entry (v w c f : Z) : Z := 1000 * v + 100 * w + 10 * c + f.
Definition toy_x (v : Z) (n : nat) : list (list (list Z)) :=
  map (fun w => [[toy_entry v w 0 0; toy_entry v w 0 1]; [toy_entry v w 1 0; toy_entry v w 1 1]]) (map Z.of_nat (seq 0 n)).
Definition toy_evals (v off : Z) (n : nat) : spec_data Z :=
  mkSpec (mkSpecMd [16%Q] ["Ex"; "Hy"]%string 1 0%Q 100%Q "" [toy_level off n] 0%Q []) [(0, nd3 (toy_x v n))].
Definition toy_proj : project Z :=
  [ ("A", [ ("m1", (16%Q, Ok (toy_evals 1 3 3))); ("m2", (16%Q, Ok (toy_evals 2 4 5)));
            ("m3", (8%Q, Ok (toy_evals 3 4 9))); ("m4", (16%Q, Err ReadError)) ]);
    ("B", [ ("n1", (16%Q, Ok (toy_evals 4 4 4))) ]) ]%string.
Definition toy_params : dec_params := mkDecParams 16%Q 1 2 10 [1; 2]%Q [1] [1] [16]%Q.
Definition toy_junk (_ : Z) (r c : nat) : list (list Z) := repeat (repeat 666 c) r.
Definition toy_sel : selection :=
  mkSel ["A"; "B"]%string toy_params [[(4, ["m1"; "n1"]); (5, ["m1"; "n1"]); (6, ["m2"; "n1"]); (7, ["m2"; "n1"])]]%string.
Definition toy_tf : tf_chans := mkTf ["Ex"]%string ["Hy"]%string ["Hy"; "Ex"]%string.

(** ** C46 *)
Theorem C46_site_windows : forall ms level w, 0 <= level -> level_wins ms level = Ok w ->
  increasing_z (map fst w) /\ forall g name, In (g, name) w <-> supplies ms level g name.
Proof. exact c46. Qed.
Print Assumptions C46_site_windows.
Theorem C46_site_windows_total : forall ms level, 0 <= level -> (forall n md, In (n, md) ms -> levels_ok md) ->
  exists w, level_wins ms level = Ok w.
Proof. exact c46_total. Qed.
Print Assumptions C46_site_windows_total.
Example C46_ex : level_wins [("m1", sd_md (toy_evals 1 3 3)); ("m2", sd_md (toy_evals 2 4 5))]%string 0
  = Ok [(3, "m1"); (4, "m1"); (5, "m1"); (6, "m2"); (7, "m2"); (8, "m2")]%string.
Proof. reflexivity. Qed.
Example C46_ex_hyp : levels_ok (sd_md (toy_evals 1 3 3)) /\ supplies [("m1", sd_md (toy_evals 1 3 3)); ("m2", sd_md (toy_evals 2 4 5))]%string 0 6 "m2".
Proof.
  split; [reflexivity|]. eexists [_], _, []. split; [reflexivity|]. split.
  - split; [reflexivity|]. eexists. split; [reflexivity|]. cbn. lia.
  - intros n md [E|[]] (_ & m & Hm & K). injection E as <- <-. injection Hm as <-. cbn in K. lia.
Qed.

(** ** C47 *)
Theorem C47_selection : forall A (proj : project A) names p s, selector_run proj names p = Ok s ->
  (forall n, In n (sel_sites s) <-> In n names) /\ NoDup (sel_sites s) /\ sel_params s = p /\
  (forall level, 0 <= level -> level < sel_n_levels s <-> all_sites_have proj (dp_fs p) names level) /\
  forall level, 0 <= level < sel_n_levels s -> exists t, sel_table s level = Ok t /\
    increasing_z (map fst t) /\
    forall g row, In (g, row) t <->
      Forall2 (fun site name => exists ms, site_measurements proj site (dp_fs p) ms /\ supplies ms level g name) (sel_sites s) row.
Proof. exact c47. Qed.
Print Assumptions C47_selection.
Theorem C47_site_names : forall A (proj : project A) names names' p, (forall n, In n names <-> In n names') ->
  selector_run proj names p = selector_run proj names' p.
Proof. exact c47_names. Qed.
Print Assumptions C47_site_names.
Theorem C47_eval_wins : forall s level idx t, 0 <= level < sel_n_levels s -> 0 <= idx < dp_per_level (sel_params s) -> sel_table s level = Ok t ->
  get_eval_wins s level idx = Ok t /\ get_n_wins s level idx = Ok (Z.of_nat (length t)).
Proof. exact c47_evals. Qed.
Print Assumptions C47_eval_wins.
Example C47_ex : selector_run toy_proj ["B"; "A"; "B"]%string toy_params = Ok toy_sel.
Proof. vm_compute. reflexivity. Qed.
(** the tables may be empty: no shared window *)
Example C47_ex_disjoint : exists s, selector_run [("A", [("m1", (16%Q, Ok (toy_evals 1 3 3)))]); ("B", [("n1", (16%Q, Ok (toy_evals 1 6 3)))])]%string
  ["A"; "B"]%string toy_params = Ok s /\ sel_table s 0 = Ok [].
Proof. eexists. split; vm_compute; reflexivity. Qed.

(** ** C48 *)
Theorem C48_aligned_rows : forall A (junk : Z -> nat -> nat -> list (list A)), (forall k r c, length (junk k r c) = r) ->
  forall (proj : project A) names p s tf out_name in_name cross_name freqs, selector_run proj names p = Ok s ->
  let in_site := or_else in_name out_name in let cross_site := or_else cross_name in_site in
  In out_name names -> In in_site names -> In cross_site names ->
  tf_out tf <> [] -> tf_in tf <> [] -> tf_cross tf <> [] ->
  good_site proj p out_name (tf_out tf) -> good_site proj p in_site (tf_in tf) -> good_site proj p cross_site (tf_cross tf) ->
  sel_eval_freqs s = Ok freqs -> (exists level t, 0 <= level < sel_n_levels s /\ sel_table s level = Ok t /\ t <> []) ->
  exists g, project_gather junk proj s tf out_name in_name cross_name = Ok g /\
    gathered_from proj s out_name (tf_out tf) (cb_data (g_out g)) /\
    gathered_from proj s in_site (tf_in tf) (cb_data (g_in g)) /\
    gathered_from proj s cross_site (tf_cross tf) (cb_data (g_cross g)) /\
    cb_eval_freqs (g_out g) = freqs /\ cb_eval_freqs (g_in g) = freqs /\ cb_eval_freqs (g_cross g) = freqs /\
    cb_chans (g_out g) = tf_out tf /\ cb_chans (g_in g) = tf_in tf /\ cb_chans (g_cross g) = tf_cross tf.
Proof. exact @c48. Qed.
Print Assumptions C48_aligned_rows.
(** sites without shared windows: an attribute of None is accessed *)
Theorem C48_no_shared_windows : forall A junk (proj : project A) s tf out_name st, find (fun x => String.eqb (fst x) out_name) proj = Some (out_name, st) ->
  In out_name (sel_sites s) -> (forall t, In t (sel_tables s) -> t = []) -> project_gather junk proj s tf out_name None None = Err AttributeError.
Proof. exact no_windows. Qed.
Print Assumptions C48_no_shared_windows.
Lemma toy_good v off n : good_evals 2 (toy_evals v off n).
Proof.
  split; [discriminate|]. split; [reflexivity|]. intros l Hl. cbn in Hl. assert (l = 0) as -> by lia.
  eexists _, (toy_x v n). split; [reflexivity|]. split; [reflexivity|]. split; [unfold toy_x; rewrite !map_length, seq_length; reflexivity|].
  split; [|cbn; lia]. intros win Hw. unfold toy_x in Hw. apply in_map_iff in Hw. destruct Hw as (w & <- & _).
  split; [reflexivity|]. intros r [<-|[<-|[]]]; reflexivity.
Qed.
Example C48_ex_hyp : (forall k r c, length (toy_junk k r c) = r) /\ sel_eval_freqs toy_sel = Ok [1; 2]%Q /\
  good_site toy_proj toy_params "A" (tf_in toy_tf) /\ good_site toy_proj toy_params "B" (tf_cross toy_tf).
Proof.
  split; [intros; apply repeat_length|]. split; [reflexivity|]. split.
  - intros st E. injection E as <-. split; [repeat constructor; cbn; intuition congruence|].
    intros name fs d [K|[K|[K|[K|[]]]]] _; try discriminate; injection K as <- <- <-; (split; [apply toy_good|intros c [<-|[]]; right; left; reflexivity]).
  - intros st E. injection E as <-. split; [repeat constructor; cbn; intuition congruence|].
    intros name fs d [K|[]] _. injection K as <- <- <-. split; [apply toy_good|]. intros c [<-|[<-|[]]]; [right; left|left]; reflexivity.
Qed.
(** window 6 is row 2: local window 2 of m2 (offset 4) and local window 2 of n1 *)
Example C48_ex : exists g, project_gather toy_junk toy_proj toy_sel toy_tf "A" None (Some "B"%string) = Ok g /\
  cb_data (g_out g) = [(0, [[1100]; [1200]; [2200]; [2300]]); (1, [[1101]; [1201]; [2201]; [2301]])] /\
  cb_data (g_in g) = [(0, [[1110]; [1210]; [2210]; [2310]]); (1, [[1111]; [1211]; [2211]; [2311]])] /\
  cb_data (g_cross g) = [(0, [[4010; 4000]; [4110; 4100]; [4210; 4200]; [4310; 4300]]); (1, [[4011; 4001]; [4111; 4101]; [4211; 4201]; [4311; 4301]])].
Proof. eexists. split; [vm_compute; reflexivity|]. split; [reflexivity|]. split; reflexivity. Qed.

(** ** C49 *)
Theorem C49_quick_agrees : forall A junk (proj : project A) site_name meas fs d p s tf, (forall k r c, length (junk k r c) = r) ->
  selector_run proj [site_name] p = Ok s ->
  find (fun x => String.eqb (fst x) site_name) proj = Some (site_name, [(meas, (fs, Ok d))]) -> Qeq_bool fs (dp_fs p) = true ->
  1 <= dp_per_level p -> 1 <= sm_n_levels (sd_md d) -> good_evals (dp_per_level p) d -> quick_shape (dp_per_level p) d ->
  (forall l m, nth_error (sm_levels (sd_md d)) (Z.to_nat l) = Some m -> 0 <= l -> level_eval_freqs p l = Ok (sl_freqs m)) ->
  tf_out tf <> [] -> tf_in tf <> [] -> tf_cross tf <> [] ->
  incl (tf_out tf) (sm_chans (sd_md d)) -> incl (tf_in tf) (sm_chans (sd_md d)) -> incl (tf_cross tf) (sm_chans (sd_md d)) ->
  exists g q, project_gather junk proj s tf site_name None None = Ok g /\ quick_gather meas p tf d = Ok q /\
    (forall level f, 0 <= level < sm_n_levels (sd_md d) -> 0 <= f < dp_per_level p -> let key := dp_per_level p * level + f in
      (exists rows, dict_get key (cb_data (g_out g)) = Ok rows /\ dict_get key (cb_data (g_out q)) = Ok rows) /\
      (exists rows, dict_get key (cb_data (g_in g)) = Ok rows /\ dict_get key (cb_data (g_in q)) = Ok rows) /\
      (exists rows, dict_get key (cb_data (g_cross g)) = Ok rows /\ dict_get key (cb_data (g_cross q)) = Ok rows)) /\
    cb_eval_freqs (g_out g) = cb_eval_freqs (g_out q) /\ cb_chans (g_out g) = cb_chans (g_out q).
Proof. exact @c49. Qed.
Print Assumptions C49_quick_agrees.
Definition toy_single : project Z := [("A", [("m1", (16%Q, Ok (toy_evals 1 3 3)))])]%string.
Example C49_ex : exists s g, selector_run toy_single ["A"]%string toy_params = Ok s /\ project_gather toy_junk toy_single s toy_tf "A" None None = Ok g /\
  quick_gather "m1" toy_params toy_tf (toy_evals 1 3 3) = Ok g /\ cb_data (g_in g) = [(0, [[1010]; [1110]; [1210]]); (1, [[1011]; [1111]; [1211]])] /\
  quick_shape 2 (toy_evals 1 3 3) /\ good_evals 2 (toy_evals 1 3 3).
Proof.
  eexists _, _. split; [vm_compute; reflexivity|]. split; [vm_compute; reflexivity|]. split; [vm_compute; reflexivity|]. split; [reflexivity|].
  split; [|apply toy_good]. intros l m Hl H. cbn in Hl. assert (l = 0) as -> by lia. injection H as <-. split; [reflexivity|cbn; lia].
Qed.
(** fewer frequencies in the data than per level: the project gathering fails, the quick one works *)
Theorem C49_fewer_frequencies_refuted : let d := mkSpec (mkSpecMd [16%Q] ["Ex"; "Hy"]%string 1 0%Q 100%Q "" [mkSpecLevel 16 1 16 4 0 1 [1%Q]] 0%Q []) [(0, nd3 [[[5]; [6]]])] in
  let proj : project Z := [("A", [("m1", (16%Q, Ok d))])]%string in
  exists s q, selector_run proj ["A"]%string toy_params = Ok s /\ quick_gather "m1" toy_params toy_tf d = Ok q /\
    project_gather toy_junk proj s toy_tf "A" None None = Err IndexError.
Proof. eexists _, _. split; [vm_compute; reflexivity|]. split; vm_compute; reflexivity. Qed.
Print Assumptions C49_fewer_frequencies_refuted.
