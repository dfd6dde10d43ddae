(** Tests of the model, not theorems: the cases of /repo/feedx/experiment_analysis_test.py,
    /repo/feedx/experiment_simulations_test.py and /repo/feedx/plotting_test.py whose inputs and expected
    results are written out there, run on the model.  Each example cites the test it repeats. *)
From Coq Require Import ZArith Reals Lra Lia List String Bool.
From Flocq Require Import Core BinarySingleNaN.
Require Import Verif.Base Verif.Num Verif.F64 Verif.ListLib Verif.Frame Verif.Design_Model Verif.Design_Proofs Verif.Enumerate_Model
  Verif.Rows_Model Verif.Periods_Model Verif.Trimmed_Model Verif.Cuped_Model Verif.Cupedplot_Model Verif.Trimmed_Spec Verif.Trimmed_Props Verif.Cupedplot_Props Verif.Pivot_Model Verif.Analysis_Model.
Import ListNotations.
Open Scope string_scope.
Open Scope list_scope.
Open Scope Z_scope.

Definition is_value_error {A} (r : result A) : bool := match r with Err (ValueError _) => true | _ => false end.

(* ------------------------------------------------------------------ *)
(** *** experiment_analysis_test.py *)
(** experiment_analysis_test.py:33-52 *)
Example test_get_weeks_between : map (fun w => get_weeks_between w 4 8) [1; 4; 5; 8; 10] = [false; true; true; true; false].
Proof. reflexivity. Qed.

(** experiment_analysis_test.py:473-635 *)
Definition time_design (crossover : bool) (runtime pretest : Z) (washout : option Z) : params :=
  mkParams 1000 runtime "clicks" pretest crossover f0 f0 (flit 1 10) washout (flit 5 100) (flit 8 10) None.
Definition week_frame : frame := [("week_id", map CZ [-2; -1; 0; 1; 2; 3; 4])].
Definition periods_of (p : params) (start : Z) : result (list cell) :=
  let! f := add_time_period_column week_frame p start "week_id" "time_period" in
  match get_col "time_period" f with Some c => Ok c | None => Err (KeyError "time_period") end.
Definition T (s : string) := CStr s.
Example test_regular_without_pretest :
  periods_of (time_design false 4 0 None) 0 = Ok [CNull; CNull; T "test"; T "test"; T "test"; T "test"; CNull].
Proof. reflexivity. Qed.
Example test_regular_with_pretest :
  periods_of (time_design false 4 2 None) 0 = Ok [T "pretest"; T "pretest"; T "test"; T "test"; T "test"; T "test"; CNull].
Proof. reflexivity. Qed.
Example test_crossover_without_pretest :
  periods_of (time_design true 4 0 (Some 1)) 0 = Ok [CNull; CNull; T "washout_1"; T "test_1"; T "washout_2"; T "test_2"; CNull].
Proof. reflexivity. Qed.
Example test_crossover_with_pretest :
  periods_of (time_design true 4 2 (Some 1)) 0 =
  Ok [T "pretest"; T "pretest"; T "washout_1"; T "test_1"; T "washout_2"; T "test_2"; CNull].
Proof. reflexivity. Qed.
Example test_start_week :
  periods_of (time_design false 4 0 None) 1 = Ok [CNull; CNull; CNull; T "test"; T "test"; T "test"; T "test"].
Proof. reflexivity. Qed.

(** experiment_analysis_test.py:638-683 *)
Definition pivot_data : frame :=
  [("item_id", map CStr ["1"; "1"; "1"; "1"; "1"; "1"; "1"; "2"; "2"; "2"; "2"; "2"]);
   ("treatment", map CZ [1; 1; 1; 1; 1; 1; 1; 0; 0; 0; 0; 0]);
   ("week_id", map CZ [-2; 0; 1; 2; 2; 3; 4; -1; 1; 1; 5; 7]);
   ("clicks", map CZ (repeat 2 12)); ("impressions", map CZ (repeat 3 12))].
Definition pivot_test (f : frame) (p : params) (treat : option string) :=
  snd (pivot_time_assignment f p 0 ["clicks"; "impressions"] "item_id" "week_id" treat "time_period").
(** experiment_analysis_test.py:685-813 *)
Definition without (c : string) : frame := filter (fun x => negb (String.eqb (fst x) c)) pivot_data.
Example test_pivot_raises :
  let crossed := time_design true 6 2 (Some 1) in
  forallb is_value_error [pivot_test (("time_period", repeat (T "already existing column") 12) :: pivot_data) (time_design false 6 2 None) None;
    pivot_test (without "clicks") crossed None; pivot_test (without "item_id") crossed None; pivot_test (without "week_id") crossed None;
    pivot_test (without "treatment") crossed (Some "treatment")] = true /\
  is_value_error (pivot_test (without "treatment") crossed None) = false.
Proof. split; vm_compute; reflexivity. Qed.

(** a table whose rows are, per item, the totals of clicks divided by the weeks of each period, then those of impressions:
    [periods] in the order of the table with their numbers of weeks, [counts] the rows of the data per item and period *)
Definition averages (periods : list (string * Z)) (counts : list (akey * list Z)) : list (string * string) * list (akey * list R) :=
  (list_prod ["clicks"; "impressions"] (map fst periods),
   map (fun kc => (fst kc, flat_map (fun each => map (fun pc => (IZR (each * snd pc) / IZR (snd (fst pc)))%R) (combine periods (snd kc))) [2; 3]%Z)) counts).
Definition pivots_to (r : result (table akey)) (e : list (string * string) * list (akey * list R)) : Prop :=
  exists t, r = Ok t /\ t_cols t = fst e /\ Forall2 (fun row want => fst row = fst want /\ snd row = map Fin (snd want)) (t_rows t) (snd e).

Ltac pivot_step := cbv -[Rlt_bool Rle_bool Req_bool Rplus Rmult Rdiv Rinv Rminus Ropp IZR INR sqrt].
Ltac pivot_decide := first [rewrite Req_bool_false by lra | rewrite Req_bool_true by lra].
Ltac pivot_run :=
  eexists; split; [pivot_step; repeat (pivot_decide; pivot_step); reflexivity|];
  split; [reflexivity|]; repeat (apply Forall2_cons || apply Forall2_nil); split; try reflexivity;
  pivot_step; repeat (apply f_equal2; [f_equal; lra|]); reflexivity.

(** experiment_analysis_test.py:815-842 *)
Example test_pivot_regular :
  pivots_to (pivot_test pivot_data (time_design false 6 2 None) None)
    (averages [("pretest", 2); ("test", 6)] [(("1", []), [1; 6]); (("2", []), [1; 3])]).
Proof. pivot_run. Qed.
(** experiment_analysis_test.py:844-869 *)
Example test_pivot_regular_without_pretest :
  pivots_to (pivot_test pivot_data (time_design false 6 0 None) None) (averages [("test", 6)] [(("1", []), [6]); (("2", []), [3])]).
Proof. pivot_run. Qed.
(** experiment_analysis_test.py:871-900 *)
Example test_pivot_regular_shorter :
  pivots_to (pivot_test pivot_data (time_design false 3 2 None) None)
    (averages [("pretest", 2); ("test", 3)] [(("1", []), [1; 4]); (("2", []), [1; 2])]).
Proof. pivot_run. Qed.
(** experiment_analysis_test.py:902-939; the columns are in alphabetical order *)
Example test_pivot_crossover :
  pivots_to (pivot_test pivot_data (time_design true 6 2 (Some 1)) None)
    (averages [("pretest", 2); ("test_1", 2); ("test_2", 2); ("washout_1", 1); ("washout_2", 1)]
       [(("1", []), [1; 3; 1; 1; 1]); (("2", []), [1; 2; 1; 0; 0])]).
Proof. pivot_run. Qed.
(** experiment_analysis_test.py:941-980 *)
Example test_pivot_crossover_longer_washout :
  pivots_to (pivot_test pivot_data (time_design true 6 2 (Some 2)) None)
    (averages [("pretest", 2); ("test_1", 1); ("test_2", 1); ("washout_1", 2); ("washout_2", 2)]
       [(("1", []), [1; 2; 0; 2; 2]); (("2", []), [1; 0; 1; 2; 0])]).
Proof. pivot_run. Qed.
(** experiment_analysis_test.py:982-1017 *)
Example test_pivot_crossover_without_pretest :
  pivots_to (pivot_test pivot_data (time_design true 6 0 (Some 1)) None)
    (averages [("test_1", 2); ("test_2", 2); ("washout_1", 1); ("washout_2", 1)]
       [(("1", []), [3; 1; 1; 1]); (("2", []), [2; 1; 0; 0])]).
Proof. pivot_run. Qed.
(** experiment_analysis_test.py:1019-1058 *)
Example test_pivot_crossover_shorter :
  pivots_to (pivot_test pivot_data (time_design true 4 2 (Some 1)) None)
    (averages [("pretest", 2); ("test_1", 1); ("test_2", 1); ("washout_1", 1); ("washout_2", 1)]
       [(("1", []), [1; 1; 1; 1; 2]); (("2", []), [1; 2; 0; 0; 0])]).
Proof. pivot_run. Qed.
(** experiment_analysis_test.py:1060-1090 *)
Example test_pivot_keeps_the_treatment :
  pivots_to (pivot_test pivot_data (time_design true 4 2 (Some 1)) (Some "treatment"))
    (averages [("pretest", 2); ("test_1", 1); ("test_2", 1); ("washout_1", 1); ("washout_2", 1)]
       [(("1", [1]), [1; 1; 1; 1; 2]); (("2", [0]), [1; 2; 0; 0; 0])]) /\
  pivots_to (pivot_test pivot_data (time_design false 4 2 (Some 1)) (Some "treatment"))
    (averages [("pretest", 2); ("test", 4)] [(("1", [1]), [1; 5]); (("2", [0]), [1; 2])]).
Proof. split; pivot_run. Qed.

(* ------------------------------------------------------------------ *)
(** *** experiment_simulations_test.py *)
(** experiment_simulations_test.py:32-92 *)
Definition is_enumerated (p : params) (expected : Z * f64) : bool :=
  (n_before p =? 500) && (runtime p =? fst expected) && String.eqb (metric p) "clicks" && (pretest p =? 1) && crossover p &&
  feqb (top p) (snd expected) && feqb (bottom p) f0 && feqb (post p) (flit 25 1000) &&
  match washout p with Some w => w =? 1 | None => false end.
Example test_generate_all_valid_designs :
  match generate_all_valid_designs 500 true false [6; 8] [1] [f0; flit 1 10] [f0] [flit 25 1000] "clicks" (Some 1) with
  | Ok ds => map (fun de => is_enumerated (par (fst de)) (snd de)) (combine ds [(6, f0); (6, flit 1 10); (8, f0); (8, flit 1 10)]) =
             [true; true; true; true] /\ List.length ds = 4%nat
  | Err _ => False
  end.
Proof. vm_compute. split; reflexivity. Qed.
(** experiment_simulations_test.py:94-119; of the 16 combinations 10 are left *)
Example test_no_pretrimming_without_pretest :
  match generate_all_valid_designs 500 true false [6; 8] [0; 1] [f0; flit 1 10] [f0; flit 1 10] [flit 25 1000] "clicks" (Some 1) with
  | Ok ds => existsb (fun d => andb (pretest (par d) =? 0) (orb (fgtb (top (par d)) f0) (fgtb (bottom (par d)) f0))) ds = false /\
             List.length ds = 10%nat
  | Err _ => False
  end.
Proof. vm_compute. split; reflexivity. Qed.
(** experiment_simulations_test.py:238-255 *)
Example test_minimum_start_week :
  calculate_minimum_start_week_id [4; 6] [0; 2; 4] [-6; -5; -4; -3; -2; -1; 0; 1; 2; 3] = Ok (-2) /\
  is_value_error (calculate_minimum_start_week_id [4; 6] [0; 2; 4] [-6; -5; -4; -3; -2; -1; 0; 1; 2]) = true.
Proof. split; reflexivity. Qed.

(** experiment_simulations_test.py:345-421 *)
Definition effect_design (crossover : bool) : params :=
  mkParams 400 4 "clicks" 1 crossover f0 f0 f0 (Some 1) (flit 5 100) (flit 8 10) None.
Definition effect_table (cols : list string) (rows : list (akey * list R)) : table akey :=
  mkT (map (fun c => ("clicks", c)) cols) (map (fun r => (fst r, map Fin (snd r))) rows).
Definition add_effect (t : table akey) (crossover : bool) := apply_synthetic_treatment_effect key_arm t true (effect_design crossover) "clicks" (Fin (1/2)).
Open Scope R_scope.
Example test_effect_regular :
  exists a b, add_effect (effect_table ["test"] [(("1", [0%Z]), [0]); (("2", [1%Z]), [1/10]); (("3", [0%Z]), [5/10]); (("4", [1%Z]), [2/10])]) false =
    Ok (effect_table ["test"] [(("1", [0%Z]), [0]); (("2", [1%Z]), [a]); (("3", [0%Z]), [5/10]); (("4", [1%Z]), [b])]) /\
    a = 6/10 /\ b = 7/10.
Proof. do 2 eexists. split; [reflexivity|]. split; lra. Qed.
Example test_effect_crossover :
  exists a b c d, add_effect (effect_table ["test_1"; "test_2"]
      [(("1", [0%Z]), [0; 3/10]); (("2", [1%Z]), [1/10; 2/10]); (("3", [0%Z]), [5/10; 9/10]); (("4", [1%Z]), [2/10; 8/10])]) true =
    Ok (effect_table ["test_1"; "test_2"]
      [(("1", [0%Z]), [0; a]); (("2", [1%Z]), [b; 2/10]); (("3", [0%Z]), [5/10; c]); (("4", [1%Z]), [d; 8/10])]) /\
    a = 8/10 /\ b = 6/10 /\ c = 14/10 /\ d = 7/10.
Proof. do 4 eexists. split; [reflexivity|]. repeat split; lra. Qed.
(** experiment_simulations_test.py:423-520 *)
Example test_effect_raises :
  is_value_error (add_effect (effect_table ["test_wrong_name"] []) false) = true /\ is_value_error (add_effect (effect_table ["test_1"] []) true) = true /\
  is_value_error (add_effect (effect_table ["test_2"] []) true) = true /\
  is_value_error (apply_synthetic_treatment_effect key_arm (effect_table ["test"] []) false (effect_design false) "clicks" (Fin (1/2))) = true.
Proof. repeat split; reflexivity. Qed.

(* ------------------------------------------------------------------ *)
(** *** plotting_test.py *)
(** plotting_test.py:122-198; the expected numbers are written to six places there *)
Definition cuped_rows : list Cupedplot_Model.prow :=
  map (fun x => let '(i, d, p, v) := x in mkPR i (Some d) p (Fin v))
    [("A", 1%Z, "pretest", 25); ("A", 2%Z, "test", 26); ("A", 3%Z, "test", 17);
     ("B", 1%Z, "pretest", 28); ("B", 2%Z, "test", 27); ("B", 3%Z, "test", 29);
     ("C", 1%Z, "pretest", 17); ("C", 2%Z, "test", 28); ("C", 3%Z, "test", 16)].
Definition near (x : num) (c : R) : Prop := exists v, x = Fin v /\ c - 1/1000000 <= v <= c + 1/1000000.
Ltac cuped_decide := first
  [ rewrite Req_bool_false by lra | rewrite Req_bool_true by lra | rewrite Rle_bool_true by lra | rewrite Rle_bool_false by lra
  | rewrite Rlt_bool_false by lra | rewrite Rlt_bool_true by lra ].
Definition cuped_expected : list R :=
  [23333333/1000000; 26206186/1000000; 15393471/1000000; 23333333/1000000; 27577320/1000000; 24501718/1000000;
   23333333/1000000; 27216495/1000000; 22104811/1000000].
Lemma ndiv_nonzero : forall a b, b <> 0 -> ndiv (Fin a) (Fin b) = Fin (a / b).
Proof. intros a b H. simpl. rewrite Req_bool_false by exact H. reflexivity. Qed.
Lemma nmean_3 : forall a b c, nmean (map Fin [a; b; c]) = Fin ((a + b + c) / 3).
Proof.
  intros a b c. unfold nmean. cbn [map List.length nsum nadd fold_right]. rewrite ndiv_nonzero by (simpl; lra). f_equal. simpl. field.
Qed.
Lemma np_cov_3 : forall a b c x y z,
  np_cov (map Fin [a; b; c]) (map Fin [x; y; z]) =
  Fin (((a - (a + b + c) / 3) * (x - (x + y + z) / 3) + (b - (a + b + c) / 3) * (y - (x + y + z) / 3) + (c - (a + b + c) / 3) * (z - (x + y + z) / 3)) / 2).
Proof.
  intros. unfold np_cov. rewrite !nmean_3. cbn [List.length map]. change (Z.max 0 (Z.of_nat 3 - 1)) with 2%Z.
  rewrite ndiv_nonzero by lra. unfold ndot. cbn [map combine fst snd nsub nneg nadd nmul nsum fold_right]. f_equal. field.
Qed.
Lemma adjusted_3 : forall a b c x y z theta,
  (x - (x + y + z) / 3) * (x - (x + y + z) / 3) + (y - (x + y + z) / 3) * (y - (x + y + z) / 3) + (z - (x + y + z) / 3) * (z - (x + y + z) / 3) <> 0 ->
  theta = (((a - (a + b + c) / 3) * (x - (x + y + z) / 3) + (b - (a + b + c) / 3) * (y - (x + y + z) / 3) + (c - (a + b + c) / 3) * (z - (x + y + z) / 3)) / 2) /
    (((x - (x + y + z) / 3) * (x - (x + y + z) / 3) + (y - (x + y + z) / 3) * (y - (x + y + z) / 3) + (z - (x + y + z) / 3) * (z - (x + y + z) / 3)) / 2) ->
  adjusted (map Fin [a; b; c]) (map Fin [x; y; z]) =
  map Fin [a - theta * (x - (x + y + z) / 3); b - theta * (y - (x + y + z) / 3); c - theta * (z - (x + y + z) / 3)].
Proof.
  intros a b c x y z theta H E. unfold adjusted. rewrite !np_cov_3, !nmean_3, ndiv_nonzero by lra. rewrite <- E.
  unfold zip_with. cbn [map combine fst snd nsub nneg nadd nmul].
  repeat (apply f_equal2; [f_equal; ring|]). reflexivity.
Qed.
Ltac cuped_by th := rewrite (adjusted_3 _ _ _ _ _ _ th); [cbn [map]; repeat (apply f_equal2; [f_equal; lra|]); reflexivity|lra|field_simplify_eq; lra].
Example cuped_date_1 : adjusted (map Fin [25; 28; 17]) (map Fin [25; 28; 17]) = map Fin [70/3; 70/3; 70/3].
Proof. cuped_by (1). Qed.
Example cuped_date_2 : adjusted (map Fin [26; 27; 28]) (map Fin [25; 28; 17]) = map Fin [2542/97; 2675/97; 2640/97].
Proof. cuped_by (-12/97). Qed.
Example cuped_date_3 : adjusted (map Fin [17; 29; 16]) (map Fin [25; 28; 17]) = map Fin [8959/582; 7130/291; 12865/582].
Proof. cuped_by (187/194). Qed.
Example test_cuped_adjustment :
  forall argsort empty, sorts argsort -> List.length empty = 9%nat ->
  exists c, add_cuped argsort empty cuped_rows = Ok c /\ Forall2 near c cuped_expected.
Proof.
  intros argsort empty HS HL.
  assert (TA : forall i x, In (i, x) [("A", 25); ("B", 28); ("C", 17)] -> pretest_total cuped_rows i = Fin x).
  { intros i x [E|[E|[E|[]]]]; injection E as <- <-; unfold pretest_total, skipna_sum; cbn; f_equal; lra. }
  assert (D : forall d m, (d = 1%Z /\ m = [25; 28; 17]) \/ (d = 2%Z /\ m = [26; 27; 28]) \/ (d = 3%Z /\ m = [17; 29; 16]) ->
    forall column, adjust_date argsort cuped_rows column (Some d) =
      Ok (assign (map (on_date (Some d)) cuped_rows) (adjusted (map Fin m) (map Fin [25; 28; 17])) column)).
  { intros d m H column. unfold adjust_date.
    replace (Cupedplot_Model.select (map (on_date (Some d)) cuped_rows) (map p_value cuped_rows)) with (map Fin m)
      by (destruct H as [[-> ->]|[[-> ->]|[-> ->]]]; reflexivity).
    replace (Cupedplot_Model.select (map (on_date (Some d)) cuped_rows) (map (fun r => pretest_total cuped_rows (p_item r)) cuped_rows)) with (map Fin [25; 28; 17]).
    - rewrite (cuped_0 argsort (map Fin m) (map Fin [25; 28; 17]) HS); [reflexivity| | |];
        destruct H as [[-> ->]|[[-> ->]|[-> ->]]]; simpl; lia.
    - replace (map (fun r => pretest_total cuped_rows (p_item r)) cuped_rows) with (map Fin [25; 25; 25; 28; 28; 28; 17; 17; 17]).
      + destruct H as [[-> ->]|[[-> ->]|[-> ->]]]; reflexivity.
      + unfold cuped_rows at 2. cbn [map p_item]. rewrite (TA "A" 25), (TA "B" 28), (TA "C" 17) by (simpl; tauto). reflexivity. }
  unfold add_cuped. change (negb (existsb is_pretest cuped_rows)) with false. cbn [raise_if bind].
  change (distinct_dates (map p_date cuped_rows)) with [Some 1%Z; Some 2%Z; Some 3%Z]. cbn [adjust_dates].
  rewrite (D 1%Z [25; 28; 17]) by tauto. cbn [bind]. rewrite (D 2%Z [26; 27; 28]) by tauto. cbn [bind].
  rewrite (D 3%Z [17; 29; 16]) by tauto. cbn [bind]. rewrite cuped_date_1, cuped_date_2, cuped_date_3.
  eexists. split; [reflexivity|].
  do 9 (destruct empty as [|? empty]; [discriminate|]). destruct empty; [|discriminate].
  unfold cuped_expected. cbn. repeat (apply Forall2_cons || apply Forall2_nil); eexists; (split; [reflexivity|lra]).
Qed.
(** plotting_test.py:201-208 *)
Example test_cuped_without_pretest :
  forall argsort empty, is_value_error (add_cuped argsort empty (map (fun r => mkPR (p_item r) (p_date r) "test" (p_value r)) cuped_rows)) = true.
Proof. reflexivity. Qed.
