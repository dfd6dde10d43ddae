(** Tests of the model, not theorems: the cases of /repo/feedx/experiment_design_test.py and
    /repo/feedx/data_preparation_test.py whose inputs and expected results are written out there, run on the
    model.  Each example cites the test it repeats.  Days are counted from 2023-10-01 = [oct 1].

    The tests replace _validate_design by a mock to use two items; the designs below are built without validation for the
    same reason.  A test that expects ValueError is repeated with the name of the check that raises. *)
From Coq Require Import ZArith Reals Lia Lra List String Bool Permutation.
From Flocq Require Import Core BinarySingleNaN.
Require Import Verif.Base Verif.Num Verif.F64 Verif.ListLib Verif.Frame Verif.Design_Model Verif.Design_Proofs
  Verif.Enumerate_Model Verif.Rows_Model Verif.Checks_Model Verif.Standard_Model Verif.Assign_Model Verif.Pipeline_Model
  Verif.Synth_Model Verif.Simulation_Model Verif.Design_Yaml_Proofs.
Import ListNotations.
Open Scope string_scope.
Open Scope list_scope.
Open Scope Z_scope.

(** compute everything but the reals, deciding comparisons with lra *)
Ltac step_real := cbv -[Rlt_bool Rle_bool Req_bool Rplus Rmult Rdiv Rinv Rminus Ropp IZR INR sqrt].
Ltac decide_real := first
  [ rewrite Rlt_bool_true by lra | rewrite Rlt_bool_false by lra
  | rewrite Rle_bool_true by lra | rewrite Rle_bool_false by lra
  | rewrite Req_bool_true by lra | rewrite Req_bool_false by lra ].
Ltac run_real := step_real; repeat (decide_real; step_real); try reflexivity.

(* ------------------------------------------------------------------ *)
(** *** experiment_design_test.py *)
Definition test_params (n runtime pretest : Z) (crossover : bool) (top bottom post : f64) (washout : option Z) : params :=
  mkParams n runtime "clicks" pretest crossover top bottom post washout (flit 5 100) (flit 8 10) None.

(** experiment_design_test.py:32-81 *)
Example test_numbers_of_items :
  let p := test_params 1000 6 4 true (flit 1 10) (flit 3 10) (flit 2 10) (Some 2) in
  mk_design p = Ok (mkDesignRec p 600 360) /\ salt p = None.
Proof. split; [apply mk_design_check; vm_compute; reflexivity|reflexivity]. Qed.

(** experiment_design_test.py:83-176: every invalid argument raises ValueError *)
Definition is_value_error {A} (r : result A) : bool := match r with Err (ValueError _) => true | _ => false end.
Example test_invalid_arguments :
  forallb (fun p => is_value_error (mk_design p))
    [ test_params 49 6 4 true f0 f0 f0 (Some 1);
      test_params 100 6 4 true (flit 95 100) f0 f0 (Some 1);
      test_params 100 0 4 true f0 f0 f0 (Some 1);
      test_params 100 6 (-1) true f0 f0 f0 (Some 1);
      test_params 100 6 4 true f0 f0 (flit (-1) 10) (Some 1);
      test_params 100 6 4 true f0 f0 (flit 1 2) (Some 1);
      test_params 100 6 4 true (flit (-1) 10) f0 f0 (Some 1);
      test_params 100 6 4 true f0 (flit (-1) 10) f0 (Some 1);
      test_params 100 6 4 true (flit 4 10) (flit 6 10) f0 (Some 1);
      test_params 100 6 4 true f0 f0 f0 None;
      test_params 100 6 4 true f0 f0 f0 (Some (-1));
      test_params 100 4 4 true f0 f0 f0 (Some 3);
      test_params 100 3 4 true f0 f0 f0 (Some 1);
      test_params 100 6 0 true (flit 1 10) f0 f0 (Some 1) ] = true.
Proof. vm_compute. reflexivity. Qed.
Example test_valid_arguments : is_value_error (mk_design (test_params 100 6 4 true f0 f0 f0 (Some 1))) = false.
Proof. vm_compute. reflexivity. Qed.

(** experiment_design_test.py:649-693 *)
Fixpoint products (n : nat) : list string := match n with O => [] | S k => products k ++ [("Product_" ++ dec (Z.of_nat k))%string] end.
Example test_coinflip_is_always_0_or_1 :
  let flips := map (coinflip_call (mkCoinflipRec "abc")) (products 100) in
  forallb (fun x => orb (x =? 0) (x =? 1)) flips = true /\ existsb (Z.eqb 0) flips = true /\ existsb (Z.eqb 1) flips = true.
Proof. vm_compute. repeat split. Qed.
Example test_coinflip_differs_for_different_salts :
  let flips := map (fun k => coinflip_call (mkCoinflipRec (dec (Z.of_nat k))) "Product_1") (seq 0 100) in
  existsb (Z.eqb 0) flips = true /\ existsb (Z.eqb 1) flips = true.
Proof. vm_compute. repeat split. Qed.
Example test_salt_cannot_be_empty : is_value_error (mk_coinflip "") = true.
Proof. reflexivity. Qed.

(* ------------------------------------------------------------------ *)
(** *** data_preparation_test.py *)
Definition oct (n : Z) : Z := (n - 1) * day.
Definition ints (l : list Z) : list num := map (fun z => Fin (IZR z)) l.

(** data_preparation_test.py:250-281 *)
Definition fill_data := [mkObs "1" (oct 1) (ints [1; 20]); mkObs "1" (oct 2) (ints [2; 21]); mkObs "2" (oct 1) (ints [3; 22]); mkObs "3" (oct 2) (ints [4; 22])].
Example test_fill_missing_rows_with_zeros :
  fill_missing_rows_with_zeros ["item_id"; "date"; "clicks"; "total_conversion_value"] "item_id" "date" 2 fill_data =
  Ok [mkObs "1" (oct 1) (ints [1; 20]); mkObs "1" (oct 2) (ints [2; 21]); mkObs "2" (oct 1) (ints [3; 22]); mkObs "2" (oct 2) (ints [0; 0]);
      mkObs "3" (oct 1) (ints [0; 0]); mkObs "3" (oct 2) (ints [4; 22])].
Proof. reflexivity. Qed.
Example test_fill_missing_rows_requires_its_columns :
  is_value_error (fill_missing_rows_with_zeros ["date"; "clicks"; "total_conversion_value"] "item_id" "date" 2 fill_data) = true /\
  is_value_error (fill_missing_rows_with_zeros ["item_id"; "clicks"; "total_conversion_value"] "item_id" "date" 2 fill_data) = true.
Proof. split; reflexivity. Qed.

(** data_preparation_test.py:323-357 *)
Definition down_data := map (fun ic => mkObs (fst ic) 0 (ints [snd ic]))
  [("1", 1); ("1", 2); ("2", 3); ("2", 4); ("3", 5); ("3", 6); ("4", 7); ("4", 8)].
Definition first_items (pop : list string) (n : Z) : list string := firstn (Z.to_nat n) pop.
Example test_downsampling_by_1_keeps_the_data :
  downsample_items o_item ["item_id"; "clicks"] "item_id" f1 first_items down_data = Ok down_data.
Proof. reflexivity. Qed.
Example test_downsampling_errors :
  forallb is_value_error [downsample_items o_item ["clicks"] "item_id" (flit 1 2) first_items down_data;
    downsample_items o_item ["item_id"; "clicks"] "item_id" (flit (-1) 10) first_items down_data;
    downsample_items o_item ["item_id"; "clicks"] "item_id" f0 first_items down_data;
    downsample_items o_item ["item_id"; "clicks"] "item_id" (flit 11 10) first_items down_data] = true.
Proof. vm_compute. reflexivity. Qed.

(** data_preparation_test.py:359-769: one data set per test *)
Definition by_date (l : list (Z * Z)) : list (Z * Z) := isort (fun a b => Z.leb (snd a) (snd b)) l.
Definition cells (l : list num) : list cell := map CNum l.
Definition historical (dates weeks : list Z) (items : list string) (clicks : list num) (skip : list string) : result unit :=
  validate_historical_data by_date
    (mkV [map CZ dates; map CZ weeks; map CStr items; cells clicks] items dates weeks []
       (fun m => if String.eqb m "clicks" then Some clicks else None)) "clicks" skip.
Definition four := [oct 1; oct 1; oct 2; oct 2].
Definition ids := ["1"; "2"; "1"; "2"].
Example test_historical_good_daily : historical four [1; 1; 2; 2] ids (ints [1; 2; 3; 4]) [] = Ok tt.
Proof. run_real. Qed.
Example test_historical_good_weekly : historical [oct 1; oct 1; oct 8; oct 8] [1; 1; 2; 2] ids (ints [1; 2; 3; 4]) [] = Ok tt.
Proof. run_real. Qed.
Example test_historical_unknown_check :
  is_value_error (historical [oct 1; oct 1; oct 8; oct 8] [1; 1; 2; 2] ids (ints [1; 2; 3; 4]) ["unknown_check"]) = true.
Proof. run_real. Qed.
Example test_historical_unique :
  let h := historical [oct 1; oct 1; oct 2; oct 2; oct 2] [1; 1; 2; 2; 2] ["1"; "2"; "1"; "2"; "2"] (ints [1; 2; 3; 4; 5]) in
  h [] = Err (ValueError "no_duplicate_items_per_date") /\ h ["no_duplicate_items_per_date"] = Ok tt.
Proof. split; run_real. Qed.
Example test_historical_every_combination :
  let h := historical [oct 1; oct 1; oct 2] [1; 1; 2] ["1"; "2"; "1"] (ints [1; 2; 3]) in
  h [] = Err (ValueError "no_duplicate_items_per_date") /\ h ["no_duplicate_items_per_date"] = Ok tt.
Proof. split; run_real. Qed.
Example test_historical_no_nulls :
  let h := historical four [1; 1; 2; 2] ids [Fin 1; Fin 2; Fin 3; NaN] in
  h ["all_metrics_are_finite"; "all_metrics_are_non_negative"] = Err (ValueError "no_nulls") /\
  h ["no_nulls"; "all_metrics_are_finite"; "all_metrics_are_non_negative"] = Ok tt.
Proof. split; run_real. Qed.
Example test_historical_daily_or_weekly :
  let h := historical [oct 1; oct 1; oct 3; oct 3] [1; 1; 2; 2] ids (ints [1; 2; 3; 4]) in
  h [] = Err (ValueError "dates_are_daily_or_weekly") /\ h ["dates_are_daily_or_weekly"] = Ok tt.
Proof. split; run_real. Qed.
Example test_historical_aligned :
  let h := historical four [2; 2; 1; 1] ids (ints [1; 2; 3; 4]) in
  h [] = Err (ValueError "week_ids_are_consecutive_integers") /\ h ["week_ids_are_consecutive_integers"] = Ok tt.
Proof. split; run_real. Qed.
Example test_historical_finite :
  let h := historical four [1; 1; 2; 2] ids [Fin 1; Fin 2; Fin 3; PInf] in
  h [] = Err (ValueError "all_metrics_are_finite") /\ h ["all_metrics_are_finite"] = Ok tt.
Proof. split; run_real. Qed.
Example test_historical_non_negative :
  let h := historical four [1; 1; 2; 2] ids (ints [1; 2; 3; -1]) in
  h [] = Err (ValueError "all_metrics_are_non_negative") /\ h ["all_metrics_are_non_negative"] = Ok tt.
Proof. split; run_real. Qed.
Example test_historical_consecutive :
  let h := historical four [1; 1; 3; 3] ids (ints [1; 2; 3; 1]) in
  h [] = Err (ValueError "week_ids_are_consecutive_integers") /\ h ["week_ids_are_consecutive_integers"] = Ok tt.
Proof. split; run_real. Qed.

(** data_preparation_test.py:771-1762; two items with the salt "ab12".  [p_value] stands for the p-value of scipy's binomial test. *)
Definition test_design (n runtime pretest : Z) : design :=
  mkDesignRec (mkParams n runtime "clicks" pretest false f0 f0 f0 None (flit 5 100) (flit 8 10) (Some "ab12")) n n.
Definition experiment_check (dates weeks : list Z) (items : list string) (clicks impressions : list num) (arms : list Z)
    (d : design) (metrics : list string) (concluded : bool) (negative_ok skip : list string) : result unit :=
  validate_experiment_data by_date (fun _ _ => Ok (Fin 1))
    (mkV [map CZ dates; map CZ weeks; map CStr items; cells clicks; cells impressions; map CZ arms] items dates weeks arms
       (fun m => if String.eqb m "clicks" then Some clicks else if String.eqb m "impressions" then Some impressions else None))
    d metrics (oct 1) concluded negative_ok skip.
(** the salt of the tests assigns item 1 to control and item 2 to treatment *)
Example test_salt : coinflip_call (mkCoinflipRec "ab12") "1" = 0 /\ coinflip_call (mkCoinflipRec "ab12") "2" = 1 /\
  coinflip_call (mkCoinflipRec "ab12") "3" = 1.
Proof. vm_compute. repeat split. Qed.
Lemma the_threshold : exists t, srm_threshold = Fin t /\ (t <= 1)%R.
Proof.
  eexists. split; [reflexivity|]. apply Rle_trans with (rnd 1); [apply rnd_le; lra|].
  rewrite (rnd_IZR 1) by (simpl; lia). apply Rle_refl.
Qed.
(** with the values of the coinflip and the threshold kept abstract *)
Ltac step_check := cbv -[Rlt_bool Rle_bool Req_bool Rplus Rmult Rdiv Rinv Rminus Ropp IZR INR sqrt srm_threshold coinflip_call].
Ltac decide_coin := match goal with |- context [coinflip_call ?c ?s] =>
  let v := eval vm_compute in (coinflip_call c s) in
  let E := fresh in assert (E : coinflip_call c s = v) by (vm_compute; reflexivity);
  revert E; generalize (coinflip_call c s); intros ? -> end.
Ltac run_check_test :=
  destruct the_threshold as (t & Et & Bt);
  step_check; repeat (first [decide_coin | decide_real | rewrite Et]; step_check); try reflexivity.

Definition weekly := [oct 1; oct 1; oct 8; oct 8].
Definition clicks4 := ints [1; 2; 3; 4].
Definition impr4 := ints [10; 12; 13; 14].
Definition both := ["clicks"; "impressions"].
Definition arms4 := [0; 1; 0; 1].

Example test_experiment_good_daily :
  experiment_check four [1; 1; 2; 2] ids clicks4 impr4 arms4 (test_design 2 1 0) both true [] [] = Ok tt.
Proof. run_check_test. Qed.
Example test_experiment_good_weekly :
  experiment_check weekly [1; 1; 2; 2] ids clicks4 impr4 arms4 (test_design 2 2 0) both true [] [] = Ok tt.
Proof. run_check_test. Qed.
Example test_experiment_unique :
  let h := experiment_check (weekly ++ [oct 8]) [1; 1; 2; 2; 2] (ids ++ ["2"]) (ints [1; 2; 3; 4; 5]) (ints [10; 12; 13; 14; 15]) [0; 1; 0; 1; 1]
    (test_design 2 2 0) both true [] in
  h [] = Err (ValueError "no_duplicate_items_per_date") /\ h ["no_duplicate_items_per_date"] = Ok tt.
Proof. split; run_check_test. Qed.
Example test_experiment_every_combination :
  let h := experiment_check [oct 1; oct 1; oct 8] [1; 1; 2] ["1"; "2"; "1"] (ints [1; 2; 3]) (ints [10; 12; 13]) [0; 1; 0]
    (test_design 2 2 0) both true [] in
  h [] = Err (ValueError "no_duplicate_items_per_date") /\ h ["no_duplicate_items_per_date"] = Ok tt.
Proof. split; run_check_test. Qed.
Example test_experiment_no_nulls :
  let h := experiment_check weekly [1; 1; 2; 2] ids [Fin 1; Fin 2; Fin 3; NaN] [Fin 10; Fin 12; NaN; Fin 14] arms4
    (test_design 2 2 0) both true [] in
  h ["all_metrics_are_finite"; "all_metrics_are_non_negative"] = Err (ValueError "no_nulls") /\
  h ["no_nulls"; "all_metrics_are_finite"; "all_metrics_are_non_negative"] = Ok tt.
Proof. split; run_check_test. Qed.
Example test_experiment_daily_or_weekly :
  let h := experiment_check [oct 1; oct 1; oct 3; oct 3] [1; 1; 2; 2] ids clicks4 impr4 arms4 (test_design 2 2 0) both true [] in
  h [] = Err (ValueError "dates_are_daily_or_weekly").
Proof. run_check_test. Qed.
Example test_experiment_aligned :
  let h := experiment_check weekly [2; 2; 1; 1] ids clicks4 impr4 arms4 (test_design 2 2 0) both true [] in
  h [] = Err (ValueError "week_ids_are_consecutive_integers") /\ h ["week_ids_are_consecutive_integers"] = Ok tt.
Proof. split; run_check_test. Qed.
Example test_experiment_finite :
  let h := experiment_check weekly [1; 1; 2; 2] ids [Fin 1; Fin 2; Fin 3; PInf] [Fin 10; Fin 12; PInf; Fin 14] arms4
    (test_design 2 2 0) both true [] in
  h [] = Err (ValueError "all_metrics_are_finite") /\ h ["all_metrics_are_finite"] = Ok tt.
Proof. split; run_check_test. Qed.
Example test_experiment_non_negative :
  let h := experiment_check weekly [1; 1; 2; 2] ids (ints [1; 2; 3; -1]) impr4 arms4 (test_design 2 2 0) both true in
  h [] [] = Err (ValueError "all_metrics_are_non_negative") /\ h [] ["all_metrics_are_non_negative"] = Ok tt /\ h ["clicks"] [] = Ok tt.
Proof. split; [|split]; run_check_test. Qed.
Example test_experiment_number_of_items :
  let h := experiment_check weekly [1; 1; 2; 2] ids clicks4 impr4 arms4 (test_design 4 2 0) both true [] in
  h [] = Err (ValueError "number_of_items_matches_design") /\ h ["number_of_items_matches_design"] = Ok tt.
Proof. split; run_check_test. Qed.
Example test_experiment_consecutive :
  let h := experiment_check weekly [1; 1; 3; 3] ids (ints [1; 2; 3; 1]) impr4 arms4 (test_design 2 2 0) both true [] in
  h [] = Err (ValueError "week_ids_are_consecutive_integers") /\ h ["week_ids_are_consecutive_integers"] = Ok tt.
Proof. split; run_check_test. Qed.
Example test_experiment_earliest_date :
  let h := experiment_check weekly [1; 1; 2; 2] ids clicks4 impr4 arms4 (test_design 2 2 1) both true [] in
  h [] = Err (ValueError "experiment_dates_match_design") /\ h ["experiment_dates_match_design"] = Ok tt.
Proof. split; run_check_test. Qed.
Example test_experiment_last_date :
  let h := experiment_check weekly [1; 1; 2; 2] ids clicks4 impr4 arms4 (test_design 2 3 0) both in
  h true [] [] = Err (ValueError "experiment_dates_match_design") /\ h true [] ["experiment_dates_match_design"] = Ok tt /\
  h false [] [] = Ok tt.
Proof. split; [|split]; run_check_test. Qed.
Example test_experiment_primary_metric :
  let h := experiment_check weekly [1; 1; 2; 2] ids clicks4 impr4 arms4 (test_design 2 2 0) ["impressions"] true [] in
  h [] = Err (ValueError "primary_metric_in_metrics") /\ h ["primary_metric_in_metrics"] = Ok tt.
Proof. split; run_check_test. Qed.
Example test_experiment_unique_assignment :
  let h := experiment_check weekly [1; 1; 2; 2] ids clicks4 impr4 [0; 1; 1; 1] (test_design 2 2 0) both true [] in
  h ["coinflip_salt_validation"] = Err (ValueError "treatment_assignment_is_unique").
Proof. run_check_test. Qed.
Example test_experiment_salt :
  let h := experiment_check weekly [1; 1; 2; 2] ids clicks4 impr4 [1; 1; 1; 1] (test_design 2 2 0) both true [] in
  h ["no_sample_ratio_mismatch"] = Err (ValueError "coinflip_salt_validation") /\
  h ["coinflip_salt_validation"; "no_sample_ratio_mismatch"] = Ok tt.
Proof. split; run_check_test. Qed.

(** data_preparation_test.py:1810-1880 *)
Definition week_data := map (fun n => mkObs "" (oct n) []) [1; 2; 7; 8; 9; 17].
Example test_week_ids_from_the_first_date :
  map (fun r => (w_week r, w_start r)) (add_weeks None week_data) =
  [(0, oct 1); (0, oct 1); (0, oct 1); (1, oct 8); (1, oct 8); (2, oct 15)].
Proof. vm_compute. reflexivity. Qed.
Example test_week_ids_from_the_start_date :
  map (fun r => (w_week r, w_start r)) (add_weeks (Some (oct 2)) week_data) =
  [(-1, oct (-5)); (0, oct 2); (0, oct 2); (0, oct 2); (1, oct 9); (2, oct 16)].
Proof. vm_compute. reflexivity. Qed.

(** data_preparation_test.py:1882-2013 *)
Definition day_rows (l : list (Z * list Z)) : list wrow := add_weeks None (map (fun dv => mkObs "ABC123" (oct (fst dv)) (ints (snd dv))) l).
Example test_group_daily_data :
  exists a b, group_data_to_complete_weeks 2 (day_rows [(1, [1; 10000]); (2, [50; 500]); (3, [100; 3245234]); (4, [435; 353245]);
    (5, [123; 3245]); (6, [35; 2]); (7, [25; 325]); (8, [34; 354])]) = Ok [mkG 0 (oct 1) "ABC123" [] [Fin a; Fin b]] /\
    a = 769%R /\ b = 3612551%R.
Proof. do 2 eexists. split; [step_real; reflexivity|split; lra]. Qed.
Example test_group_weekly_data :
  group_data_to_complete_weeks 2 (day_rows [(1, [1; 10000]); (8, [50; 500]); (15, [100; 3245234]); (22, [435; 353245])]) =
  Ok [mkG 0 (oct 1) "ABC123" [] (ints [1; 10000]); mkG 1 (oct 8) "ABC123" [] (ints [50; 500]);
      mkG 2 (oct 15) "ABC123" [] (ints [100; 3245234]); mkG 3 (oct 22) "ABC123" [] (ints [435; 353245])].
Proof. reflexivity. Qed.
Example test_group_mixed_data :
  is_value_error (group_data_to_complete_weeks 2 (day_rows [(1, [1; 10000]); (8, [50; 500]); (15, [100; 3245234]); (22, [435; 353245]);
    (2, [50; 500]); (3, [100; 3245234]); (4, [435; 353245]); (5, [123; 3245]); (6, [35; 2]); (7, [25; 325])])) = true.
Proof. reflexivity. Qed.

(** data_preparation_test.py:2018-2037 *)
Example test_at_least_one :
  add_at_least_one_metrics [("clicks", map CZ [0; 1; 0; 3]); ("impressions", map CZ [0; 3; 1; 5])]
    [("clicks", "at_least_one_click"); ("impressions", "at_least_one_impression")] =
  Ok [("clicks", map CZ [0; 1; 0; 3]); ("impressions", map CZ [0; 3; 1; 5]);
      ("at_least_one_click", map CZ [0; 1; 0; 1]); ("at_least_one_impression", map CZ [0; 1; 1; 1])].
Proof. reflexivity. Qed.

(** data_preparation_test.py:2056-2098, after the conversion of the columns *)
Example test_prepare_historical_standard :
  prepare_historical by_date f1 first_items "clicks" "clicks" []
    [mkObs "1" (oct 1) (ints [1]); mkObs "1" (oct 8) (ints [2]); mkObs "2" (oct 1) (ints [3])] =
  Ok [mkG 0 (oct 1) "1" [] (ints [1]); mkG 1 (oct 8) "1" [] (ints [2]); mkG 0 (oct 1) "2" [] (ints [3]); mkG 1 (oct 8) "2" [] (ints [0])].
Proof. run_real. Qed.
Example test_prepare_historical_other :
  prepare_historical by_date f1 first_items "other" "other_metric" []
    [mkObs "1" (oct 1) (ints [5]); mkObs "1" (oct 8) (ints [2]); mkObs "2" (oct 1) (ints [1])] =
  Ok [mkG 0 (oct 1) "1" [] (ints [5]); mkG 1 (oct 8) "1" [] (ints [2]); mkG 0 (oct 1) "2" [] (ints [1]); mkG 1 (oct 8) "2" [] (ints [0])].
Proof. run_real. Qed.
(** data_preparation_test.py:2190-2203 *)
Example test_prepare_historical_unknown_metric :
  is_value_error (prepare_historical by_date f1 first_items "unknown_metric" "clicks" [] []) = true.
Proof. reflexivity. Qed.

(** data_preparation_test.py:2237-2328 with two of the six metrics; in the second case item 3 has no data *)
Definition test_perf := [mkObs "1" (oct 1) (ints [1; 20]); mkObs "1" (oct 8) (ints [2; 21]); mkObs "2" (oct 1) (ints [3; 22])].
Definition prepared_test (items : list (string * Z)) (n : Z) : result (list erow) :=
  prepare_experiment by_date (fun _ _ => Ok (Fin 1)) (fun l => l) test_perf items
    (mkDesignRec (par (test_design 2 2 0)) n n) both (oct 1) true [] [] [].
Definition prepared_rows (l : list (string * Z * Z * (Z * Z) * Z)) : list erow :=
  map (fun x => let '(i, d, w, (c, m), a) := x in mkE i (oct d) [("clicks", Fin (IZR c)); ("impressions", Fin (IZR m))] w (oct d) (Some "test") a) l.
Example test_prepare_experiment :
  prepared_test [("1", 0); ("2", 1)] 2 =
  Ok (prepared_rows [("1", 1, 0, (1, 20), 0); ("1", 8, 1, (2, 21), 0); ("2", 1, 0, (3, 22), 1); ("2", 8, 1, (0, 0), 1)]).
Proof. run_check_test. Qed.
Example test_prepare_experiment_with_missing_item :
  prepared_test [("1", 0); ("2", 1); ("3", 1)] 3 =
  Ok (prepared_rows [("1", 1, 0, (1, 20), 0); ("1", 8, 1, (2, 21), 0); ("2", 1, 0, (3, 22), 1); ("2", 8, 1, (0, 0), 1);
                     ("3", 1, 0, (0, 0), 1); ("3", 8, 1, (0, 0), 1)]).
Proof. run_check_test. Qed.

(** data_preparation_test.py:2495-2538 *)
Definition trim_data : list Z := [10; 4; 1; 6; 3; 4; 2; 2; 5; 7].
Definition trim_test (a b : f64) : result (list Z) := trim_outliers (fun z => Fin (IZR z)) a b (fun n => seq 0 n) trim_data.
Example test_no_trimming : trim_test f0 f0 = Ok trim_data /\ trim_test (flit 1 1000) (flit 1 1000) = Ok trim_data.
Proof. split; vm_compute; reflexivity. Qed.
(** the same ranks computed with whole numbers *)
Definition zrank (l : list Z) (order : list nat) (i : nat) : option Z :=
  Some (1 + Z.of_nat (List.length (filter (fun j => nth i l 0 <? nth j l 0) order))
          + Z.of_nat (List.length (filter (fun j => nth i l 0 =? nth j l 0) (before_in i order)))).
Lemma before_in_incl : forall i l j, In j (before_in i l) -> In j l.
Proof. intros i. induction l as [|k l IH]; simpl; [tauto|]. intros j. destruct (Nat.eqb i k); simpl; intuition. Qed.
Lemma nltb_Z : forall a b, nltb (Fin (IZR a)) (Fin (IZR b)) = (a <? b).
Proof.
  intros a b. simpl. destruct (Z.ltb_spec a b); [apply Rlt_bool_true, IZR_lt; assumption|apply Rlt_bool_false, IZR_le; assumption].
Qed.
Lemma neqb_Z : forall a b, neqb (Fin (IZR a)) (Fin (IZR b)) = (a =? b).
Proof.
  intros a b. simpl. destruct (Z.eqb_spec a b) as [->|H]; [apply Req_bool_true; reflexivity|apply Req_bool_false].
  intros E. apply H, eq_IZR, E.
Qed.
Lemma nth_ints : forall l i, (i < List.length l)%nat -> nth i (ints l) NaN = Fin (IZR (nth i l 0)).
Proof. intros l i H. unfold ints. rewrite (nth_indep _ NaN (Fin (IZR 0))) by (rewrite map_length; exact H). apply (map_nth (fun z => Fin (IZR z))). Qed.
Lemma rank_ints : forall l i, (i < List.length l)%nat ->
  rank_first (fun i => nth i (ints l) NaN) (seq 0 (List.length l)) i = zrank l (seq 0 (List.length l)) i.
Proof.
  intros l i H. unfold rank_first, zrank. rewrite (nth_ints l i H). simpl nis_nan. cbv iota.
  rewrite (filter_ext_in (fun j => nltb (Fin (IZR (nth i l 0))) (nth j (ints l) NaN)) (fun j => nth i l 0 <? nth j l 0)).
  - rewrite (filter_ext_in (fun j => neqb (Fin (IZR (nth i l 0))) (nth j (ints l) NaN)) (fun j => nth i l 0 =? nth j l 0)); [reflexivity|].
    intros j Hj. apply before_in_incl, in_seq in Hj. rewrite (nth_ints l j) by lia. apply neqb_Z.
  - intros j Hj. apply in_seq in Hj. rewrite (nth_ints l j) by lia. apply nltb_Z.
Qed.
Lemma trim_ints : forall {A} (value : A -> Z) data lo hi a b,
  fltb a f0 = false -> fltb b f0 = false -> fgeb (fadd a b) f1 = false ->
  floor_mul' (Z.of_nat (List.length data)) a = Ok lo -> floor_mul' (Z.of_nat (List.length data)) b = Ok hi -> (0 < lo)%Z ->
  trim_outliers (fun x => Fin (IZR (value x))) a b (fun n => seq 0 n) data =
  Ok (loc_rows (fun i => match zrank (map value data) (seq 0 (List.length data)) i with
      | Some r => andb (lo <? r) (r <=? Z.of_nat (List.length data) - hi) | None => false end) data).
Proof.
  intros A value data lo hi a b H1 H2 H3 Ea Eb Hlo. unfold trim_outliers. rewrite H1, H2, H3. simpl bind. rewrite Ea. simpl bind. rewrite Eb. simpl bind.
  replace (lo =? 0) with false by (symmetry; apply Z.eqb_neq; lia). cbv [andb]. cbv iota. f_equal. unfold loc_rows. f_equal. apply filter_ext_in.
  intros [i x] Hi. apply in_combine_l, in_seq in Hi. simpl fst.
  replace (map (fun x => Fin (IZR (value x))) data) with (ints (map value data)) by (unfold ints; apply map_map).
  replace (List.length data) with (List.length (map value data)) by apply map_length.
  rewrite rank_ints by (rewrite map_length; lia). reflexivity.
Qed.
Example test_expected_rows_are_trimmed : trim_test (flit 2 10) (flit 1 10) = Ok [4; 6; 3; 4; 2; 2; 5].
Proof.
  unfold trim_test. rewrite (trim_ints (fun z => z) trim_data 2 1) by (vm_compute; reflexivity). vm_compute. reflexivity.
Qed.
(** data_preparation_test.py:2655-2669: of the items 0 to 99 with as many clicks each those from 10 to 79 are left *)
Example test_pre_trimming_of_the_assignment :
  trim_outliers (fun z => Fin (IZR z)) (flit 2 10) (flit 1 10) (fun n => seq 0 n) (map Z.of_nat (seq 0 100)) = Ok (map Z.of_nat (seq 10 70)).
Proof.
  rewrite (trim_ints (fun z => z) _ 20 10) by (vm_compute; reflexivity). vm_compute. reflexivity.
Qed.
(** data_preparation_test.py:2563-2611 *)
Definition assignment_design : design :=
  mkDesignRec (mkParams 100 6 "clicks" 1 true (flit 2 10) (flit 1 10) f0 (Some 1) (flit 5 100) (flit 8 10) None) 70 70.
Definition assignment_test (cols : list string) (item : string) (week : option string) :=
  snd (perform_treatment_assignment (fun _ _ => Ok (Fin 1)) cols item week "treatment_assignment" (fun n => seq 0 n) [] assignment_design []).
Example test_assignment_raises :
  forallb is_value_error [assignment_test ["week_id"; "clicks"] "item_id" (Some "week_id");
    assignment_test ["item_id"; "clicks"] "item_id" (Some "week_id");
    assignment_test ["item_id"; "week_id"; "clicks"] "item_id" None;
    assignment_test ["item_id"; "week_id"; "clicks"] "treatment_assignment" (Some "week_id");
    assignment_test ["treatment_assignment"; "week_id"; "clicks"] "treatment_assignment" (Some "week_id")] = true.
Proof. vm_compute. reflexivity. Qed.
(** data_preparation_test.py:106-190, with the effects of the defaults (0.1 on the impressions, 0.2 on the others) *)
Definition ones (n : nat) : list cell := repeat (CNum (Fin 1)) n.
Definition effect_frame (periods : list cell) : frame :=
  [("time_period", periods ++ periods); ("treatment_assignment", map CZ (repeat 0 (List.length periods) ++ repeat 1 (List.length periods)));
   ("impressions", ones (2 * List.length periods)); ("clicks", ones (2 * List.length periods)); ("total_cost", ones (2 * List.length periods));
   ("conversions", ones (2 * List.length periods)); ("total_conversion_value", ones (2 * List.length periods))].
Definition effects_test (periods : list cell) : result frame :=
  add_relative_effects (effect_frame periods) "time_period" "treatment_assignment" (1/10) (2/10) (2/10) (2/10) (2/10).
Definition scaled (k : R) (treated : list bool) : list cell := map (fun b : bool => CNum (Fin (if b then 1 * (1 + k) else 1)%R)) treated.
Definition effects_expected (periods : list cell) (treated : list bool) : frame :=
  map (fun c => if String.eqb (fst c) "time_period" then c else if String.eqb (fst c) "treatment_assignment" then c
                else (fst c, scaled (if String.eqb (fst c) "impressions" then 1/10 else 2/10)%R treated)) (effect_frame periods).
Example test_effects_crossover :
  let periods := [CStr "pretest"; CStr "washout_1"; CStr "test_1"; CStr "washout_2"; CStr "test_2"; CNull] in
  effects_test periods =
  Ok (effects_expected periods [false; false; false; true; true; false; false; true; true; false; false; false]).
Proof. run_real. Qed.
Example test_effects_regular :
  let periods := [CStr "pretest"; CStr "test"; CNull] in
  effects_test periods = Ok (effects_expected periods [false; false; false; false; true; false]).
Proof. run_real. Qed.
(** data_preparation_test.py:208-236; the library conversions leave the cells as they are here *)
Definition raw_frame : frame :=
  [("Item ID", map CStr ["1"; "2"; "3"]); ("YYYY-MM-DD", map CZ [1; 2; 3]); ("Clicks", map CZ [1; 2; 3]); ("Impr.", map CZ [20; 21; 22]);
   ("Conv.", map CZ [2; 3; 5]); ("Conv. Value", map CZ [23; 42; 50]); ("Cost", map CZ [1; 2; 3]); ("Some extra column", map CStr ["s"; "s"; "s"])].
Example test_standardize :
  standardize (fun _ c => Ok c) raw_frame
    [Some "Item ID"; Some "YYYY-MM-DD"; Some "Clicks"; Some "Impr."; Some "Cost"; Some "Conv."; Some "Conv. Value"] [] [] =
  Ok [("item_id", map CStr ["1"; "2"; "3"]); ("date", map CZ [1; 2; 3]); ("clicks", map CZ [1; 2; 3]); ("impressions", map CZ [20; 21; 22]);
      ("total_cost", map CZ [1; 2; 3]); ("conversions", map CZ [2; 3; 5]); ("total_conversion_value", map CZ [23; 42; 50])].
Proof. reflexivity. Qed.
