(** Model of /repo/feedx/data_preparation.py:35-88 and 722-1333: validation checks, the two
    validation entry points and the "at least one" metrics.

    Representation.  A check looks at a few columns of the data; it gets them as lists (one
    entry per row).  Item ids and dates are not missing here (see Rows_Model); the cells used by
    the null check may be.  A check returns [Ok failed] or raises.  The printed messages and the
    dtype tests (lines 789-792 and 821-824, "date column must be datetime", "week id must be
    integer") are not modelled: the columns have these types by construction. *)
From Coq Require Import ZArith Reals List String Bool.
Require Import Verif.Base Verif.Num Verif.Frame Verif.F64 Verif.ListLib Verif.Design_Model
  Verif.Rows_Model.
Import ListNotations.
Open Scope string_scope.
Open Scope Z_scope.

(* ------------------------------------------------------------------ *)
(** data_preparation.py:35-88 [ValidationChecks] *)

(** lines 58-74: the wrapper around a check.  [skip] is skip_validation_checks or []. *)
Definition run_check (name : string) (skip : list string) (check : result bool) : result unit :=
  let! failure := check in
  if negb failure then Ok tt
  else if existsb (String.eqb name) skip then Ok tt
  else Err (ValueError name).

(** the names registered at import time by the decorators *)
Definition registered : list string :=
  ["no_duplicate_items_per_date"; "no_nulls"; "dates_are_daily_or_weekly";
   "week_ids_are_consecutive_integers"; "all_metrics_are_finite";
   "all_metrics_are_non_negative"; "number_of_items_matches_design";
   "experiment_dates_match_design"; "treatment_assignment_is_unique";
   "coinflip_salt_validation"; "no_sample_ratio_mismatch"; "primary_metric_in_metrics"].

(** lines 81-88 [assert_check_exists]; the error carries a tag that is no check name *)
Definition unknown_check (name : string) : exn := ValueError ("unknown check: " ++ name).
Definition assert_check_exists (name : string) : result unit :=
  raise_if (negb (existsb (String.eqb name) registered)) (unknown_check name).

(** list(map(assert_check_exists, skip)) *)
Definition assert_all_exist (skip : list string) : result (list unit) := mapM assert_check_exists skip.

(* ------------------------------------------------------------------ *)
(** data_preparation.py:722-767; rows are (date, item) *)
Definition check_no_duplicates (rows : list (Z * string)) : result bool :=
  let groups := groupby Z.eqb Z.leb fst rows in
  let counts := map (fun g => List.length (snd g)) groups in
  let uniques := map (fun g => List.length (dedup String.eqb (map snd (snd g)))) groups in
  if existsb (fun cu => negb (Nat.eqb (fst cu) (snd cu))) (combine counts uniques) then Ok true
  else match counts with
       | [] => Err (IndexError "values[0]")
       | c0 :: _ => Ok (existsb (fun c => negb (Nat.eqb c c0)) counts)
       end.

(** pandas isnull of one cell *)
Definition null_cell (c : cell) : bool :=
  match c with CNull => true | CNum NaN => true | _ => false end.

(** data_preparation.py:770-780, all columns of the data *)
Definition check_no_nulls (cols : list (list cell)) : result bool :=
  let nulls := map (fun c => List.length (filter null_cell c) + List.length (filter null_cell c))%nat cols in
  Ok (existsb (fun n => Nat.ltb 0 n) nulls).

(** data_preparation.py:783-811 *)
Definition check_dates_spacing (dates : list Z) : result bool :=
  let days_between := frequency dates in
  if forallb (Z.eqb 7) days_between then Ok false
  else if forallb (Z.eqb 1) days_between then Ok false
  else Ok true.

Fixpoint steps (l : list Z) : list Z :=
  match l with
  | a :: ((b :: _) as r) => (b - a) :: steps r
  | _ => []
  end.

Definition pair_eqb : Z * Z -> Z * Z -> bool := paireqb Z.eqb Z.eqb.

(** data_preparation.py:814-843; rows are (week id, date).  [by_date] is sort_values(date): the
    default algorithm is not stable, so it is any function that orders by date. *)
Definition check_week_ids (by_date : list (Z * Z) -> list (Z * Z)) (rows : list (Z * Z)) : result bool :=
  let unique_date_ids := map fst (by_date (dedup pair_eqb rows)) in
  let gap := steps unique_date_ids in
  Ok (negb (forallb (fun g => orb (g =? 1) (g =? 0)) gap)).

(** the loop "for metric_column in metric_columns" of the next two checks *)
Fixpoint any_column (bad : num -> bool) (col : string -> option (list num)) (metrics : list string)
    : result bool :=
  match metrics with
  | [] => Ok false
  | m :: ms => match col m with
               | None => Err (KeyError m)
               | Some v => if existsb bad v then Ok true else any_column bad col ms
               end
  end.

(** data_preparation.py:846-865 *)
Definition check_finite := any_column (fun x => negb (nis_fin x)).
(** data_preparation.py:868-890 *)
Definition check_non_negative := any_column (fun x => nltb x (Fin 0)).

(** data_preparation.py:893-911 *)
Definition check_n_items (items : list string) (d : design) : result bool :=
  Ok (negb (Z.of_nat (List.length (dedup String.eqb items)) =? n_pre d)).

Definition list_min (l : list Z) : option Z :=
  match l with [] => None | x :: r => Some (fold_left Z.min r x) end.
Definition list_max (l : list Z) : option Z :=
  match l with [] => None | x :: r => Some (fold_left Z.max r x) end.

(** comparison of timestamps, false when one is NaT *)
Definition date_gt (a : option Z) (b : Z) : bool := match a with Some x => b <? x | None => false end.
Definition date_lt (a : option Z) (b : Z) : bool := match a with Some x => x <? b | None => false end.

(** data_preparation.py:914-966; [start] is the parsed start date (midnight, nanoseconds) *)
Definition check_dates_match (dates : list Z) (d : design) (start : Z) (concluded : bool) : result bool :=
  let expected_min_date := start - pretest (par d) * 7 * day in
  let expected_max_date := start + (runtime (par d) - 1) * 7 * day in
  if date_gt (list_min dates) expected_min_date then Ok true
  else if concluded then (if date_lt (list_max dates) expected_max_date then Ok true else Ok false)
  else Ok false.

(** data_preparation.py:969-988; rows are (item, arm) *)
Definition check_unique_arm (rows : list (string * Z)) : result bool :=
  Ok (existsb (fun g => negb (Nat.eqb (List.length (dedup Z.eqb (map snd (snd g)))) 1))
        (groupby String.eqb sleb fst rows)).

(** data_preparation.py:991-1016 *)
Definition check_coinflip (rows : list (string * Z)) (d : design) : result bool :=
  let! c := match salt (par d) with
            | None => Err (ValueError "Salt must not be empty.")
            | Some s => mk_coinflip s
            end in
  Ok (negb (forallb (fun r => snd r =? coinflip_call c (fst r)) rows)).

(** experiment_data.groupby(arm)[item].nunique().get(a, 0) *)
Definition arm_count (a : Z) (rows : list (string * Z)) : Z :=
  match find (fun g => fst g =? a) (groupby Z.eqb Z.leb snd rows) with
  | None => 0
  | Some g => Z.of_nat (List.length (dedup String.eqb (map fst (snd g))))
  end.

(** data_preparation.py:1019-1064; [binomtest k n] is the p-value of scipy's two-sided test with
    probability 1/2, or the exception it raises (n = 0) *)
Definition check_srm (binomtest : Z -> Z -> result num) (threshold : num) (rows : list (string * Z))
    : result bool :=
  let! p := binomtest (arm_count 1 rows) (arm_count 1 rows + arm_count 0 rows) in
  Ok (nltb p threshold).

(** data_preparation.py:1067-1081 *)
Definition check_primary (metrics : list string) (primary : string) : result bool :=
  Ok (negb (existsb (String.eqb primary) metrics)).

(* ------------------------------------------------------------------ *)
(** the columns of a data frame that the entry points look at *)
Record vdata := mkV {
  v_cells : list (list cell);            (* all columns *)
  v_items : list string;                 (* item id column *)
  v_dates : list Z;                      (* date column *)
  v_weeks : list Z;                      (* week id column *)
  v_arms : list Z;                       (* treatment assignment column *)
  v_col : string -> option (list num)    (* metric columns by name *)
}.

(** data_preparation.py:1084-1150 [validate_historical_data] *)
Definition validate_historical_data (by_date : list (Z * Z) -> list (Z * Z)) (v : vdata)
    (primary_metric_column : string) (skip : list string) : result unit :=
  let! _ := assert_all_exist skip in
  let! _ := run_check "no_nulls" skip (check_no_nulls (v_cells v)) in
  let! _ := run_check "no_duplicate_items_per_date" skip (check_no_duplicates (combine (v_dates v) (v_items v))) in
  let! _ := run_check "dates_are_daily_or_weekly" skip (check_dates_spacing (v_dates v)) in
  let! _ := run_check "week_ids_are_consecutive_integers" skip
              (check_week_ids by_date (combine (v_weeks v) (v_dates v))) in
  let! _ := run_check "all_metrics_are_finite" skip (check_finite (v_col v) [primary_metric_column]) in
  run_check "all_metrics_are_non_negative" skip (check_non_negative (v_col v) [primary_metric_column]).

(** default threshold of the sample ratio check, data_preparation.py:1024: the binary64 number
    nearest to 0.001 *)
Definition srm_threshold : num := Fin (rnd (1 / 1000)).

(** data_preparation.py:1153-1303 [validate_experiment_data]; [negative_ok] is
    can_be_negative_metric_columns or [] *)
Definition validate_experiment_data (by_date : list (Z * Z) -> list (Z * Z))
    (binomtest : Z -> Z -> result num) (v : vdata) (d : design) (metrics : list string)
    (start : Z) (concluded : bool) (negative_ok : list string) (skip : list string) : result unit :=
  let! _ := assert_all_exist skip in
  let! _ := run_check "primary_metric_in_metrics" skip (check_primary metrics (metric (par d))) in
  let! _ := run_check "no_nulls" skip (check_no_nulls (v_cells v)) in
  let! _ := run_check "no_duplicate_items_per_date" skip (check_no_duplicates (combine (v_dates v) (v_items v))) in
  let! _ := run_check "dates_are_daily_or_weekly" skip (check_dates_spacing (v_dates v)) in
  let! _ := run_check "week_ids_are_consecutive_integers" skip
              (check_week_ids by_date (combine (v_weeks v) (v_dates v))) in
  let! _ := run_check "all_metrics_are_finite" skip (check_finite (v_col v) metrics) in
  let required := filter (fun m => negb (existsb (String.eqb m) negative_ok)) metrics in
  let! _ := (if match required with [] => false | _ => true end
             then run_check "all_metrics_are_non_negative" skip (check_non_negative (v_col v) required)
             else Ok tt) in
  let! _ := run_check "number_of_items_matches_design" skip (check_n_items (v_items v) d) in
  let! _ := run_check "experiment_dates_match_design" skip (check_dates_match (v_dates v) d start concluded) in
  let! _ := run_check "treatment_assignment_is_unique" skip (check_unique_arm (combine (v_items v) (v_arms v))) in
  let! _ := run_check "coinflip_salt_validation" skip (check_coinflip (combine (v_items v) (v_arms v)) d) in
  run_check "no_sample_ratio_mismatch" skip
    (check_srm binomtest srm_threshold (combine (v_items v) (v_arms v))).

(* ------------------------------------------------------------------ *)
(** (data[metric] > 0).astype(int) for one cell; comparing text raises *)
Definition positive_cell (c : cell) : result cell :=
  match c with
  | CNull => Ok (CZ 0)
  | CZ z => Ok (CZ (if 0 <? z then 1 else 0))
  | CNum x => Ok (CZ (if nltb (Fin 0) x then 1 else 0))
  | CStr _ => Err (TypeError "'>' not supported")
  end.

(** data_preparation.py:1306-1333 [add_at_least_one_metrics]; the warning is only printed.  The
    frame is modified in place and returned. *)
Fixpoint add_at_least_one_metrics (f : frame) (metrics : list (string * string)) : result frame :=
  match metrics with
  | [] => Ok f
  | (m, new) :: ms =>
      match get_col m f with
      | None => Err (KeyError m)
      | Some v => let! v' := mapM positive_cell v in
                  add_at_least_one_metrics (set_col new v' f) ms
      end
  end.
