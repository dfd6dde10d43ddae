(** Model of /repo/feedx/data_preparation.py:1336-1624: the two preparation pipelines, composed
    from the models of their steps.

    The pipelines start here after standardize_column_names_and_types (modelled on its own in
    Standard_Model): the raw data is the list of standardized rows.  The choice of the metric
    columns (lines 1389-1405 and 1512-1533) only decides which columns those rows have; the calls
    from the raw frames on are modelled in Entry_Model. *)
From Coq Require Import ZArith Reals List String Bool.
From Flocq Require Import Core BinarySingleNaN.
Require Import Verif.Base Verif.Num Verif.Frame Verif.F64 Verif.ListLib Verif.Design_Model
  Verif.Periods_Model Verif.Rows_Model Verif.Checks_Model.
Import ListNotations.
Open Scope string_scope.
Open Scope Z_scope.

(* ------------------------------------------------------------------ *)
(** data_preparation.py:1376-1383 *)
Definition allowed_primary_metrics : list string :=
  ["clicks"; "impressions"; "conversions"; "total_conversion_value"; "total_cost"; "other"].

(** what validate_historical_data sees of the grouped data *)
Definition historical_view (column : string) (rows : list grow) : vdata :=
  mkV [map (fun g => CZ (g_week g)) rows; map (fun g => CZ (g_start g)) rows;
       map (fun g => CStr (g_item g)) rows; map (fun g => CNum (nth 0 (g_vals g) NaN)) rows]
    (map g_item rows) (map g_start rows) (map g_week rows) []
    (fun c => if String.eqb c column then Some (map (fun g => nth 0 (g_vals g) NaN) rows) else None).

(** data_preparation.py:1336-1438 [prepare_and_validate_historical_data]; one metric column.
    [primary_metric] is the argument of that name, [column] the name of the metric column
    after standardization. *)
Definition prepare_historical (by_date : list (Z * Z) -> list (Z * Z)) (frac : f64)
    (draw : list string -> Z -> list string) (primary_metric column : string) (skip : list string)
    (rows : list obs) : result (list grow) :=
  let! _ := raise_if (negb (existsb (String.eqb primary_metric) allowed_primary_metrics))
              (ValueError "primary_metric") in                                  (* 1384-1387 *)
  let! filled := fill_missing_rows_with_zeros ["item_id"; "date"; column] "item_id" "date" 1 rows in (* 1412 *)
  let weekly := add_weeks None filled in                                        (* 1413 *)
  let! grouped := group_data_to_complete_weeks 1 weekly in                      (* 1414-1420 *)
  let! clean := downsample_items g_item ["week_id"; "week_start"; "item_id"; column] "item_id"
                  frac draw grouped in                                          (* 1421-1426 *)
  let! _ := validate_historical_data by_date (historical_view column clean) column skip in (* 1429-1436 *)
  Ok clean.

(* ------------------------------------------------------------------ *)
(** a row of the experiment data: key, named metric columns, week, period, arm.  The metric
    columns of one row are an association list with the same names in every row. *)
Record erow := mkE {
  e_item : string; e_date : Z; e_cols : list (string * num);
  e_week : Z; e_start : Z; e_period : label; e_arm : Z
}.

Fixpoint get_num (c : string) (l : list (string * num)) : option num :=
  match l with
  | [] => None
  | (c', v) :: r => if String.eqb c c' then Some v else get_num c r
  end.
Fixpoint set_num (c : string) (v : num) (l : list (string * num)) : list (string * num) :=
  match l with
  | [] => [(c, v)]
  | (c', v') :: r => if String.eqb c c' then (c, v) :: r else (c', v') :: set_num c v r
  end.

(** the column [c] of the rows, if they all have it *)
Fixpoint num_column (c : string) (rows : list (list (string * num))) : option (list num) :=
  match rows with
  | [] => Some []
  | l :: ls => match get_num c l, num_column c ls with
               | Some x, Some xs => Some (x :: xs)
               | _, _ => None
               end
  end.

(** (data[metric] > 0).astype(int), one value *)
Definition indicator (x : num) : num := if nltb (Fin 0) x then Fin 1 else Fin 0.

(** data_preparation.py:1306-1333 on one row, the source and the target being metric columns *)
Fixpoint at_least_one_row (metrics : list (string * string)) (l : list (string * num))
    : result (list (string * num)) :=
  match metrics with
  | [] => Ok l
  | (m, new) :: ms =>
      match get_num m l with
      | None => Err (KeyError m)
      | Some x => at_least_one_row ms (set_num new (indicator x) l)
      end
  end.

(** lines 1548-1553: assigned items without a performance row, without repetitions *)
Definition missing_items (perf : list obs) (assigned : list (string * Z)) : list string :=
  dedup String.eqb (filter (fun i => negb (existsb (String.eqb i) (map o_item perf))) (map fst assigned)).

(** what validate_experiment_data sees *)
Definition experiment_view (rows : list erow) : vdata :=
  mkV ([map (fun r => CStr (e_item r)) rows; map (fun r => CZ (e_date r)) rows] ++
       (match rows with
        | [] => []
        | r0 :: _ => map (fun c => map (fun r => match get_num c (e_cols r) with
                                                 | Some x => CNum x | None => CNull end) rows)
                       (map fst (e_cols r0))
        end) ++
       [map (fun r => CZ (e_week r)) rows; map (fun r => CZ (e_start r)) rows;
        map (fun r => label_cell (e_period r)) rows; map (fun r => CZ (e_arm r)) rows])%list
    (map e_item rows) (map e_date rows) (map e_week rows) (map e_arm rows)
    (fun c => num_column c (map e_cols rows)).

(** data_preparation.py:1441-1624 [prepare_and_validate_experiment_data].  [metrics] are the
    metric columns (clean names); [assigned] the rows (item, arm) of the assignment data, whose
    other columns are not modelled; [start] is the parsed start date.  [outer] is the order in
    which the outer merge of line 1593 returns its rows: as the keys of the missing items occur
    in no performance row, the merge returns the rows of both sides, the missing ones with
    missing metrics.  A metric called "time_period", "item_id", ... is outside the model. *)
Definition prepare_experiment (by_date : list (Z * Z) -> list (Z * Z)) (binomtest : Z -> Z -> result num)
    (outer : list obs -> list obs) (perf : list obs) (assigned : list (string * Z)) (d : design)
    (metrics : list string) (start : Z) (concluded : bool) (negative_ok : list string)
    (at_least_one : list (string * string)) (skip : list string) : result (list erow) :=
  let k := List.length metrics in
  let missing := missing_items perf assigned in
  let! _ := raise_if (match assigned with [] => true | _ => false end)
              (ZeroDivisionError "frac_missing") in                                            (* line 1557 *)
  let! first_date := match perf with
                     | [] => Err (IndexError "values[0]")
                     | r :: _ => Ok (o_date r)
                     end in                                                     (* line 1573 *)
  let merged := outer (perf ++ map (fun i => mkObs i first_date (repeat NaN k)) missing)%list in
  let! filled := fill_missing_rows_with_zeros ("item_id" :: "date" :: metrics) "item_id" "date" k merged in
  let weekly := add_weeks (Some start) filled in                                (* 1595-1599 *)
  let! lab := label_fun (par d) 0 in                                            (* 1600-1605 *)
  let! with_cols := mapM (fun r =>
      let! cols := at_least_one_row at_least_one (combine metrics (o_vals (w_obs r))) in
      Ok (r, cols)) weekly in                                                   (* 1606 *)
  let data := flat_map (fun rc =>
      map (fun ia => mkE (o_item (w_obs (fst rc))) (o_date (w_obs (fst rc))) (snd rc)
                       (w_week (fst rc)) (w_start (fst rc)) (lab (w_week (fst rc))) (snd ia))
        (filter (fun ia => String.eqb (fst ia) (o_item (w_obs (fst rc)))) assigned))
      with_cols in                                                              (* 1607 *)
  let! _ := validate_experiment_data by_date binomtest (experiment_view data) d metrics start
              concluded negative_ok skip in                                     (* 1610-1622 *)
  Ok data.
