(** Model of the whole of /repo/feedx/data_preparation.py:1336-1624, from the raw data frames of
    the user: the choice of the columns, their standardization, and the steps of Pipeline_Model.

    The library conversions are parameters: [std_parser] as in Standard_Model, [to_float] is
    Series.astype(float) and [to_int] is Series.astype(int).  Dates are assumed to be parsed to
    instants (nanoseconds), item ids to texts and metrics to numbers; another cell would be read
    as the default below, the theorems assume that there is none.  Of several errors in one call
    the one reported can differ from Python's. *)
From Coq Require Import ZArith Reals List String Bool.
From Flocq Require Import Core BinarySingleNaN.
Require Import Verif.Base Verif.Num Verif.Frame Verif.F64 Verif.ListLib Verif.Design_Model Verif.Standard_Model
  Verif.Periods_Model Verif.Rows_Model Verif.Checks_Model Verif.Pipeline_Model.
Import ListNotations.
Open Scope string_scope.
Open Scope list_scope.
Open Scope Z_scope.

Definition text_of (c : cell) : string := match c with CStr s => s | _ => "" end.
Definition instant_of (c : cell) : Z := match c with CZ z => z | _ => 0 end.
Definition number_of (c : cell) : num := match c with CNum x => x | CZ z => Fin (IZR z) | _ => NaN end.

(** the column [c], or nothing *)
Definition col_or_nil (c : string) (f : frame) : list cell := match get_col c f with Some v => v | None => [] end.
(** the rows of a standardized frame *)
Definition rows_of (f : frame) (metrics : list string) : list obs :=
  map (fun i => mkObs (text_of (nth i (col_or_nil "item_id" f) CNull)) (instant_of (nth i (col_or_nil "date" f) CNull))
                  (map (fun m => number_of (nth i (col_or_nil m f) CNull)) metrics))
    (seq 0 (List.length (col_or_nil "item_id" f))).

Section Entry.
Variable std_parser : string -> parser.
Variable to_float : parser.
Variable to_int : list cell -> result (list Z).

(* ------------------------------------------------------------------ *)
(** the arguments of lines 1389-1405: the inputs in the order of [standard_names], the custom
    columns, their parse functions and the name of the metric after standardization *)
Definition historical_request (item date primary_metric column : string)
    : list (option string) * list (string * string) * list (string * parser) * string :=
  if String.eqb primary_metric "other"
  then ([Some item; Some date; None; None; None; None; None], [(column, column)], [(column, to_float)], column)
  else (Some item :: Some date ::
          map (fun n => if String.eqb n primary_metric then Some column else None)
            ["clicks"; "impressions"; "total_cost"; "conversions"; "total_conversion_value"],
        [], [], primary_metric).

(** the columns of the prepared data.  A metric called week_id or week_start is overwritten by
    add_week_id_and_week_start (lines 636-640); one called days_in_week is dropped after grouping
    daily data (lines 696-710).  The order of the columns is simplified: it depends on whether the
    data is daily. *)
Definition historical_columns_of (name : string) (daily : bool) (rows : list grow) : frame :=
  [("week_id", map (fun g => CZ (g_week g)) rows); ("week_start", map (fun g => CZ (g_start g)) rows);
   ("item_id", map (fun g => CStr (g_item g)) rows)] ++
  (if orb (String.eqb name "week_id") (orb (String.eqb name "week_start") (andb daily (String.eqb name "days_in_week")))
   then [] else [(name, map (fun g => CNum (nth 0 (g_vals g) NaN)) rows)]).

(** what validate_historical_data sees of it *)
Definition view_of_frame (f : frame) : vdata :=
  mkV (map snd f) (map text_of (col_or_nil "item_id" f)) (map instant_of (col_or_nil "week_start" f))
    (map instant_of (col_or_nil "week_id" f)) []
    (fun c => match get_col c f with Some v => Some (map number_of v) | None => None end).

(** data_preparation.py:1336-1438 [prepare_and_validate_historical_data].  Comparing the dates of
    week_start with 0 (line 888) raises. *)
Definition historical_entry (by_date : list (Z * Z) -> list (Z * Z)) (frac : f64) (draw : list string -> Z -> list string)
    (raw : frame) (item date primary_metric column : string) (skip : list string) : result frame :=
  let! _ := raise_if (negb (existsb (String.eqb primary_metric) allowed_primary_metrics))
              (ValueError "primary_metric") in                                          (* 1384-1387 *)
  let '(inputs, custom, parsers, name) := historical_request item date primary_metric column in
  let! std := standardize std_parser raw inputs custom parsers in                      (* 1407-1411 *)
  let! filled := fill_missing_rows_with_zeros (columns std) "item_id" "date" 1 (rows_of std [name]) in
  let weekly := add_weeks None filled in
  let! grouped := group_data_to_complete_weeks 1 weekly in
  let daily := forallb (Z.eqb 1) (frequency (map (fun r => o_date (w_obs r)) weekly)) in
  let! clean := downsample_items g_item ["week_id"; "week_start"; "item_id"] "item_id" frac draw grouped in
  let out := historical_columns_of name daily clean in
  let! _ := raise_if (String.eqb name "week_start") (TypeError "'<' not supported between datetime and int") in
  let! _ := validate_historical_data by_date (view_of_frame out) name skip in
  Ok out.

(* ------------------------------------------------------------------ *)
(** lines 1512-1523: the clean names of the standard metrics given, in order *)
Definition given_metrics (inputs : list (option string)) : list string :=
  flat_map (fun ni => match snd ni with Some _ => [fst ni] | None => [] end)
    (combine ["clicks"; "impressions"; "total_cost"; "conversions"; "total_conversion_value"] inputs).

(** lines 1535-1540: rename, which ignores names that do not occur *)
Definition rename_assignment (item arm : string) (f : frame) : frame :=
  map (fun nv => (if String.eqb (fst nv) arm then "treatment_assignment"
                  else if String.eqb (fst nv) item then "item_id" else fst nv, snd nv)) f.

(** a column that occurs once.  Without one Python raises KeyError; with several the call fails
    later (for treatment_assignment: this is assumed). *)
Definition only_col (c : string) (f : frame) : result (list cell) :=
  let! _ := raise_if (negb (Nat.eqb (occurrences c (columns f)) 1)) (KeyError c) in
  Ok (col_or_nil c f).

(** an assigned row: item, arm and its cells in the other columns of the assignment data *)
Record arow := mkAR { a_item : string; a_arm : Z; a_extra : list cell }.

(** the other columns of the (renamed) assignment data *)
Definition extra_columns (f : frame) : frame :=
  filter (fun nv => negb (orb (String.eqb (fst nv) "item_id") (String.eqb (fst nv) "treatment_assignment"))) f.

(** lines 1535-1546 *)
Definition assignment_of (item arm : string) (f : frame) : result (list arow) :=
  let r := rename_assignment item arm f in
  let! ids := only_col "item_id" r in
  let! ids := std_parser "item_id" ids in
  let! arms := only_col "treatment_assignment" r in
  let! arms := to_int arms in
  Ok (map (fun i => mkAR (text_of (nth i ids CNull)) (nth i arms 0) (map (fun nv => nth i (snd nv) CNull) (extra_columns r)))
        (seq 0 (List.length ids))).

(** what validate_experiment_data sees: the view of Pipeline_Model, the cells of the extra
    columns, and no column whose name the merge of line 1607 has changed because both sides have it *)
Definition merged_view (overlap : list string) (data : list (erow * arow)) (n_extra : nat) : vdata :=
  let v := experiment_view (map fst data) in
  mkV (v_cells v ++ map (fun j => map (fun x => nth j (a_extra (snd x)) CNull) data) (seq 0 n_extra)) (v_items v) (v_dates v) (v_weeks v) (v_arms v)
    (fun c => if existsb (String.eqb c) overlap then None else v_col v c).

(** data_preparation.py:1441-1624 [prepare_and_validate_experiment_data].  [inputs] are the five
    *_column arguments, [others] is other_metric_columns or [], without repetitions.  The result is the list
    of the rows with the assigned row each of them was merged with.  Another metric called week_id or
    week_start (overwritten in line 1595) is outside the model. *)
Definition experiment_entry (by_date : list (Z * Z) -> list (Z * Z)) (binomtest : Z -> Z -> result num)
    (outer : list obs -> list obs) (perf asg : frame) (d : design) (start : Z) (item date arm : string)
    (inputs : list (option string)) (others : list string) (negative_ok : list string)
    (at_least_one : list (string * string)) (concluded : bool) (skip : list string) : result (list (erow * arow)) :=
  let metrics := (given_metrics inputs ++ others)%list in                               (* 1512-1533 *)
  let k := List.length metrics in
  let! assigned := assignment_of item arm asg in                                       (* 1535-1546 *)
  let! raw_ids := match get_col item perf with Some c => std_parser "item_id" c | None => Err (KeyError item) end in
  let missing := dedup String.eqb (filter (fun i => negb (existsb (String.eqb i) (map text_of raw_ids))) (map a_item assigned)) in
  let! _ := raise_if (match assigned with [] => true | _ => false end) (ZeroDivisionError "frac_missing") in
  let! first := match get_col date perf with
                | None => Err (KeyError date)
                | Some [] => Err (IndexError "values[0]")
                | Some (c :: _) => Ok c
                end in                                                                  (* 1573 *)
  let! missing_dates := std_parser "date" (map (fun _ => first) missing) in             (* 1574-1578 *)
  let! std := standardize std_parser perf (Some item :: Some date :: inputs)
                (map (fun c => (c, c)) others) (map (fun c => (c, to_float)) others) in  (* 1580-1592 *)
  let merged := outer (rows_of std metrics ++
                       map (fun id => mkObs (fst id) (instant_of (snd id)) (repeat NaN k)) (combine missing missing_dates))%list in
  let! filled := fill_missing_rows_with_zeros (columns std) "item_id" "date" k merged in
  let weekly := add_weeks (Some start) filled in                                        (* 1595-1599 *)
  let! _ := raise_if (existsb (String.eqb "time_period") metrics) (ValueError "time_period") in
  let! lab := label_fun (par d) 0 in                                                    (* 1600-1605 *)
  let! with_cols := mapM (fun r =>
      let! cols := at_least_one_row at_least_one (combine metrics (o_vals (w_obs r))) in
      Ok (r, cols)) weekly in                                                           (* 1606 *)
  let data := flat_map (fun rc =>
      map (fun a => (mkE (o_item (w_obs (fst rc))) (o_date (w_obs (fst rc))) (snd rc)
                       (w_week (fst rc)) (w_start (fst rc)) (lab (w_week (fst rc))) (a_arm a), a))
        (filter (fun a => String.eqb (a_item a) (o_item (w_obs (fst rc)))) assigned))
      with_cols in                                                                      (* 1607 *)
  let left := "date" :: "week_id" :: "week_start" :: "time_period" :: metrics ++ map snd at_least_one in
  let right := "treatment_assignment" :: map fst (extra_columns (rename_assignment item arm asg)) in
  let overlap := filter (fun c => existsb (String.eqb c) right) left in
  let! _ := raise_if (existsb (fun c => existsb (String.eqb c) overlap) ["date"; "week_id"; "treatment_assignment"]) (KeyError "column") in
  let! _ := validate_experiment_data by_date binomtest (merged_view overlap data (List.length (extra_columns (rename_assignment item arm asg)))) d metrics start
              concluded negative_ok skip in                                             (* 1610-1622 *)
  Ok data.
End Entry.
