(** The data frame that passes from the preparation to the analysis of an experiment:
    feedx/data_preparation.py:1574-1624 returns it, feedx/experiment_analysis.py:774-836 reads it. *)
From Coq Require Import ZArith Reals List String Bool.
Require Import Verif.Base Verif.Num Verif.Frame Verif.Periods_Model Verif.Pipeline_Model.
Import ListNotations.
Open Scope string_scope.
Open Scope list_scope.

(** the cells of a metric column *)
Definition metric_cells (rows : list erow) (c : string) : list cell :=
  map (fun r => match get_num c (e_cols r) with Some x => CNum x | None => CNull end) rows.

(** data_preparation.py:1574-1624: the columns of the returned frame.  The "at least one" columns come after
    time_period in the code; here they follow the metrics (nothing that is modelled depends on the order of the
    columns).  Other columns of the assignment data are left out. *)
Definition prepared_frame (rows : list erow) : frame :=
  [("item_id", map (fun r => CStr (e_item r)) rows); ("date", map (fun r => CZ (e_date r)) rows)] ++
  map (fun c => (c, metric_cells rows c)) (match rows with [] => [] | r :: _ => map fst (e_cols r) end) ++
  [("week_id", map (fun r => CZ (e_week r)) rows); ("week_start", map (fun r => CZ (e_start r)) rows);
   ("time_period", map (fun r => label_cell (e_period r)) rows);
   ("treatment_assignment", map (fun r => CZ (e_arm r)) rows)].
