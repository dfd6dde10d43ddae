(** Model of feedx/plotting.py:147-209: the values drawn by plot_metric_history.  Titles and axes are not modelled; sums are taken
    without rounding. *)
From Coq Require Import ZArith Reals List String Bool.
Require Import Verif.Base Verif.Num Verif.ListLib Verif.Cupedplot_Model Verif.Curves_Model Verif.Overtime_Model.
Import ListNotations.
Open Scope list_scope.

(** a row of the data; a null key is [None] *)
Record hrow := mkHR { h_item : option string; h_week : option Z; h_value : num }.

(** lines 172-174: groupby(week).sum(); rows with a null week are in no group, NaN values are left out, weeks are sorted *)
Definition of_week (w : Z) (r : hrow) : bool := match h_week r with Some v => Z.eqb w v | None => false end.
Definition weekly_totals (rows : list hrow) : list (Z * num) :=
  map (fun w => (w, skipna_sum (map h_value (filter (of_week w) rows)))) (zsort_uniq (known (map h_week rows))).

(** line 185: groupby(item).mean() *)
Definition of_item (i : string) (r : hrow) : bool := match h_item r with Some v => String.eqb i v | None => false end.
Definition items_of (rows : list hrow) : list string := isort sleb (dedup String.eqb (known (map h_item rows))).
Definition metric_per_item (rows : list hrow) : list num :=
  map (fun i => mean_cell (map h_value (filter (of_item i) rows))) (items_of rows).

(** lines 175-203: the three drawn lines *)
Definition plot_metric_history (rows : list hrow) : list (Z * num) * list (num * num) * list (num * num) :=
  (weekly_totals rows, cumulative_points (metric_per_item rows), lorenz_points (metric_per_item rows)).
