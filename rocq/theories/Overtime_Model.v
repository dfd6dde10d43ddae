(** Model of feedx/plotting.py:370-505: the values that plot_metric_over_time draws.

    The input is the list of column names of the frame and the contents of the five columns named by the arguments, one record
    per row.  Simplified: the initial sort by date is left out (the drawn values are sums over rows, taken here without rounding);
    arms are integers or null; matplotlib itself (colours, legends, titles) is not modelled.  The shaded spans are in
    Periods_Model. *)
From Coq Require Import ZArith Reals List String Bool.
Require Import Verif.Base Verif.Num Verif.ListLib Verif.Design_Model Verif.Periods_Model Verif.Trimmed_Model Verif.Cuped_Model Verif.Stats_Model Verif.Cupedplot_Model.
Import ListNotations.
Open Scope string_scope.
Open Scope list_scope.

Record orow := mkOR { o_row : prow; o_arm : option Z }.
(** the names passed by the caller *)
Record names := mkNames { nm_metric : string; nm_item : string; nm_period : string; nm_arm : string; nm_date : string }.

(** pandas' mean and np.std of a series leave out NaN; len does not *)
Definition without_nan (l : list num) : list num := filter (fun x => negb (nis_nan x)) l.
Definition mean_cell (l : list num) : num := nmean (without_nan l).
Definition np_std (l : list num) : num :=
  let v := without_nan l in nsqrt (nmean (map (fun x => nmul (nsub x (nmean v)) (nsub x (nmean v))) v)).
(** plotting.py:424 *)
Definition std_cell (l : list num) : num := ndiv (np_std l) (nsqrt (nnat (List.length l))).

(** the values of one date and one arm; rows with a null key are in no group *)
Definition in_group (d a : Z) (r : orow) : bool :=
  match p_date (o_row r), o_arm r with Some d', Some a' => andb (Z.eqb d d') (Z.eqb a a') | _, _ => false end.
Definition group_values (rows : list orow) (column : list num) (d a : Z) : list num :=
  map snd (filter (fun p => in_group d a (fst p)) (combine rows column)).

(** keys that are not null *)
Definition known {A} (l : list (option A)) : list A := flat_map (fun o => match o with Some x => [x] | None => [] end) l.
Definition dates_of (rows : list orow) : list Z := zsort_uniq (known (map (fun r => p_date (o_row r)) rows)).
Definition arms_of (rows : list orow) : list Z := zsort_uniq (known (map o_arm rows)).

(** pd.pivot_table: groups whose aggregate is NaN are dropped; a date or arm left without any group is no row or column.
    A missing combination of the others is NaN. *)
Section Pivot.
Context (f : list num -> num) (rows : list orow) (column : list num).
Definition pivot_cell (d a : Z) : num := f (group_values rows column d a).
Definition kept (d a : Z) : bool := negb (nis_nan (pivot_cell d a)).
Definition pivot_index : list Z := filter (fun d => existsb (kept d) (arms_of rows)) (dates_of rows).
Definition pivot_has_arm (a : Z) : bool := existsb (fun d => kept d a) (dates_of rows).
End Pivot.

(** a drawn date: the two lines, their difference and its band *)
Record point := mkPoint { pt_date : Z; pt_treatment : num; pt_control : num; pt_delta : num; pt_lb : num; pt_ub : num }.

(** plotting.py:411-431 for one date *)
Definition point_at (z : num) (rows : list orow) (column : list num) (d : Z) : point :=
  let mean a := pivot_cell mean_cell rows column d a in
  let std a := pivot_cell std_cell rows column d a in
  let delta := nsub (mean 1%Z) (mean 0%Z) in
  let delta_std := nsqrt (nadd (nmul (std 1%Z) (std 1%Z)) (nmul (std 0%Z) (std 0%Z))) in
  mkPoint d (mean 1%Z) (mean 0%Z) delta (nsub delta (nmul z delta_std)) (nadd delta (nmul z delta_std)).

Definition has_name (columns : list string) (c : string) : bool := existsb (String.eqb c) columns.
Definition need (columns : list string) (c : string) : result unit := raise_if (negb (has_name columns c)) (KeyError c).

Section Plot.
Context (argsort : list num -> list nat).

(** lines 401-409: the plotted column; [empty] is the content of np.empty *)
Definition plotted_column (empty : list num) (columns : list string) (nm : names) (rows : list orow) (cuped : bool) : result (list num) :=
  if cuped then
    let! _ := need columns (nm_period nm) in
    let! _ := raise_if (negb (existsb is_pretest (map o_row rows)))
      (ValueError "CUPED adjustment can only be done with pretest data. Please make sure to provide pretest data") in
    let! _ := need columns (nm_item nm) in
    let! _ := need columns (nm_metric nm) in
    add_cuped argsort empty (map o_row rows)
  else Ok (map (fun r => p_value (o_row r)) rows).

(** lines 370-440. [z] is stats.norm.ppf(1 - alpha / 2). [literal] are the contents of the columns literally called "date" and
    "time_period" (used by lines 437-438 instead of the arguments).  The results are the drawn points and the start date. *)
Definition plot_metric_over_time (empty : list num) (z : num) (columns : list string) (nm : names) (literal : list (Z * label))
    (rows : list orow) (cuped : bool) : result (list point * option Z) :=
  let! _ := need columns (nm_date nm) in
  let! column := plotted_column empty columns nm rows cuped in
  let! _ := need columns (nm_metric nm) in
  let! _ := need columns (nm_arm nm) in
  let! _ := raise_if (negb (pivot_has_arm mean_cell rows column 1)) (KeyError "Treatment") in
  let! _ := raise_if (negb (pivot_has_arm mean_cell rows column 0)) (KeyError "Control") in
  let! _ := raise_if (negb (pivot_has_arm std_cell rows column 1)) (KeyError "Treatment") in
  let! _ := raise_if (negb (pivot_has_arm std_cell rows column 0)) (KeyError "Control") in
  let! _ := need columns "time_period" in
  let! _ := need columns "date" in
  Ok (map (point_at z rows column) (pivot_index mean_cell rows column), plot_start_date literal).
End Plot.
