(** Model of feedx/plotting.py:316-367: _add_cuped_adjusted_metric_per_date. *)
From Coq Require Import ZArith Reals List String Bool.
Require Import Verif.Base Verif.Num Verif.F64 Verif.Trimmed_Model Verif.Cuped_Model.
Import ListNotations.
Open Scope string_scope.
Open Scope list_scope.

(** a row of the data: item ids are not null; a null date is [None]; the period is the text in the time period column *)
Record prow := mkPR { p_item : string; p_date : option Z; p_period : string; p_value : num }.

(** [groupby(item).sum()]: pandas leaves out NaN values *)
Definition skipna_sum (l : list num) : num := nsum (filter (fun x => match x with NaN => false | _ => true end) l).

Definition is_pretest (r : prow) : bool := String.eqb (p_period r) "pretest".
(** lines 349-353: the pretest total of the row's item; [Series.map] gives NaN to items without pretest rows *)
Definition pretest_total (rows : list prow) (item : string) : num :=
  match filter (fun r => andb (is_pretest r) (String.eqb (p_item r) item)) rows with
  | [] => NaN
  | l => skipna_sum (map p_value l)
  end.

(** [series == date]: a null is equal to nothing *)
Definition on_date (d : option Z) (r : prow) : bool :=
  match d, p_date r with Some a, Some b => Z.eqb a b | _, _ => false end.
(** [drop_duplicates()], which treats nulls as equal *)
Definition same_date (a b : option Z) : bool :=
  match a, b with Some x, Some y => Z.eqb x y | None, None => true | _, _ => false end.
Fixpoint distinct_dates (l : list (option Z)) : list (option Z) :=
  match l with [] => [] | d :: r => d :: filter (fun x => negb (same_date d x)) (distinct_dates r) end.

(** [column.loc[mask]] and [column.loc[mask] = values] *)
Definition select {A} (mask : list bool) (l : list A) : list A := map snd (filter fst (combine mask l)).
Fixpoint assign {A} (mask : list bool) (values : list A) (l : list A) : list A :=
  match mask, l with
  | true :: m, x :: l' => match values with v :: vs => v :: assign m vs l' | [] => x :: assign m [] l' end
  | false :: m, x :: l' => x :: assign m values l'
  | _, _ => l
  end.

Section Adjust.
Context (argsort : list num -> list nat).

(** lines 357-365, one date *)
Definition adjust_date (rows : list prow) (column : list num) (d : option Z) : result (list num) :=
  let mask := map (on_date d) rows in
  let! y := apply_cuped_adjustment argsort (select mask (map p_value rows))
              (select mask (map (fun r => pretest_total rows (p_item r)) rows)) f0 in
  Ok (assign mask y column).
Fixpoint adjust_dates (rows : list prow) (column : list num) (ds : list (option Z)) : result (list num) :=
  match ds with
  | [] => Ok column
  | d :: r => let! c := adjust_date rows column d in adjust_dates rows c r
  end.

(** lines 316-367; [empty] is the content of np.empty, anything of the right length. The new column. *)
Definition add_cuped (empty : list num) (rows : list prow) : result (list num) :=
  let! _ := raise_if (negb (existsb is_pretest rows))
    (ValueError "CUPED adjustment can only be done with pretest data. Please make sure to provide pretest data") in
  adjust_dates rows empty (distinct_dates (map p_date rows)).
End Adjust.
