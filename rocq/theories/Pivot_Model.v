(** Model of /repo/feedx/experiment_analysis.py:200-460 (pivoting the weekly data).

    [pd.pivot_table(index, columns, values, aggfunc="sum", fill_value=0)] of pandas: rows with a
    missing period (or index) value are dropped by the groupby; each group is summed skipping
    missing values; groups whose sums are all NaN (infinities of both signs) are dropped; the
    distinct periods become columns, the columns are sorted by (metric, period) and absent or
    NaN cells become 0.  metric_columns is assumed to hold no name twice. *)
From Coq Require Import ZArith Reals List String Bool.
Require Import Verif.Base Verif.Num Verif.Frame Verif.F64 Verif.ListLib Verif.Design_Model Verif.Periods_Model
  Verif.Rows_Model.
Import ListNotations.
Open Scope string_scope.
Open Scope Z_scope.

Section Pivot.
(** index values (the item id, or the item id and the arm) with their order *)
Context {K : Type} (keqb kleb : K -> K -> bool).

(** one row of the data: index value, week id (None if missing) and metric values *)
Record prow := mkP { p_key : K; p_week : option Z; p_vals : list num }.

Record table := mkT { t_cols : list (string * string); t_rows : list (K * list num) }.

Definition kp_eqb : K * string -> K * string -> bool := paireqb keqb String.eqb.
Definition kp_leb : K * string -> K * string -> bool := lexb keqb kleb sleb.

Definition row_label (lab : Z -> label) (r : prow) : label :=
  match p_week r with Some w => lab w | None => None end.

(** rows with a period *)
Definition labelled (lab : Z -> label) (rows : list prow) : list ((K * string) * list num) :=
  flat_map (fun r => match row_label lab r with Some s => [((p_key r, s), p_vals r)] | None => [] end) rows.

Definition group_sums (k : nat) (rs : list ((K * string) * list num)) : list num :=
  map (fun j => nsum (map (fun r => nan0 (nth j (snd r) NaN)) rs)) (seq 0 k).

(** groupby(index + [period]).agg("sum").dropna(how="all") *)
Definition agged (lab : Z -> label) (k : nat) (rows : list prow) : list ((K * string) * list num) :=
  filter (fun g => negb (forallb nis_nan (snd g)))
    (map (fun g => (fst g, group_sums k (snd g))) (groupby kp_eqb kp_leb fst (labelled lab rows))).

(** value of one cell after unstack and fillna(0) *)
Definition pivot_cell (ag : list ((K * string) * list num)) (key : K) (j : nat) (period : string) : num :=
  match find (fun g => kp_eqb (fst g) (key, period)) ag with
  | None => Fin 0
  | Some g => nan0 (nth j (snd g) NaN)
  end.

(** position of a metric in metric_columns *)
Fixpoint position (m : string) (l : list string) : nat :=
  match l with [] => 0 | x :: r => if String.eqb m x then 0 else S (position m r) end.

(** pd.pivot_table of lines 256-263 and 328-335 *)
Definition pivot_table (lab : Z -> label) (metrics : list string) (rows : list prow) : table :=
  let ag := agged lab (List.length metrics) rows in
  let keys := isort kleb (dedup keqb (map (fun g => fst (fst g)) ag)) in
  let periods := isort sleb (dedup String.eqb (map (fun g => snd (fst g)) ag)) in
  let cols := list_prod (isort sleb metrics) periods in
  mkT cols (map (fun k => (k, map (fun c => pivot_cell ag k (position (fst c) metrics) (snd c)) cols)) keys).

Definition has_period (s : string) (t : table) : bool := existsb (fun c => String.eqb s (snd c)) (t_cols t).

(** "pivoted_data.loc[:, pd.IndexSlice[:, s]] /= weeks" *)
Definition divide_period (s : string) (weeks : Z) (t : table) : table :=
  mkT (t_cols t)
    (map (fun r => (fst r, map (fun cv => if String.eqb s (snd (fst cv)) then ndiv (snd cv) (Fin (IZR weeks)) else snd cv)
                             (combine (t_cols t) (snd r)))) (t_rows t)).

Definition divide_if_present (s : string) (weeks : Z) (t : table) : table :=
  if has_period s t then divide_period s weeks t else t.

(** experiment_analysis.py:256-270; .loc with a missing label raises KeyError *)
Definition pivot_regular (p : params) (start : Z) (metrics : list string) (rows : list prow) : result table :=
  let t := pivot_table (regular_label start (pretest p) (runtime p)) metrics rows in
  let t := divide_if_present "pretest" (pretest p) t in
  if has_period "test" t then Ok (divide_period "test" (runtime p) t) else Err (KeyError "test").

(** experiment_analysis.py:322-352 *)
Definition pivot_crossover (p : params) (wash start : Z) (metrics : list string) (rows : list prow) : table :=
  let test_period_weeks := (runtime p - 2 * wash) / 2 in
  let t := pivot_table (crossover_label start (pretest p) (runtime p) wash) metrics rows in
  let t := divide_if_present "pretest" (pretest p) t in
  let t := divide_if_present "test_1" test_period_weeks t in
  let t := divide_if_present "test_2" test_period_weeks t in
  let t := divide_if_present "washout_1" wash t in
  divide_if_present "washout_2" wash t.

(** experiment_analysis.py:436-460, on rows *)
Definition pivot_rows (p : params) (start : Z) (metrics : list string) (rows : list prow) : result table :=
  if crossover p then
    match washout p with
    | None => Err (TypeError "2 * None")
    | Some wash => Ok (pivot_crossover p wash start metrics rows)
    end
  else pivot_regular p start metrics rows.
End Pivot.
Arguments prow : clear implicits.
Arguments table : clear implicits.

(* ------------------------------------------------------------------ *)
(** The whole function on a data frame. *)
Definition akey : Type := string * list Z.          (* item id; [] or [arm] *)
Definition akeqb : akey -> akey -> bool := paireqb String.eqb (fun a b => if list_eq_dec Z.eq_dec a b then true else false).
Fixpoint zlleb (a b : list Z) : bool :=
  match a, b with
  | [], _ => true
  | _ :: _, [] => false
  | x :: a', y :: b' => if x =? y then zlleb a' b' else x <=? y
  end.
Definition akleb : akey -> akey -> bool := lexb String.eqb sleb zlleb.

Definition num_of_cell (c : cell) : num :=
  match c with CNum x => x | CZ z => Fin (IZR z) | _ => NaN end.
Definition str_of_cell (c : cell) : option string := match c with CStr s => Some s | _ => None end.
Definition z_of_cell (c : cell) : option Z := match c with CZ z => Some z | _ => None end.

Definition col_or_nil (c : string) (f : frame) : list cell := match get_col c f with Some v => v | None => [] end.

(** row [i] of the frame, None if an index value is missing (such rows are dropped by the
    groupby).  Item ids are strings and arms integers. *)
Definition frame_row (f : frame) (metrics : list string) (item week : string) (treat : option string) (i : nat)
    : list (prow akey) :=
  let cell c := nth i (col_or_nil c f) CNull in
  let mk arm := match str_of_cell (cell item) with
                | None => []
                | Some it => [mkP (it, arm) (z_of_cell (cell week)) (map (fun m => num_of_cell (cell m)) metrics)]
                end in
  match treat with
  | None => mk []
  | Some t => match z_of_cell (cell t) with None => [] | Some a => mk [a] end
  end.

Definition frame_rows (f : frame) (metrics : list string) (item week : string) (treat : option string)
    : list (prow akey) :=
  flat_map (frame_row f metrics item week treat) (seq 0 (List.length (col_or_nil week f))).

(** experiment_analysis.py:368-460 [pivot_time_assignment].  The frame is modified in place:
    the first component is the caller's frame after the call. *)
Definition pivot_time_assignment (f : frame) (p : params) (start : Z) (metrics : list string)
    (item week : string) (treat : option string) (period : string) : frame * result (table akey) :=
  if has_col period f then (f, Err (ValueError "time_period_column must not already be a column"))
  else
    let required := item :: week :: metrics ++ match treat with Some t => [t] | None => [] end in
    if existsb (fun c => negb (has_col c f)) required then (f, Err (ValueError "missing columns"))
    else
      match label_fun p start with
      | Err e => (f, Err e)
      | Ok lab =>
          let with_period := set_col period (map (label_of_week_cell lab) (col_or_nil week f)) f in
          match pivot_rows akeqb akleb p start metrics (frame_rows f metrics item week treat) with
          | Err e => (with_period, Err e)
          | Ok t => (drop_col period with_period, Ok t)
          end
      end.
