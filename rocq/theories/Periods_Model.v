(** Model of /repo/feedx/experiment_analysis.py:34-197 (time periods). *)
From Coq Require Import ZArith List String Bool.
Require Import Verif.Base Verif.Num Verif.Frame Verif.F64 Verif.Design_Model.
Import ListNotations.
Open Scope string_scope.
Open Scope Z_scope.

(** experiment_analysis.py:34-51 [get_weeks_between], one element of the series *)
Definition get_weeks_between (week_id start_id end_id : Z) : bool :=
  andb (start_id <=? week_id) (week_id <=? end_id).

Definition label := option string.

(** "data.loc[mask, column] = value" for one row *)
Definition overwrite (mask : bool) (v : string) (old : label) : label :=
  if mask then Some v else old.

(** experiment_analysis.py:54-77, one row *)
Definition regular_label (start pre run w : Z) : label :=
  let is_pretest := get_weeks_between w (start - pre) (start - 1) in
  let is_test := get_weeks_between w start (start + run - 1) in
  overwrite is_test "test" (overwrite is_pretest "pretest" None).

(** experiment_analysis.py:80-128, one row *)
Definition crossover_label (start pre run wash w : Z) : label :=
  let test_period_weeks := (run - 2 * wash) / 2 in
  let pretest_start_week := start - pre in
  let post_washout_period_1_start := start + wash in
  let period_1_end := post_washout_period_1_start + test_period_weeks - 1 in
  let post_washout_period_2_start := period_1_end + 1 + wash in
  let period_2_end := post_washout_period_2_start + test_period_weeks - 1 in
  let is_pretest := get_weeks_between w pretest_start_week (start - 1) in
  let is_washout_1 := get_weeks_between w start (post_washout_period_1_start - 1) in
  let is_test_1 := get_weeks_between w post_washout_period_1_start period_1_end in
  let is_washout_2 := get_weeks_between w (period_1_end + 1) (post_washout_period_2_start - 1) in
  let is_test_2 := get_weeks_between w post_washout_period_2_start period_2_end in
  overwrite is_test_2 "test_2"
    (overwrite is_washout_2 "washout_2"
       (overwrite is_test_1 "test_1"
          (overwrite is_washout_1 "washout_1"
             (overwrite is_pretest "pretest" None)))).

Definition label_cell (l : label) : cell :=
  match l with None => CNull | Some s => CStr s end.

(** label of a cell of the week column; a missing week compares False with everything and
    stays None.  (Non-numeric week columns raise in Python; not modelled.) *)
Definition label_of_week_cell (lab : Z -> label) (c : cell) : cell :=
  match c with CZ w => label_cell (lab w) | _ => CNull end.

(** experiment_analysis.py:179-197 and 436-460: dispatch on the design.  For a crossover
    design the washout weeks are never None (validated on construction); a None here would
    raise TypeError in the arithmetic of line 91. *)
Definition label_fun (p : params) (start : Z) : result (Z -> label) :=
  if crossover p then
    match washout p with
    | None => Err (TypeError "2 * None")
    | Some wash => Ok (crossover_label start (pretest p) (runtime p) wash)
    end
  else Ok (regular_label start (pretest p) (runtime p)).

(** experiment_analysis.py:131-197 [add_time_period_column] on a frame *)
Definition add_time_period_column (f : frame) (p : params) (start : Z)
    (week_col period_col : string) : result frame :=
  if has_col period_col f then Err (ValueError "time_period_column exists")
  else match get_col week_col f with
       | None => Err (ValueError "week_id_column missing")
       | Some ws =>
           let! lab := label_fun p start in
           Ok (set_col period_col (map (label_of_week_cell lab) ws) f)
       end.

(* ------------------------------------------------------------------ *)
(** Plotted spans, /repo/feedx/plotting.py:437-488 (dates in days) *)

(** plotting.py:437-438: earliest date among rows labelled test, test_1 or washout_1;
    None stands for NaT (no such row) *)
Definition plot_start_label (l : label) : bool :=
  match l with
  | Some s => orb (String.eqb s "test") (orb (String.eqb s "test_1") (String.eqb s "washout_1"))
  | None => false
  end.

Fixpoint zmin_list (l : list Z) : option Z :=
  match l with
  | [] => None
  | x :: r => match zmin_list r with None => Some x | Some y => Some (Z.min x y) end
  end.

Definition plot_start_date (rows : list (Z * label)) : option Z :=
  zmin_list (map fst (filter (fun r => plot_start_label (snd r)) rows)).

(** plotting.py:439-440 and 447/466: x limits *)
Definition plot_xlim (p : params) (start_date : Z) : Z * Z :=
  (start_date - 7 * pretest p, start_date + 7 * runtime p).

Record spans := mkSpans {
  shade1 : Z * Z;        (* first axvspan *)
  shade2 : Z * Z;        (* second axvspan *)
  crossover_line : Z     (* dashed axvline *)
}.

(** plotting.py:469-487 *)
Definition plot_spans (run wash start_date : Z) : spans :=
  let test_period_weeks := (run - 2 * wash) / 2 in
  let test_period_1_start := start_date + 7 * wash in
  let crossover := test_period_1_start + 7 * test_period_weeks in
  let test_period_2_start := crossover + 7 * wash in
  mkSpans (start_date, test_period_1_start) (crossover, test_period_2_start) crossover.
