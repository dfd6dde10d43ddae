(** Model of /repo/feedx/experiment_analysis.py:463-836 (analysing metrics) and of
    /repo/feedx/experiment_simulations.py:307-397 (synthetic effects on pivoted data). *)
From Coq Require Import ZArith Reals List String Bool.
From Flocq Require Import Core BinarySingleNaN.
Require Import Verif.Base Verif.Num Verif.Frame Verif.F64 Verif.ListLib Verif.Design_Model Verif.Periods_Model
  Verif.Rows_Model Verif.Trimmed_Model Verif.Cuped_Model Verif.Stats_Model Verif.Pivot_Model.
Import ListNotations.
Open Scope string_scope.
Open Scope list_scope.

(** statistics.py:787,969: the default of the argument alpha, which no caller in the analysis overrides *)
Definition default_alpha : R := B2R (flit 5 100).

(** values[mask] *)
Definition select {A} (mask : list bool) (l : list A) : list A :=
  map snd (filter (fun p : bool * A => fst p) (combine mask l)).

(** a copy of [a] with a[mask] = b[mask] *)
Definition replace_where {A} (mask : list bool) (a b : list A) : list A :=
  map (fun p : bool * (A * A) => if fst p then snd (snd p) else fst (snd p)) (combine mask (combine a b)).

Section Analysis.
Context (T : tdist) (argsort : list num -> list nat).

(** experiment_analysis.py:463-478.  [arms] is the assignment column; a missing arm equals neither 0 nor 1. *)
Definition arm_is (a : Z) (x : option Z) : bool := match x with Some z => Z.eqb z a | None => false end.
Definition prepare_regular (test : list num) (pre : option (list num)) (arms : list (option Z)) (q : f64)
  : result (list num * list num) :=
  let! y := match pre with Some x => apply_cuped_adjustment argsort test x q | None => Ok test end in
  Ok (select (map (arm_is 1) arms) y, select (map (arm_is 0) arms) y).

(** experiment_analysis.py:536-576 *)
Definition shift (x : num) (l : list num) : list num := map (fun y => nadd y x) l.
Definition unshift (x : num) (l : list num) : list num := map (fun y => nsub y x) l.
Definition prepare_crossover (y_1 y_2 : list num) (arms : list (option Z)) (demean : bool) : list num * list num :=
  let first := map (arm_is 1) arms in
  let y_1_demeaned := if demean then unshift (nmean y_1) y_1 else y_1 in
  let y_2_demeaned := if demean then unshift (nmean y_2) y_2 else y_2 in
  let control := replace_where first y_1_demeaned y_2_demeaned in
  let treatment := replace_where (map negb first) y_1_demeaned y_2_demeaned in
  if demean then
    let y_control := replace_where first y_1 y_2 in
    let adjustment_factor := nsub (nmean y_control) (nmean control) in
    (shift adjustment_factor treatment, shift adjustment_factor control)
  else (treatment, control).

(** the columns of one metric after data[metric].reset_index(): periods with their values, and the arms *)
Record subset : Type := mkSub { s_periods : list (string * list num); s_arms : option (list (option Z)) }.
Fixpoint sget (c : string) (l : list (string * list num)) : option (list num) :=
  match l with [] => None | (x, v) :: r => if String.eqb c x then Some v else sget c r end.
Definition period_values (s : subset) (c : string) : list num :=
  match sget c (s_periods s) with Some v => v | None => [] end.
Definition arm_values (s : subset) : list (option Z) := match s_arms s with Some a => a | None => [] end.

(** experiment_analysis.py:481-533.  The callers have checked that the columns exist. *)
Definition analyze_regular (data : subset) (denominator : option subset) (q : f64) : result tresult :=
  let prep s := prepare_regular (period_values s "test") (sget "pretest" (s_periods s)) (arm_values s) q in
  let! y := prep data in
  match denominator with
  | Some den =>
      let! d := prep den in
      yuens_t_test_ind T argsort (fst y) (snd y) q (Some (fst d)) (Some (snd d)) false "two-sided" default_alpha
  | None => yuens_t_test_ind T argsort (fst y) (snd y) q None None false "two-sided" default_alpha
  end.

(** post_trim_percentile == 0.0 *)
Definition is_zero (q : f64) : bool := feqb q f0.

(** experiment_analysis.py:579-639 *)
Definition analyze_crossover (data : subset) (denominator : option subset) (q : f64) : result tresult :=
  let demean := is_zero q in
  let prep s := prepare_crossover (period_values s "test_1") (period_values s "test_2") (arm_values s) demean in
  let y := prep data in
  match denominator with
  | Some den =>
      let d := prep den in
      yuens_t_test_paired T argsort (fst y) (snd y) q (Some (fst d)) (Some (snd d)) "two-sided" default_alpha
  | None => yuens_t_test_paired T argsort (fst y) (snd y) q None None "two-sided" default_alpha
  end.

Section Table.
Context {K : Type} (arm : K -> option Z).

(** position of a column *)
Fixpoint column_index (c : string * string) (l : list (string * string)) : option nat :=
  match l with
  | [] => None
  | x :: r => if andb (String.eqb (fst c) (fst x)) (String.eqb (snd c) (snd x)) then Some 0%nat
              else option_map S (column_index c r)
  end.
Definition column_at (t : table K) (i : nat) : list num := map (fun r => nth i (snd r) NaN) (t_rows t).

(** data[metric].reset_index() : KeyError when no column has this top level.  [arm_level]: the index has a
    level with the name of the treatment assignment.  (A period named like an index level would make
    reset_index raise; not modelled.) *)
Definition metric_subset (t : table K) (arm_level : bool) (m : string) : result subset :=
  if existsb (fun c => String.eqb m (fst c)) (t_cols t) then
    Ok (mkSub (map (fun ic => (snd (snd ic), column_at t (fst ic)))
                 (filter (fun ic => String.eqb m (fst (snd ic))) (combine (seq 0 (List.length (t_cols t))) (t_cols t))))
              (if arm_level then Some (map (fun r => arm (fst r)) (t_rows t)) else None))
  else Err (KeyError m).

(** experiment_analysis.py:706-719 *)
Definition required_periods (p : params) : list string :=
  if crossover p then ["test_1"; "test_2"] else if (0 <? pretest p)%Z then ["test"; "pretest"] else ["test"].
Definition complete (p : params) (s : subset) : bool :=
  andb (match s_arms s with Some _ => true | None => false end)
       (forallb (fun c => match sget c (s_periods s) with Some _ => true | None => false end) (required_periods p)).

(** experiment_analysis.py:642-748 *)
Definition analyze_single_metric (t : table K) (arm_level : bool) (p : params) (m : string) (denominator : option string)
  (override : option f64) : result tresult :=
  let! data := metric_subset t arm_level m in
  let! den := match denominator with
              | Some d => let! s := metric_subset t arm_level d in Ok (Some s)
              | None => Ok None
              end in
  let! _ := raise_if (negb (andb (complete p data) (match den with Some s => complete p s | None => true end)))
              (ValueError "The dataframe is missing the following required columns") in
  let q := match override with None => post p | Some q => q end in
  if crossover p then analyze_crossover data den q else analyze_regular data den q.

(** experiment_simulations.py:307-397.  The frame is changed in place and returned. *)
Definition update_column (t : table K) (c : string * string) (f : K -> num -> num) : table K :=
  match column_index c (t_cols t) with
  | None => t
  | Some i => mkT (t_cols t)
      (map (fun r => (fst r, map (fun jv => if Nat.eqb (fst jv) i then f (fst r) (snd jv) else snd jv)
                                 (combine (seq 0 (List.length (snd r))) (snd r)))) (t_rows t))
  end.
Definition has_column (t : table K) (c : string * string) : bool :=
  match column_index c (t_cols t) with Some _ => true | None => false end.
Definition add_where (treated : option Z -> bool) (e : num) (k : K) (v : num) : num :=
  if treated (arm k) then nadd v e else v.
Definition apply_synthetic_treatment_effect (t : table K) (arm_level : bool) (p : params) (m : string) (e : num)
  : result (table K) :=
  let! _ := raise_if (negb arm_level)
              (ValueError "The pivoted_data does not contain the treatment_assignment_index_name.") in
  let required := if crossover p then [(m, "test_1"); (m, "test_2")] else [(m, "test")] in
  let! _ := raise_if (negb (forallb (has_column t) required))
              (ValueError "The pivoted_data is missing the following required columns") in
  if crossover p then
    let t := update_column t (m, "test_1") (add_where (arm_is 1) e) in
    Ok (update_column t (m, "test_2") (add_where (fun a => negb (arm_is 1 a)) e))
  else Ok (update_column t (m, "test") (add_where (arm_is 1) e)).
End Table.

(** experiment_analysis.py:751-772 *)
Record metric_spec : Type := mkMetric {
  ms_name : string; ms_column : string; ms_denominator : option string; ms_override : option f64
}.

(** the arm in the index of the pivoted data *)
Definition key_arm (k : akey) : option Z := match snd k with [a] => Some a | _ => None end.

(** experiment_analysis.py:774-836.  [as_list] is list(set(...)), in whatever order; the first component of
    the result is the caller's frame after the call.  An empty collection of metrics fails (in pivot_table
    or at the latest in set_index); which exception is not modelled. *)
Definition metric_columns_of (metrics : list metric_spec) : list string :=
  map ms_column metrics ++ flat_map (fun m => match ms_denominator m with Some d => [d] | None => [] end) metrics.
Definition analyze_experiment (as_list : list string -> list string) (f : frame) (metrics : list metric_spec)
  (p : params) (week item treat : string) : frame * result (list (string * tresult)) :=
  match metrics with
  | [] => (f, Err (KeyError "metric"))
  | _ =>
      let '(f', pivoted) := pivot_time_assignment f p 0 (as_list (metric_columns_of metrics)) item week (Some treat) "time_period" in
      (f', let! t := pivoted in
           mapM (fun m => let! r := analyze_single_metric key_arm t true p (ms_column m) (ms_denominator m) (ms_override m) in
                          Ok (ms_name m, r)) metrics)
  end.
End Analysis.
