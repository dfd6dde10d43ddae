(** Model of the summary of simulation analyses, feedx/experiment_simulations.py:1117-1319.

    The table is the list of its rows, a row being the index value (the design id) and the dictionary of the other columns.
    Floats of the design are binary64 numbers, the estimates are [num] as in Simulation_Model.  Not modelled: the colours of the
    bars and the rendering of the styled table; [str.title] is the ASCII one. *)
From Coq Require Import ZArith Reals String Ascii List Bool.
From Flocq Require Import Core BinarySingleNaN.
Require Import Verif.Base Verif.Num Verif.F64 Verif.ListLib Verif.Design_Model Verif.Simulation_Model Verif.Bars_Model.
Import ListNotations.
Open Scope string_scope.
Open Scope list_scope.

(** a value of the summary *)
Inductive sval := VNone | VInt (z : Z) | VFloat (x : f64) | VNum (x : num) | VStr (s : string) | VBool (b : bool).
Definition record : Type := list (string * sval).

Definition of_opt {A} (f : A -> sval) (o : option A) : sval := match o with Some a => f a | None => VNone end.

(** dataclasses.asdict(design): the fields in the order of experiment_design.py:54-69 *)
Definition asdict (d : design) : record :=
  let p := par d in
  [("n_items_before_trimming", VInt (n_before p)); ("runtime_weeks", VInt (runtime p)); ("primary_metric", VStr (metric p));
   ("pretest_weeks", VInt (pretest p)); ("is_crossover", VBool (crossover p)); ("pre_trim_top_percentile", VFloat (top p));
   ("pre_trim_bottom_percentile", VFloat (bottom p)); ("post_trim_percentile", VFloat (post p));
   ("crossover_washout_weeks", of_opt VInt (washout p)); ("alpha", VFloat (alpha p)); ("power", VFloat (power p));
   ("coinflip_salt", of_opt VStr (salt p)); ("n_items_after_pre_trim", VInt (n_pre d)); ("n_items_after_post_trim", VInt (n_post d))].

(** dictionary operations *)
Fixpoint dset (k : string) (v : sval) (r : record) : record :=
  match r with [] => [(k, v)] | (x, w) :: l => if String.eqb k x then (k, v) :: l else (x, w) :: dset k v l end.
Definition ddel (k : string) (r : record) : record := filter (fun kv => negb (String.eqb k (fst kv))) r.
Fixpoint dget (k : string) (r : record) : option sval :=
  match r with [] => None | (x, w) :: l => if String.eqb k x then Some w else dget k l end.

Section Summary.
(** repr of a float (see Design_Model), scipy's tests (see Simulation_Model) *)
Context (frepr : f64 -> string).
Context (kstest : list num -> result num) (binomtest : Z -> Z -> f64 -> string -> result num)
        (ttest_1samp : list num -> num -> result num).

(** lines 1150-1158: the names with their attributes *)
Definition summary_metrics : list (string * (sim -> result sval)) :=
  let numbers (f : sim -> result (option num)) s := let! v := f s in Ok (of_opt VNum v) in
  let checks (f : sim -> result (option bool)) s := let! v := f s in Ok (of_opt VBool v) in
  [("minimum_detectable_effect", numbers (fun s => Ok (sm_mde s)));
   ("relative_minimum_detectable_effect", numbers (fun s => Ok (sm_rel s)));
   ("simulated_false_positive_rate", numbers simulated_false_positive_rate);
   ("simulated_power_at_minimum_detectable_effect", numbers simulated_power);
   ("null_p_value_robustness_check_pass", checks (null_p_value_robustness_check_pass kstest));
   ("power_robustness_check_pass", checks (power_robustness_check_pass binomtest));
   ("false_positive_rate_robustness_check_pass", checks (false_positive_rate_robustness_check_pass binomtest));
   ("aa_point_estimate_robustness_check_pass", checks (aa_point_estimate_robustness_check_pass ttest_1samp));
   ("ab_point_estimate_robustness_check_pass", checks (ab_point_estimate_robustness_check_pass ttest_1samp));
   ("all_robustness_checks_pass", checks (all_robustness_checks_pass kstest binomtest ttest_1samp))].

(** lines 1160-1161: the loop *)
Fixpoint add_metrics (ms : list (string * (sim -> result sval))) (s : sim) (r : record) : result record :=
  match ms with
  | [] => Ok r
  | (k, f) :: l => let! v := f s in add_metrics l s (dset k v r)
  end.

(** lines 1117-1163 *)
Definition summary_dict (s : sim) : result record :=
  let! id := design_id frepr (sm_design s) in
  let r := dset "design_id" (VStr id) (asdict (sm_design s)) in
  add_metrics summary_metrics s (ddel "coinflip_salt" r).

(** a row of the table: index and columns *)
Definition row : Type := sval * record.

(** set_index("design_id") of one row *)
Definition index_row (r : record) : result row :=
  match dget "design_id" r with Some v => Ok (v, ddel "design_id" r) | None => Err (KeyError "design_id") end.

(** the value of a row used by sort_values: a column, or the index by its name *)
Definition sort_key (by_name : string) (r : row) : option sval :=
  if String.eqb by_name "design_id" then Some (fst r) else dget by_name (snd r).

(** lines 1166-1182.  [order] is the sorting permutation used by sort_values for the given keys (quicksort, not stable).  A
    frame made of no record has no column. *)
Definition make_analysis_summary_dataframe (order : list sval -> list nat) (analyses : list sim) (sort_by : string)
  : result (list row) :=
  let! records := mapM summary_dict analyses in
  let! _ := raise_if (match records with [] => true | _ => false end) (KeyError "design_id") in
  let! rows := mapM index_row records in
  let! keys := mapM (fun r => match sort_key sort_by r with Some v => Ok v | None => Err (KeyError sort_by) end) rows in
  Ok (map (fun i => nth i rows (VNone, [])) (order keys)).
End Summary.

(** str.endswith and str.startswith *)
Definition starts_with (p s : string) : bool := String.prefix p s.
Fixpoint ends_with (p s : string) : bool :=
  if String.eqb p s then true else match s with "" => false | String _ r => ends_with p r end.

(** lines 1195-1201 *)
Definition is_validation_column (c : string) : bool := orb (ends_with "_pass" c) (starts_with "simulated_" c).
Definition drop_columns (f : string -> bool) (rows : list row) : list row :=
  map (fun r => (fst r, filter (fun kv => negb (f (fst kv))) (snd r))) rows.

(** equality as seen by nunique(dropna=False): missing values are equal to each other *)
Definition same_value (a b : sval) : bool :=
  match a, b with
  | VNone, VNone => true
  | VInt x, VInt y => Z.eqb x y
  | VFloat x, VFloat y => orb (feqb x y) (andb (is_nan x) (is_nan y))
  | VNum x, VNum y => orb (neqb x y) (andb (nis_nan x) (nis_nan y))
  | VStr x, VStr y => String.eqb x y
  | VBool x, VBool y => Bool.eqb x y
  | _, _ => false
  end.
Fixpoint distinct_values (l : list sval) : list sval :=
  match l with [] => [] | v :: r => v :: filter (fun w => negb (same_value v w)) (distinct_values r) end.

(** lines 1221-1234 *)
Definition design_attributes : list string :=
  ["primary_metric"; "alpha"; "power"; "n_items_before_trimming"; "n_items_after_pre_trim"; "n_items_after_post_trim";
   "runtime_weeks"; "pretest_weeks"; "pre_trim_top_percentile"; "pre_trim_bottom_percentile"; "post_trim_percentile"; "is_crossover"].

(** summary_data[column] *)
Definition column_values (c : string) (rows : list row) : result (list sval) :=
  mapM (fun r => match dget c (snd r) with Some v => Ok v | None => Err (KeyError c) end) rows.

(** lines 1235-1242: the constant columns with the value of the first row *)
Fixpoint constant_columns (cols : list string) (rows : list row) : result (list (string * sval)) :=
  match cols with
  | [] => Ok []
  | c :: l =>
      let! vs := column_values c rows in
      let! rest := constant_columns l rows in
      match distinct_values vs, vs with
      | [_], v :: _ => Ok ((c, v) :: rest)
      | _, _ => Ok rest
      end
  end.

(** [in_names], with the arguments of filter *)
Definition is_in (l : list string) (c : string) : bool := existsb (String.eqb c) l.

(** lines 1204-1246; [text] is str of a value.  ", ".join *)
Fixpoint join (l : list string) : string :=
  match l with [] => "" | [x] => x | x :: r => (x ++ ", " ++ join r)%string end.
Definition extract_constants (text : sval -> string) (rows : list row) : result (list row * string) :=
  let! constants := constant_columns design_attributes rows in
  Ok (drop_columns (is_in (map fst constants)) rows,
      join (map (fun cv => fst cv ++ " = " ++ text (snd cv))%string constants)).

(** column.replace("_", " ").title() *)
Fixpoint spaces (s : string) : string :=
  match s with "" => "" | String c r => String (if Ascii.eqb c "_" then " " else c) (spaces r) end.
Definition is_upper (c : ascii) : bool := let n := nat_of_ascii c in andb (65 <=? n)%nat (n <=? 90)%nat.
Definition is_lower (c : ascii) : bool := let n := nat_of_ascii c in andb (97 <=? n)%nat (n <=? 122)%nat.
Definition upper_char (c : ascii) : ascii := if is_lower c then ascii_of_nat (nat_of_ascii c - 32) else c.
Fixpoint title_from (in_word : bool) (s : string) : string :=
  match s with
  | "" => ""
  | String c r => String (if in_word then lower_char c else upper_char c) (title_from (orb (is_upper c) (is_lower c)) r)
  end.
Definition clean_name (c : string) : string := title_from false (spaces c).

(** lines 1185-1192 *)
Definition format_check_column (value : option bool) : string :=
  match value with
  | None => ""
  | Some b => if b then "background-color:lightgreen" else "background-color:darkred;color:white"
  end.

(** what the styled table shows: caption, rows under their clean names, the columns formatted as percentages and the columns
    coloured as checks *)
Record display := mkDisplay { d_caption : string; d_rows : list row; d_percent : list string; d_checks : list string }.

(** lines 1276-1319; [columns] are those of the first row (all rows have the same) *)
Definition columns_of (rows : list row) : list string := match rows with [] => [] | r :: _ => map fst (snd r) end.
Definition percent_columns : list string :=
  ["Relative Minimum Detectable Effect"; "Pre Trim Top Percentile"; "Pre Trim Bottom Percentile"; "Post Trim Percentile";
   "Simulated False Positive Rate"; "Simulated Power At Minimum Detectable Effect"].
Definition format_summary (text : sval -> string) (rows : list row) (with_validation_columns : bool) : result display :=
  let rows := if with_validation_columns then rows else drop_columns is_validation_column rows in
  let! extracted := extract_constants text rows in
  let summary := snd extracted in
  let rows := map (fun r => (fst r, map (fun kv => (clean_name (fst kv), snd kv)) (snd r))) (fst extracted) in
  Ok (mkDisplay ("Analysis results of experiment designs where the following design attributes are constant for all designs: " ++ summary)%string
        rows (filter (is_in (columns_of rows)) percent_columns) (filter (ends_with " Pass") (columns_of rows))).
