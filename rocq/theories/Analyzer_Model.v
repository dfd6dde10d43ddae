(** Model of the steps of /repo/notebooks/02_experiment_analyzer.ipynb after the design is loaded: the form
    (lines 807-873 for a sheet, 953-1019 for a file; the same statements), the number of days per period
    (1372-1378), the plots over time (1524-1537), the metrics (1582-1601), the analysis (1671-1678), the table of
    projections (1996-2008) and the figure of the effects (2058).

    The call of the preparation in the form is [experiment_entry] of Entry_Model; here the later steps start from
    the rows it returns.  Reading the sheet or the file is not modelled. *)
From Coq Require Import ZArith Reals List String Ascii Bool.
From Flocq Require Import Core BinarySingleNaN.
Require Verif.Bars_Model Verif.Overtime_Model Verif.Cupedplot_Model.
Require Import Verif.Base Verif.Num Verif.Frame Verif.F64 Verif.ListLib Verif.Design_Model Verif.Periods_Model Verif.Stats_Model
  Verif.Analysis_Model Verif.Pipeline_Model Verif.Entry_Model Verif.Journey_Model.
Import ListNotations.
Open Scope string_scope.
Open Scope list_scope.

(* ------------------------------------------------------------------ *)
(** str.strip() for ASCII texts *)
Definition is_space (c : ascii) : bool :=
  let n := nat_of_ascii c in orb (andb (9 <=? n)%nat (n <=? 13)%nat) (andb (28 <=? n)%nat (n <=? 32)%nat).
Fixpoint strip_left (s : string) : string :=
  match s with String c r => if is_space c then strip_left r else s | EmptyString => s end.
Fixpoint strip_right (s : string) : string :=
  match s with
  | EmptyString => EmptyString
  | String c r => let r' := strip_right r in if andb (is_space c) (String.eqb r' "") then "" else String c r'
  end.
Definition strip_spaces (s : string) : string := strip_right (strip_left s).

(** str.split(",") *)
Fixpoint split_first_comma (s : string) : string * list string :=
  match s with
  | EmptyString => ("", [])
  | String c r => let '(h, t) := split_first_comma r in if Ascii.eqb c "," then ("", h :: t) else (String c h, t)
  end.
Definition split_commas (s : string) : list string := let '(h, t) := split_first_comma s in h :: t.

(** the fields of the form that name columns and checks *)
Record form := mkForm {
  f_clicks : string; f_impressions : string; f_cost : string; f_conversions : string; f_value : string;
  f_others : string; f_skip : string
}.

(** 828/974 *)
Definition form_skip (f : form) : list string :=
  filter (fun x => negb (String.eqb x "")) (map strip_spaces (split_commas (f_skip f))).
(** 830-854/976-1000: an empty name becomes None *)
Definition given (s : string) : option string := if String.eqb s "" then None else Some s.
Definition form_inputs (f : form) : list (option string) :=
  [given (f_clicks f); given (f_impressions f); given (f_cost f); given (f_conversions f); given (f_value f)].
(** 856-860/1002-1006; None, for an empty field, is the same as no column *)
Definition form_others (f : form) : list string :=
  if String.eqb (f_others f) "" then [] else map strip_spaces (split_commas (f_others f)).
(** metric_columns before line 873/1019 *)
Definition form_columns (f : form) : list string :=
  (if String.eqb (f_clicks f) "" then [] else ["clicks"]) ++
  (if String.eqb (f_impressions f) "" then [] else ["impressions"]) ++
  (if String.eqb (f_cost f) "" then [] else ["total_cost"]) ++
  (if String.eqb (f_conversions f) "" then [] else ["conversions"]) ++
  (if String.eqb (f_value f) "" then [] else ["total_conversion_value"]) ++ form_others f.
(** 863-872/1009-1018 *)
Definition form_at_least_one (f : form) : list (string * string) :=
  filter (fun kv => existsb (String.eqb (fst kv)) (form_columns f))
    [("clicks", "at_least_one_click"); ("impressions", "at_least_one_impression"); ("conversions", "at_least_one_conversion")].
(** metric_columns after line 873/1019 *)
Definition plotted_columns (f : form) : list string := form_columns f ++ map snd (form_at_least_one f).

(* ------------------------------------------------------------------ *)
(** 1372-1378: the distinct pairs of date and period, counted per period; groupby leaves out missing labels.
    [days_in] is the entry of one period, [days_per_period] the table, by increasing label. *)
Definition has_label (s : string) (r : erow) : bool := match e_period r with Some x => String.eqb x s | None => false end.
Definition days_in (rows : list erow) (s : string) : nat :=
  List.length (dedup Z.eqb (map e_date (filter (has_label s) rows))).
Definition text_leb (a b : string) : bool := match String.compare a b with Gt => false | _ => true end.
Definition labels_of (rows : list erow) : list string :=
  isort text_leb (dedup String.eqb (flat_map (fun r => match e_period r with Some s => [s] | None => [] end) rows)).
Definition days_per_period (rows : list erow) : list (string * nat) := map (fun s => (s, days_in rows s)) (labels_of rows).

(* ------------------------------------------------------------------ *)
(** 1524-1536: one figure per metric.  A missing label is no text; as text it is written "" here. *)
Definition plot_row (m : string) (r : erow) : Overtime_Model.orow :=
  Overtime_Model.mkOR
    (Cupedplot_Model.mkPR (e_item r) (Some (e_date r)) (match e_period r with Some s => s | None => "" end)
       (match get_num m (e_cols r) with Some x => x | None => NaN end)) (Some (e_arm r)).
Definition notebook_names (m : string) : Overtime_Model.names :=
  Overtime_Model.mkNames m "item_id" "time_period" "treatment_assignment" "date".
Definition plots_over_time (argsort : list num -> list nat) (empty : list num) (z : num) (rows : list erow) (metrics : list string)
    (cuped : bool) : result (list (list Overtime_Model.point * option Z)) :=
  mapM (fun m => Overtime_Model.plot_metric_over_time argsort empty z (columns (prepared_frame rows)) (notebook_names m)
                   (map (fun r => (e_date r, e_period r)) rows) (map (plot_row m) rows) cuped) metrics.

(* ------------------------------------------------------------------ *)
(** 1582-1601 *)
Definition notebook_metrics : list metric_spec :=
  [mkMetric "Clicks" "clicks" None None; mkMetric "Impressions" "impressions" None None; mkMetric "Cost" "total_cost" None None;
   mkMetric "Conversions" "conversions" None None; mkMetric "Conversion value" "total_conversion_value" None None;
   mkMetric "At least one impression" "at_least_one_impression" None (Some f0);
   mkMetric "At least one click" "at_least_one_click" None (Some f0);
   mkMetric "At least one conversion" "at_least_one_conversion" None (Some f0);
   mkMetric "CTR" "clicks" (Some "impressions") None; mkMetric "CPC" "total_cost" (Some "clicks") None;
   mkMetric "ROAS" "total_conversion_value" (Some "total_cost") None].
(** 1671-1678: daily_experiment_data.drop(columns="time_period") is analysed *)
Definition notebook_analysis (T : tdist) (argsort : list num -> list nat) (as_list : list string -> list string) (rows : list erow) (d : design)
    : result (list (string * tresult)) :=
  snd (analyze_experiment T argsort as_list (drop_col "time_period" (prepared_frame rows)) notebook_metrics (par d)
         "week_id" "item_id" "treatment_assignment").

(** 1996-2005: the rows of the table of projections *)
Definition projected_metrics : list string := ["Clicks"; "Impressions"; "Cost"; "Conversions"; "Conversion value"].
Definition projected_results (res : list (string * tresult)) : list (string * tresult) :=
  filter (fun nr => existsb (String.eqb (fst nr)) projected_metrics) res.

(** 2058.  The columns of relative differences hold numbers, with NaN where there is none; if no metric has one,
    they hold None and np.isfinite of plotting.py:539 fails, which comes after the check of the primary metric *)
Definition effect_row (nr : string * tresult) : Bars_Model.effect :=
  let number o := match o with Some x => x | None => NaN end in
  Bars_Model.mkE (fst nr)
    (Bars_Model.mkI (number (r_rel (snd nr))) (number (r_rel_lower (snd nr))) (number (r_rel_upper (snd nr)))) (r_significant (snd nr)).
Definition no_relative (nr : string * tresult) : bool := match r_rel (snd nr) with None => true | Some _ => false end.
Definition effects_figure (res : list (string * tresult)) (d : design)
    : result (Bars_Model.drawing * Bars_Model.drawing * Bars_Model.drawing) :=
  let is_primary nr := String.eqb (Bars_Model.lower (fst nr)) (Bars_Model.lower (metric (par d))) in
  match filter is_primary res with
  | [_] => if forallb no_relative res then Err (TypeError "ufunc 'isfinite' not supported for the input types")
           else Bars_Model.plot_effects (map effect_row res) (metric (par d))
  | _ => Bars_Model.plot_effects (map effect_row res) (metric (par d))
  end.
