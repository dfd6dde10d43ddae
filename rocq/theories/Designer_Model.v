(** Model of /repo/notebooks/01_experiment_designer.ipynb, cells 20, 25, 27, 31 and 39: the way from
    the raw rows to the exported experiment, composed from the models of the functions it calls.

    The dictionary of the analyses by design id is a list in the order of the designs here: two
    equal candidates give two entries instead of one.  The parsing of the form fields, the printed
    and plotted output and the storing of the files (modelled in Design_Model) are left out. *)
From Coq Require Import ZArith Reals List String Bool.
Require Import Verif.Base Verif.Num Verif.Frame Verif.F64 Verif.ListLib Verif.Design_Model Verif.Enumerate_Model
  Verif.Rows_Model Verif.Checks_Model Verif.Assign_Model Verif.Pipeline_Model Verif.Trimmed_Model Verif.Stats_Model
  Verif.Analysis_Model Verif.Simulation_Model.
Import ListNotations.
Open Scope string_scope.
Open Scope Z_scope.

(** cell 20: what prepare_and_validate_historical_data returns, as a frame.  The order of the
    columns depends on whether the raw data was daily; nothing below looks at it. *)
Definition historical_frame (column : string) (rows : list grow) : frame :=
  [("week_id", map (fun g => CZ (g_week g)) rows); ("week_start", map (fun g => CZ (g_start g)) rows);
   ("item_id", map (fun g => CStr (g_item g)) rows); (column, map (fun g => CNum (nth 0 (g_vals g) NaN)) rows)].

(** the rows perform_treatment_assignment reads from that frame *)
Definition assignment_rows (rows : list grow) : list hrow :=
  map (fun g => mkH (g_item g) (g_week g) (nth 0 (g_vals g) NaN)) rows.

Section Designer.
Context (T : tdist) (argsort : list num -> list nat) {G : Type} (shuffle_of sample_of : G -> nat -> list nat * G).

(** cell 27: one analysis per design.  Each works on its own copy of the data and draws from the
    common generator; the other arguments of SimulationAnalysis are the defaults of
    experiment_simulations.py:497-501; 0.0001 is the nearest binary64 number. *)
Definition new_analysis (d : design) (f : frame) (minimum : Z) : result sim :=
  mk_sim d f "item_id" "week_id" minimum "time_period" "treatment" (rnd (1 / 10000)).
Fixpoint estimate_designs (f : frame) (minimum : Z) (ds : list design) (g : G) : G * result (list sim) :=
  match ds with
  | [] => (g, Ok [])
  | d :: ds' =>
      match new_analysis d f minimum with
      | Err e => (g, Err e)
      | Ok s =>
          match estimate_minimum_detectable_effect T argsort shuffle_of sample_of s (f, g) with
          | ((_, (_, g')), Err e) => (g', Err e)
          | ((s', (_, g')), Ok _) =>
              match estimate_designs f minimum ds' g' with
              | (g'', Ok l) => (g'', Ok (s' :: l))
              | (g'', Err e) => (g'', Err e)
              end
          end
      end
  end.

(** the form fields of cell 25 *)
Record candidates := mkCand {
  c_runtimes : list Z; c_pretests : list Z; c_tops : list f64; c_bottoms : list f64; c_posts : list f64;
  c_crossover : bool; c_traditional : bool; c_washout : Z
}.

(** cell 25 *)
Definition designs_to_simulate (column : string) (c : candidates) (rows : list grow) : result (list design * Z) :=
  let! _ := raise_if (andb (c_crossover c) (c_washout c <? 1))
              (ValueError "crossover_washout_weeks must be greater than 0 to avoid any leakage.") in
  let! ds := generate_all_valid_designs (Z.of_nat (List.length (dedup String.eqb (map g_item rows))))
               (c_crossover c) (c_traditional c) (c_runtimes c) (c_pretests c) (c_tops c) (c_bottoms c) (c_posts c)
               column (Some (c_washout c)) in
  let! minimum := calculate_minimum_start_week_id (c_runtimes c) (c_pretests c) (dedup Z.eqb (map g_week rows)) in
  Ok (ds, minimum).

(** cells 20, 25 and 27: from the raw rows to the estimated designs.  [column] is the name of the
    metric column, which is the primary metric unless that is "other". *)
Definition estimate_all (by_date : list (Z * Z) -> list (Z * Z)) (frac : f64) (draw : list string -> Z -> list string)
    (primary_metric column : string) (skip : list string) (raw : list obs) (c : candidates) (g : G)
    : G * result (list grow * list sim) :=
  match (let! rows := prepare_historical by_date frac draw primary_metric column skip raw in
         let! dm := designs_to_simulate column c rows in Ok (rows, dm)) with
  | Err e => (g, Err e)
  | Ok (rows, (ds, minimum)) =>
      match estimate_designs (historical_frame column rows) minimum ds g with
      | (g', Ok l) => (g', Ok (rows, l))
      | (g', Err e) => (g', Err e)
      end
  end.

(** cell 31, for one design: an analysis with results is not validated again unless forced to *)
Definition validate_selected (arms_of : G -> nat -> list Z * G) (choice_of : G -> list Z -> Z * G)
    (force : bool) (n_simulations : nat) (s : sim) (f : frame) (g : G) : (sim * G) * result unit :=
  match simulated_false_positive_rate s with
  | Err e => ((s, g), Err e)
  | Ok rate =>
      if andb (negb force) (match rate with None => false | Some _ => true end) then ((s, g), Ok tt)
      else let '((s', x), r) := run_validate_design T argsort shuffle_of sample_of arms_of choice_of s n_simulations (f, g) in
           ((s', snd x), r)
  end.
End Designer.

(** cell 39: no export without a successful validation.  [sh] and [bytes] are what the generator
    returns for the tie breaks and the salt. *)
Definition export_design (kstest : list num -> result num) (binomtest : Z -> Z -> f64 -> string -> result num)
    (ttest_1samp : list num -> num -> result num) (binom : Z -> Z -> result num) (column : string)
    (sh : nat -> list nat) (bytes : list N) (s : sim) (rows : list grow) : design * result (list (string * Z)) :=
  let checks :=
    let! rate := simulated_false_positive_rate s in
    let! _ := raise_if (match rate with None => true | Some _ => false end)
                (ValueError "Cannot export because the validation has not been run.") in
    let! pass := all_robustness_checks_pass kstest binomtest ttest_1samp s in
    raise_if (negb (match pass with Some b => b | None => false end))
      (ValueError "Cannot export because the validation did not pass.") in
  match checks with
  | Err e => (sm_design s, Err e)
  | Ok _ => perform_treatment_assignment binom (columns (historical_frame column rows)) "item_id" (Some "week_id")
              "treatment_assignment" sh bytes (sm_design s) (assignment_rows rows)
  end.
