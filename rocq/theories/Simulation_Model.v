(** Model of /repo/feedx/experiment_simulations.py:196-304 and 400-1183: bootstrap sampling, random
    assignment of simulated data and the class SimulationAnalysis.

    The random number generator is a state of an arbitrary type with one operation per kind of draw;
    scipy's kstest, binomtest and ttest_1samp are arbitrary functions.  The progress bar is not
    modelled. *)
From Coq Require Import ZArith Reals List String Ascii Bool.
From Flocq Require Import Core BinarySingleNaN.
Require Import Verif.Base Verif.Num Verif.Frame Verif.F64 Verif.ListLib Verif.Design_Model Verif.Periods_Model
  Verif.Enumerate_Model Verif.Rows_Model Verif.Checks_Model Verif.Assign_Model Verif.Trimmed_Model Verif.Cuped_Model Verif.Stats_Model
  Verif.Pivot_Model Verif.Analysis_Model.
Import ListNotations.
Open Scope string_scope.
Open Scope list_scope.

(** a value of the item level of an index: an item id, or the number written by the bootstrap *)
Inductive ikey := IStr (s : string) | IInt (z : Z).
Definition ikeqb (a b : ikey) : bool :=
  match a, b with IStr s, IStr t => String.eqb s t | IInt x, IInt y => Z.eqb x y | _, _ => false end.

(** a label of data.columns: a name, or a tuple of a column MultiIndex *)
Inductive clabel := CName (s : string) | CTuple (l : list string).

(** a data frame with its index: column labels, names of the index levels, whether the index is a
    MultiIndex, rows *)
Record indexed : Type := mkInd {
  x_cols : list clabel; x_names : list string; x_multi : bool; x_rows : list (list ikey * list num)
}.

(** str.strip("_") *)
Definition underscore : ascii := "_"%char.
Fixpoint lstrip (s : string) : string :=
  match s with
  | String c r => if Ascii.eqb c underscore then lstrip r else s
  | EmptyString => s
  end.
Fixpoint rstrip (s : string) : string :=
  match s with
  | EmptyString => EmptyString
  | String c r =>
      let r' := rstrip r in
      if andb (Ascii.eqb c underscore) (String.eqb r' "") then "" else String c r'
  end.
Definition strip (s : string) : string := rstrip (lstrip s).
(** str.split("__"): the first piece and the others *)
Fixpoint split_first (s : string) : string * list string :=
  match s with
  | EmptyString => ("", [])
  | String c r =>
      match r with
      | String c' r' =>
          if andb (Ascii.eqb c underscore) (Ascii.eqb c' underscore) then
            let '(h, t) := split_first r' in ("", h :: t)
          else let '(h, t) := split_first r in (String c h, t)
      | EmptyString => (String c "", [])
      end
  end.
Definition split2 (s : string) : list string := let '(h, t) := split_first s in h :: t.

(** experiment_simulations.py:291-293: "__".join(col).strip("_") *)
Definition flat_name (c : string * string) : string := strip (fst c ++ "__" ++ snd c)%string.
(** experiment_simulations.py:301-303: tuple(col.split("__")) *)
Definition unflat_name (s : string) : list string := split2 s.

Section Sim.
Context (T : tdist) (argsort : list num -> list nat).
Context {G : Type}.
(** data.sample(frac=1.0): all positions in random order; data.sample(frac=1.0, replace=True): as many
    positions; rng.choice(2, size=n); rng.choice of a non-empty sequence *)
Context (shuffle_of sample_of : G -> nat -> list nat * G) (arms_of : G -> nat -> list Z * G)
        (choice_of : G -> list Z -> Z * G).

(** experiment_simulations.py:196-249 *)
Definition bootstrap_sample_data (x : indexed) (g : G) (item : string) : G * result indexed :=
  let is_protected c := match c with
                        | CName s => orb (String.eqb s "n_samples_") (String.eqb s "dummy_list_")
                        | CTuple _ => false
                        end in
  if existsb is_protected (x_cols x) then (g, Err (ValueError "The input data must not contain the following columns"))
  else
    let '(positions, g') := sample_of g (List.length (x_rows x)) in
    let sampled := map (fun i => nth i (x_rows x) ([], [])) positions in
    let numbered := combine (seq 0 (List.length sampled)) sampled in
    if x_multi x then
      (g', Ok (mkInd (x_cols x) (x_names x) true
        (map (fun ir => (map (fun nv => if String.eqb (fst nv) item then IInt (Z.of_nat (fst ir)) else snd nv)
                             (combine (x_names x) (fst (snd ir))), snd (snd ir))) numbered)))
    else
      (g', Ok (mkInd (x_cols x) [item] false (map (fun ir => ([IInt (Z.of_nat (fst ir))], snd (snd ir))) numbered))).

(** the pivoted data as a frame with an index, and back *)
Definition as_indexed (item : string) (t : table ikey) : indexed :=
  mkInd (map (fun c => CTuple [fst c; snd c]) (t_cols t)) [item] false (map (fun r => ([fst r], snd r)) (t_rows t)).
Definition of_indexed (cols : list (string * string)) (x : indexed) : table ikey :=
  mkT cols (map (fun r => (hd (IStr "") (fst r), snd r)) (x_rows x)).

(** experiment_simulations.py:252-304, called with the pivoted data after reset_index(): the columns are
    the item column ([item], "") followed by the metrics.  A name is in the columns when it is a top
    level name.  The result has a column per tuple and the index (item, arm). *)
Record assigned : Type := mkAs { a_cols : list (list string); a_rows : list ((ikey * Z) * list num) }.
Fixpoint first_position (k : ikey) (l : list ikey) : nat :=
  match l with [] => 0%nat | x :: r => if ikeqb k x then 0%nat else S (first_position k r) end.
Definition apply_random_treatment_assignment (t : table ikey) (g : G) (item treat : string) : G * result assigned :=
  if orb (String.eqb treat item) (existsb (fun c => String.eqb treat (fst c)) (t_cols t)) then
    (g, Err (ValueError "The data already contains a treatment column, cannot add one."))
  else
    let flat := map flat_name (t_cols t) in
    (* all flat names are stripped: the item column is not found otherwise *)
    if negb (String.eqb (flat_name (item, "")) item) then (g, Err (KeyError item))
    else
      let items := dedup ikeqb (map fst (t_rows t)) in
      let '(arms, g') := arms_of g (List.length items) in
      (* merge and set_index want the names to be unambiguous *)
      if existsb (String.eqb item) flat then (g', Err (ValueError "The column label is not unique."))
      else if existsb (String.eqb treat) flat then (g', Err (KeyError treat))
      else
        (g', Ok (mkAs (map unflat_name flat)
                      (map (fun r => ((fst r, nth (first_position (fst r) items) arms 0%Z), snd r)) (t_rows t)))).

(** the columns as (metric, period); with any other number of levels the metric is not a top level
    name (see Simulation_Props.v) *)
Definition pair_of (c : list string) : option (string * string) := match c with [a; b] => Some (a, b) | _ => None end.
Definition as_table (m : string) (a : assigned) : result (table (ikey * Z)) :=
  let! cols := mapM (fun c => match pair_of c with Some p => Ok p | None => Err (KeyError m) end) (a_cols a) in
  Ok (mkT cols (a_rows a)).
Definition sim_arm (k : ikey * Z) : option Z := Some (snd k).

(** Methods change the data (pivoting may) and the generator also when they fail. *)
Definition st : Type := (frame * G)%type.
Definition ST (A : Type) : Type := st -> st * result A.
Definition sret {A} (r : result A) : ST A := fun s => (s, r).
Definition sbind {A B} (m : ST A) (k : A -> ST B) : ST B :=
  fun s => match m s with (s', Ok a) => k a s' | (s', Err e) => (s', Err e) end.
Fixpoint smap {A B} (f : A -> ST B) (l : list A) : ST (list B) :=
  match l with
  | [] => sret (Ok [])
  | a :: r => sbind (f a) (fun b => sbind (smap f r) (fun bs => sret (Ok (b :: bs))))
  end.
Definition on_rng {A} (f : G -> G * result A) : ST A := fun s => let '(g', r) := f (snd s) in ((fst s, g'), r).
Definition on_frame {A} (f : frame -> frame * result A) : ST A := fun s => let '(f', r) := f (fst s) in ((f', snd s), r).

(** experiment_simulations.py:400-525, the attributes (without the data and the generator); the
    estimates are None before estimate_minimum_detectable_effect.  [sm_max]: None if there is no week
    (pandas: NaN) *)
Record sim : Type := mkSim {
  sm_design : design; sm_item : string; sm_week : string; sm_min : Z; sm_max : option Z;
  sm_period : string; sm_treatment : string; sm_threshold : R;
  sm_mde : option num; sm_rel : option num; sm_avg : option num; sm_sd : option num;
  sm_aa : option (list tresult); sm_ab : option (list tresult)
}.

(** data[week].max(): missing values are skipped *)
Definition max_week (f : frame) (week : string) : option Z :=
  Checks_Model.list_max (flat_map (fun c => match z_of_cell c with Some z => [z] | None => [] end) (col_or_nil week f)).

(** the constructor, lines 490-525 *)
Definition mk_sim (d : design) (f : frame) (item week : string) (minimum : Z) (period treat : string) (threshold : R) : result sim :=
  if has_col week f then
    Ok (mkSim d item week minimum (option_map (fun m => (m - runtime (par d) + 1)%Z) (max_week f week))
          period treat threshold None None None None None None)
  else Err (KeyError week).

(** lines 527-529: range(minimum, maximum + 1) *)
Definition zrange (a b : Z) : list Z := map (fun i => (a + Z.of_nat i)%Z) (seq 0 (Z.to_nat (b - a))).
Definition valid_start_week_ids (s : sim) : result (list Z) :=
  match sm_max s with
  | None => Err (TypeError "'float' object cannot be interpreted as an integer")
  | Some m => Ok (zrange (sm_min s) (m + 1))
  end.

(** data_preparation.trim_outliers of the pivoted data by (metric, "pretest"), lines 578-585.  The data
    is only shuffled (and the column only read) when something is trimmed. *)
Definition trims_nothing (n : nat) (a b : f64) : bool :=
  match floor_mul' (Z.of_nat n) a, floor_mul' (Z.of_nat n) b with
  | Ok x, Ok y => andb (Z.eqb x 0) (Z.eqb y 0)
  | _, _ => false
  end.
Definition trim_pivoted (p : params) (t : table ikey) (g : G) : G * result (table ikey) :=
  let n := List.length (t_rows t) in
  let value (r : ikey * list num) := match column_index (metric p, "pretest") (t_cols t) with
                                     | Some i => nth i (snd r) NaN
                                     | None => NaN
                                     end in
  let g' := if trims_nothing n (top p) (bottom p) then g else snd (shuffle_of g n) in
  match trim_outliers value (top p) (bottom p) (fun k => fst (shuffle_of g k)) (t_rows t) with
  | Err e => (g, Err e)
  | Ok rows =>
      if andb (negb (trims_nothing n (top p) (bottom p))) (negb (has_column t (metric p, "pretest")))
      then (g', Err (KeyError "pretest"))
      else (g', Ok (mkT (t_cols t) rows))
  end.

(** lines 531-596 *)
Definition get_pivoted_and_trimmed (s : sim) (start : Z) (bootstrap : bool) : ST (table ikey) :=
  let d := sm_design s in
  let p := par d in
  sbind (on_frame (fun f => pivot_time_assignment f p start [metric p] (sm_item s) (sm_week s) None (sm_period s))) (fun t0 =>
  let t1 := mkT (t_cols t0) (map (fun r => (IStr (fst (fst r)), snd r)) (t_rows t0)) in
  sbind (if bootstrap then
           on_rng (fun g => let '(g', r) := bootstrap_sample_data (as_indexed (sm_item s) t1) g (sm_item s) in
                            (g', let! x := r in Ok (of_indexed (t_cols t1) x)))
         else sret (Ok t1)) (fun t2 =>
  sbind (sret (raise_if (andb (negb bootstrap) (negb (Z.eqb (Z.of_nat (List.length (t_rows t2))) (n_before p))))
                 (RuntimeError "Unexpected number of items before trimming."))) (fun _ =>
  sbind (if (0 <? pretest p)%Z then on_rng (trim_pivoted p t2) else sret (Ok t2)) (fun t3 =>
  sbind (sret (raise_if (andb (negb bootstrap) (negb (Z.eqb (Z.of_nat (List.length (t_rows t3))) (n_pre d))))
                 (RuntimeError "Unexpected number of items after pre-trimming."))) (fun _ =>
  sret (Ok t3)))))).

(** data[metric][period].values : KeyError if there is no such column *)
Definition metric_values {K} (t : table K) (m s : string) : result (list num) :=
  match column_index (m, s) (t_cols t) with
  | Some i => Ok (column_at t i)
  | None => Err (KeyError s)
  end.

(** lines 618-675 on the pivoted data: average, variance, sample size *)
Definition primary_metric_stats (d : design) (t : table ikey) : result (num * num * nat) :=
  let p := par d in
  let! stats :=
    (if crossover p then
       let! y_1 := metric_values t (metric p) "test_1" in
       let! y_2 := metric_values t (metric p) "test_2" in
       let! trimmed := mk_trimmed argsort [zip_with nsub y_1 y_2; y_1; y_2] (post p) in
       let means := t_mean argsort trimmed in
       let variance := vec (t_var argsort trimmed 1) 0 in
       let gap := nsub (vec means 1) (vec means 2) in
       Ok (nmul (Fin (1 / 2)) (nadd (vec means 1) (vec means 2)),
           (if fgtb (post p) f0 then nadd variance (ndiv (nmul gap gap) (Fin 4)) else variance),
           t_len argsort trimmed)
     else
       let! test := metric_values t (metric p) "test" in
       let! y := match metric_values t (metric p) "pretest" with
                 | Ok pre => apply_cuped_adjustment argsort test pre (post p)
                 | Err _ => Ok test
                 end in
       let! trimmed := mk_trimmed argsort [y] (post p) in
       Ok (vec (t_mean argsort trimmed) 0, vec (t_var argsort trimmed 1) 0, t_len argsort trimmed)) in
  let! _ := raise_if (negb (Z.eqb (Z.of_nat (snd stats)) (n_post d)))
              (RuntimeError "Unexpected number of items after post-trimming.") in
  Ok stats.
Definition estimate_primary_metric_stats (s : sim) (start : Z) : ST (num * num * nat) :=
  sbind (get_pivoted_and_trimmed s start false) (fun t => sret (primary_metric_stats (sm_design s) t)).

(** lines 677-716 *)
Definition estimate_average_primary_metric_stats (s : sim) : ST (num * num * nat) :=
  sbind (sret (valid_start_week_ids s)) (fun starts =>
  sbind (smap (estimate_primary_metric_stats s) starts) (fun stats =>
  sret match stats with
       | [] => Err (ValueError "not enough values to unpack (expected 3, got 0)")
       | first :: _ =>
           let average := nmean (map (fun x => fst (fst x)) stats) in
           let sd := nsqrt (nmean (map (fun x => snd (fst x)) stats)) in
           let! _ := raise_if (existsb (fun x => negb (Nat.eqb (snd x) (snd first))) stats)
                       (RuntimeError "The sample size was different for different weeks.") in
           Ok (average, sd, snd first)
       end)).

(** lines 718-769; alpha and power are taken to be finite *)
Definition minimum_detectable_effect_of (p : params) (average sd : num) (n : nat) : result (num * num) :=
  let size := Fin (INR n) in
  let! mde := (if crossover p
               then paired_minimum_detectable_effect T sd size "two-sided" (B2R (power p)) (B2R (alpha p))
               else ind_minimum_detectable_effect T sd size "two-sided" (B2R (power p)) (B2R (alpha p))) in
  Ok (mde, ndiv mde average).

(** lines 771-803 *)
Definition estimate_minimum_detectable_effect (s : sim) (x : st) : (sim * st) * result unit :=
  match estimate_average_primary_metric_stats s x with
  | (x', Err e) => ((s, x'), Err e)
  | (x', Ok (average, sd, n)) =>
      match minimum_detectable_effect_of (par (sm_design s)) average sd n with
      | Err e => ((s, x'), Err e)
      | Ok (mde, rel) =>
          ((mkSim (sm_design s) (sm_item s) (sm_week s) (sm_min s) (sm_max s) (sm_period s) (sm_treatment s) (sm_threshold s)
              (Some mde) (Some rel) (Some average) (Some sd) (sm_aa s) (sm_ab s), x'), Ok tt)
      end
  end.

(** lines 869-907: one simulation *)
Definition simulate_once (s : sim) (mde : num) : ST (tresult * tresult) :=
  let p := par (sm_design s) in
  sbind (sret (valid_start_week_ids s)) (fun starts =>
  sbind (match starts with
         | [] => sret (Err (ValueError "a cannot be empty unless no samples are taken"))
         | _ => on_rng (fun g => let '(c, g') := choice_of g starts in (g', Ok c))
         end) (fun start =>
  sbind (get_pivoted_and_trimmed s start true) (fun t =>
  sbind (on_rng (fun g => apply_random_treatment_assignment t g (sm_item s) (sm_treatment s))) (fun a =>
  sret (let! aa := as_table (metric p) a in
        let! r_aa := analyze_single_metric T argsort sim_arm aa true p (metric p) None None in
        let! ab := apply_synthetic_treatment_effect sim_arm aa true p (metric p) mde in
        let! r_ab := analyze_single_metric T argsort sim_arm ab true p (metric p) None None in
        Ok (r_aa, r_ab)))))).

(** lines 805-914 [validate_design] *)
Definition run_validate_design (s : sim) (n_simulations : nat) (x : st) : (sim * st) * result unit :=
  match sm_mde s with
  | None => ((s, x), Err (RuntimeError "Cannot run validate_design() before estimate_minimum_detectable_effect()."))
  | Some mde =>
      match smap (fun _ : nat => simulate_once s mde) (seq 0 n_simulations) x with
      | (x', Err e) => ((s, x'), Err e)
      | (x', Ok results) =>
          ((mkSim (sm_design s) (sm_item s) (sm_week s) (sm_min s) (sm_max s) (sm_period s) (sm_treatment s) (sm_threshold s)
              (sm_mde s) (sm_rel s) (sm_avg s) (sm_sd s) (Some (map fst results)) (Some (map snd results)), x'), Ok tt)
      end
  end.

Section Checks.
(** stats.kstest(x, uniform.cdf).pvalue, stats.binomtest(k, n, p, alternative).pvalue,
    stats.ttest_1samp(x, mean).pvalue *)
Context (kstest : list num -> result num) (binomtest : Z -> Z -> f64 -> string -> result num)
        (ttest_1samp : list num -> num -> result num).

(** results["p_value"].values: a frame made of no record has no column *)
Definition column_of {A} (f : tresult -> A) (l : list tresult) : result (list A) :=
  match l with [] => Err (KeyError "column") | _ => Ok (map f l) end.

(** lines 916-930 *)
Definition null_p_value_robustness_p_value (s : sim) : result (option num) :=
  match sm_aa s with
  | None => Ok None
  | Some l => let! v := column_of r_p_value l in let! p := kstest v in Ok (Some p)
  end.
(** lines 932-939 and 975-982 *)
Definition is_statistically_significant (s : sim) (l : list tresult) : result (list Z) :=
  let! v := column_of r_p_value l in
  Ok (map (fun x => if nltb x (Fin (B2R (alpha (par (sm_design s))))) then 1%Z else 0%Z) v).
Definition zsum (l : list Z) : Z := fold_right Z.add 0%Z l.
Definition zmean (l : list Z) : num := ndiv (Fin (IZR (zsum l))) (Fin (INR (List.length l))).
(** lines 941-954 *)
Definition simulated_false_positive_rate (s : sim) : result (option num) :=
  match sm_aa s with
  | None => Ok None
  | Some l => let! v := is_statistically_significant s l in Ok (Some (zmean v))
  end.
(** lines 956-973 *)
Definition false_positive_rate_robustness_p_value (s : sim) : result (option num) :=
  match sm_aa s with
  | None => Ok None
  | Some l => let! v := is_statistically_significant s l in
              let! p := binomtest (zsum v) (Z.of_nat (List.length v)) (alpha (par (sm_design s))) "greater" in Ok (Some p)
  end.
(** the A/B results, read when the A/A results are not None; both are set together *)
Definition ab_results (s : sim) : result (list tresult) :=
  match sm_ab s with Some l => Ok l | None => Err (TypeError "'NoneType' object is not subscriptable") end.
(** lines 984-999 *)
Definition simulated_power (s : sim) : result (option num) :=
  match sm_aa s with
  | None => Ok None
  | Some _ => let! l := ab_results s in let! v := is_statistically_significant s l in Ok (Some (zmean v))
  end.
(** lines 1001-1020 *)
Definition power_robustness_p_value (s : sim) : result (option num) :=
  match sm_aa s with
  | None => Ok None
  | Some _ => let! l := ab_results s in
              let! v := is_statistically_significant s l in
              let! p := binomtest (zsum v) (Z.of_nat (List.length v)) (power (par (sm_design s))) "less" in Ok (Some p)
  end.
(** lines 1022-1037 *)
Definition aa_point_estimate_robustness_p_value (s : sim) : result (option num) :=
  match sm_aa s with
  | None => Ok None
  | Some l => let! v := column_of r_abs l in let! p := ttest_1samp v (Fin 0) in Ok (Some p)
  end.
(** lines 1039-1055; None - x is a TypeError *)
Definition ab_point_estimate_robustness_p_value (s : sim) : result (option num) :=
  match sm_aa s with
  | None => Ok None
  | Some _ => let! l := ab_results s in
              let! v := column_of r_abs l in
              match sm_mde s with
              | None => Err (TypeError "unsupported operand type")
              | Some mde => let! p := ttest_1samp v mde in Ok (Some p)
              end
  end.
(** lines 1057-1067 *)
Definition is_above_p_value_threshold (s : sim) (p_value : option num) : option bool :=
  match p_value with None => None | Some p => Some (nleb (Fin (sm_threshold s)) p) end.
(** lines 1069-1100 *)
Definition check_pass (p_value : sim -> result (option num)) (s : sim) : result (option bool) :=
  let! p := p_value s in Ok (is_above_p_value_threshold s p).
Definition null_p_value_robustness_check_pass := check_pass null_p_value_robustness_p_value.
Definition power_robustness_check_pass := check_pass power_robustness_p_value.
Definition aa_point_estimate_robustness_check_pass := check_pass aa_point_estimate_robustness_p_value.
Definition ab_point_estimate_robustness_check_pass := check_pass ab_point_estimate_robustness_p_value.
Definition false_positive_rate_robustness_check_pass := check_pass false_positive_rate_robustness_p_value.
(** lines 1102-1115 *)
Definition all_robustness_checks_pass (s : sim) : result (option bool) :=
  let! checks := mapM (fun c => c s) [null_p_value_robustness_check_pass; power_robustness_check_pass;
    false_positive_rate_robustness_check_pass; aa_point_estimate_robustness_check_pass; ab_point_estimate_robustness_check_pass] in
  if existsb (fun c => match c with None => true | _ => false end) checks then Ok None
  else Ok (Some (forallb (fun c => match c with Some b => b | None => false end) checks)).
End Checks.
End Sim.
