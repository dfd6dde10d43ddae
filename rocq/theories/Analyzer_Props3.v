(** C93, continued: a complete call and a week that is cut short. *)
From Coq Require Import ZArith Reals Lra Lia List String Ascii Bool Permutation Sorting.Sorted.
From Flocq Require Import Core BinarySingleNaN.
Require Verif.Bars_Model Verif.Bars_Props Verif.Overtime_Model Verif.Overtime_Props Verif.Cupedplot_Model Verif.Cupedplot_Props.
Require Import Verif.Base Verif.Num Verif.NumOrd Verif.F64 Verif.Frame Verif.ListLib Verif.Design_Model Verif.Design_Spec Verif.Design_Proofs
  Verif.Design_Yaml_Proofs Verif.Design_Props Verif.Trimmed_Model Verif.Trimmed_Spec Verif.Moments Verif.Trimmed_Proofs Verif.Trimmed_Real Verif.Trimmed_Props
  Verif.Cuped_Model Verif.Cuped_Props Verif.Stats_Model Verif.Stats_Num Verif.Stats_Props Verif.Tests_Proofs
  Verif.Tests_Props Verif.Tests_Props2 Verif.Periods_Model Verif.Periods_Proofs Verif.Periods_Props
  Verif.Rows_Model Verif.Rows_Spec Verif.Rows_Proofs Verif.Rows_Props
  Verif.Checks_Model Verif.Checks_Spec Verif.Checks_Proofs Verif.Checks_Props
  Verif.Pivot_Model Verif.Pivot_Spec Verif.Pivot_Proofs Verif.Pivot_Props
  Verif.Analysis_Spec Verif.Analysis_Model Verif.Analysis_Props Verif.Effect_Props Verif.Analysis_Props2
  Verif.Pipeline_Model Verif.Pipeline_Spec Verif.Pipeline_Proofs Verif.Experiment_Props Verif.Assign_Props Verif.Journey_Model Verif.Journey_Proofs
  Verif.Journey_Props Verif.Standard_Model Verif.Standard_Props Verif.Entry_Model Verif.Entry_Proofs Verif.Analyzer_Model Verif.Analyzer_Props Verif.Analyzer_Props2.
Import ListNotations.
Open Scope string_scope.
Open Scope list_scope.
Open Scope Z_scope.

(** the last week may consist of its first day alone: all checks but the number of items pass, and the sums of that one day
    are divided by the number of weeks like those of a complete week *)
Definition cut_perf : list obs := map (fun i => mkObs "a" (i * day_ns) [Fin 1]) [-7; -6; -5; -4; -3; -2; -1; 0].
Theorem c93_the_last_week_is_complete_refuted :
  mk_design (par ex_exp_design) = Ok ex_exp_design /\
  exists out, prepare_experiment isort_by_date (fun _ _ => Ok (Fin 1)) (fun l => l) cut_perf ex_assigned ex_exp_design
    ["clicks"] 0 true ["clicks"] [] ex_skip = Ok out /\
  days_per_period out = [("pretest", 7%nat); ("test", 1%nat)].
Proof.
  split; [apply mk_design_check; vm_compute; reflexivity|].
  set (out := flat_map (fun ia => map (fun i => let w := i * day_ns / week_ns in
      mkE (fst ia) (i * day_ns) [("clicks", if String.eqb (fst ia) "a" then Fin 1 else Fin 0)]
        w (w * week_ns) (Some (if Z.ltb i 0 then "pretest" else "test")) (snd ia)) [-7; -6; -5; -4; -3; -2; -1; 0]) ex_assigned).
  exists out. split; [|vm_compute; reflexivity].
  assert (V : validate_experiment_data isort_by_date (fun _ _ => Ok (Fin 1)) (experiment_view out) ex_exp_design
    ["clicks"] 0 true ["clicks"] ex_skip = Ok tt).
  { rewrite experiment_run_all.
    replace (assert_all_exist ex_skip) with (Ok [tt]) by (vm_compute; reflexivity). cbn [bind].
    apply run_all_pass.
    repeat (constructor; [cbn [fst snd]|]); [| | | | | | | | | | | |constructor];
      try (left; vm_compute; reflexivity).
    - right. split; [eexists; reflexivity|now left].
    - left. unfold check_srm. cbn [bind]. f_equal. apply one_above_threshold. }
  unfold prepare_experiment.
  match goal with |- context [raise_if ?b ?e] => change (raise_if b e) with (@Ok unit tt) end. cbn [bind cut_perf map].
  fold cut_perf. unfold fill_missing_rows_with_zeros at 1.
  match goal with |- context [raise_if ?b ?e] => change (raise_if b e) with (@Ok unit tt) end. cbn [bind].
  change (label_fun (par ex_exp_design) 0) with (Ok (regular_label 0 1 1)). cbn [bind].
  match goal with |- context [mapM ?f ?l] =>
    replace (mapM f l) with (Ok (map (fun r => (r, combine ["clicks"] (o_vals (w_obs r)))) l)) by reflexivity end.
  cbn [bind].
  match goal with |- context [flat_map ?f ?l] => replace (flat_map f l) with out by reflexivity end.
  rewrite V. reflexivity.
Qed.

(* ------------------------------------------------------------------ *)
(** *** A complete call *)
(** the defaults of the form, and a crossover of two weeks with one observed item in the treatment arm and one
    unobserved item in the control arm *)
Definition default_form : form := mkForm "clicks" "impressions" "cost" "conversions" "conversions_value" "" " ".
Example c93_form_example :
  form_columns default_form = ["clicks"; "impressions"; "total_cost"; "conversions"; "total_conversion_value"] /\
  form_others default_form = [] /\ form_skip default_form = [] /\
  map snd (form_at_least_one default_form) = ["at_least_one_click"; "at_least_one_impression"; "at_least_one_conversion"] /\
  form_others (mkForm "" "" "" "" "" "orders , visits," "") = ["orders"; "visits"; ""] /\
  form_skip (mkForm "" "" "" "" "" "" "no_nulls,, ids_are_alphanumeric ,") = ["no_nulls"; "ids_are_alphanumeric"].
Proof. repeat split. Qed.

Definition full_perf : list obs :=
  [mkObs "a" 0 [Fin 1; Fin 1; Fin 1; Fin 1; Fin 1]; mkObs "a" week_ns [Fin 1; Fin 1; Fin 1; Fin 0; Fin 0];
   mkObs "c" 0 [Fin 1; Fin 1; Fin 1; Fin 1; Fin 1]].
Lemma indicator_of_one : indicator (Fin 1) = Fin 1.
Proof. unfold indicator. cbn. rewrite Rlt_bool_true by lra. reflexivity. Qed.
Lemma indicator_of_zero : indicator (Fin 0) = Fin 0.
Proof. unfold indicator. cbn. rewrite Rlt_bool_false by lra. reflexivity. Qed.

Lemma full_example : exists out,
  prepare_experiment isort_by_date (fun _ _ => Ok (Fin 1)) (fun l => l) full_perf ex_assigned ex_cross_design
    (form_columns default_form) 0 true (form_columns default_form) (form_at_least_one default_form) ex_skip = Ok out.
Proof.
  set (cols := form_columns default_form).
  set (news := ["at_least_one_click"; "at_least_one_impression"; "at_least_one_conversion"]).
  set (out_of := fun ind : num -> num => flat_map (fun ia =>
     let one := if String.eqb (fst ia) "a" then Fin 1 else Fin 0 in
     [mkE (fst ia) 0 (combine cols [one; one; one; one; one] ++ combine news [ind one; ind one; ind one]) 0 0 (Some "test_1") (snd ia);
      mkE (fst ia) week_ns (combine cols [one; one; one; Fin 0; Fin 0] ++ combine news [ind one; ind one; ind (Fin 0)]) 1 week_ns (Some "test_2") (snd ia)]) ex_assigned).
  set (out := out_of (fun x => x)).
  assert (EO : out_of indicator = out).
  { unfold out, out_of. apply flat_map_ext. intros ia. cbv zeta. destruct (String.eqb (fst ia) "a"); rewrite ?indicator_of_one, ?indicator_of_zero; reflexivity. }
  exists out.
  assert (V : validate_experiment_data isort_by_date (fun _ _ => Ok (Fin 1)) (experiment_view out) ex_cross_design
    cols 0 true cols ex_skip = Ok tt).
  { rewrite experiment_run_all.
    replace (assert_all_exist ex_skip) with (Ok [tt]) by (vm_compute; reflexivity). cbn [bind].
    apply run_all_pass.
    repeat (constructor; [cbn [fst snd]|]); [| | | | | | | | | | | |constructor];
      try (left; vm_compute; reflexivity).
    - right. split; [eexists; reflexivity|now left].
    - left. unfold check_srm. cbn [bind]. f_equal. apply one_above_threshold. }
  unfold prepare_experiment.
  match goal with |- context [raise_if ?b ?e] => change (raise_if b e) with (@Ok unit tt) end. cbn [bind full_perf].
  fold full_perf. unfold fill_missing_rows_with_zeros at 1.
  match goal with |- context [raise_if ?b ?e] => change (raise_if b e) with (@Ok unit tt) end. cbn [bind].
  destruct (label_fun (par ex_cross_design) 0) as [lab|] eqn:EL; [|discriminate EL]. injection EL as <-. cbn [bind].
  assert (AL : forall a b c e g, at_least_one_row (form_at_least_one default_form) (combine cols [a; b; c; e; g]) =
    Ok (combine cols [a; b; c; e; g] ++ combine news [indicator a; indicator b; indicator e])) by (intros; reflexivity).
  match goal with |- context [mapM ?f ?l] =>
    assert (M : mapM f l = Ok (map (fun r => (r, combine cols (o_vals (w_obs r)) ++
       combine news (map indicator [nth 0 (o_vals (w_obs r)) NaN; nth 1 (o_vals (w_obs r)) NaN; nth 3 (o_vals (w_obs r)) NaN]))) l)) by reflexivity end.
  rewrite M. clear M. cbn [bind].
  match goal with |- context [flat_map ?f ?l] => assert (FM : flat_map f l = out_of indicator) by reflexivity end.
  rewrite FM, EO, V. reflexivity.
Qed.

Lemma default_distinct : distinct_columns default_form.
Proof.
  unfold distinct_columns.
  change (NoDup ["clicks"; "impressions"; "total_cost"; "conversions"; "total_conversion_value"; "at_least_one_click"; "at_least_one_impression";
    "at_least_one_conversion"; "item_id"; "date"; "week_id"; "week_start"; "time_period"; "treatment_assignment"]).
  repeat (constructor; [cbn; intuition discriminate|]). constructor.
Qed.

Example c93_example : exists out res plots,
  prepare_experiment isort_by_date (fun _ _ => Ok (Fin 1)) (fun l => l) full_perf ex_assigned ex_cross_design
    (form_columns default_form) 0 true (form_columns default_form) (form_at_least_one default_form) ex_skip = Ok out /\
  notebook_analysis cauchy argsort_ref once out ex_cross_design = Ok res /\ map fst res = eleven /\
  plots_over_time argsort_ref [] (Fin 2) out (plotted_columns default_form) false = Ok plots /\ List.length plots = 8%nat /\
  plots_over_time argsort_ref [] (Fin 2) out (plotted_columns default_form) true = Err (ValueError cuped_message).
Proof.
  destruct full_example as (out & H). exists out.
  assert (HD : mk_design (par ex_cross_design) = Ok ex_cross_design) by (apply mk_design_check; vm_compute; reflexivity).
  assert (HR : forall o, In o full_perf -> List.length (o_vals o) = List.length (form_columns default_form) /\ o_date o mod day_ns = 0).
  { intros o Ho. cbn in Ho. repeat (destruct Ho as [<-|Ho]; [split; reflexivity|]). destruct Ho. }
  destruct (proj2 (c93_crossover_gives_eleven_results cauchy argsort_ref once isort_by_date (fun _ _ => Ok (Fin 1)) (fun l => l) full_perf ex_assigned
    ex_cross_design default_form 0 (form_columns default_form) ex_skip out 0 ltac:(reflexivity) once_lists_a_set argsort_ref_sorts HD default_distinct HR
    ltac:(intros n Hn X; cbn in X; destruct X as [<-|[]]; cbn in Hn; intuition discriminate) eq_refl ltac:(cbn; lia) H)) as (res & E & N).
  { intros c Hc. exact Hc. }
  destruct (c93_plots_of_the_raw_values argsort_ref [] 2 isort_by_date (fun _ _ => Ok (Fin 1)) (fun l => l) full_perf ex_assigned
    ex_cross_design default_form 0 true (form_columns default_form) ex_skip out ltac:(reflexivity) default_distinct (fun o Ho => proj1 (HR o Ho))) as (plots & EP & FP); auto.
  { intros [X|[]]. discriminate. }
  { exists "a". left. vm_compute. reflexivity. }
  { exists "b". right. left. vm_compute. reflexivity. }
  exists res, plots. split; [exact H|]. split; [exact E|]. split; [exact N|]. split; [exact EP|]. split.
  - clear - FP. assert (G : forall A B (P : A -> B -> Prop) l m, Forall2 P l m -> List.length m = List.length l) by (induction 1; cbn; congruence).
    rewrite (G _ _ _ _ _ FP). reflexivity.
  - apply (c93_adjusted_plots_need_pretest_weeks argsort_ref [] (Fin 2) isort_by_date (fun _ _ => Ok (Fin 1)) (fun l => l) full_perf ex_assigned
      ex_cross_design default_form 0 true (form_columns default_form) ex_skip out); auto; discriminate.
Qed.

(** without a column for the impressions the data is accepted, but it cannot be analysed *)
Example c93_missing_column_example :
  In "impressions" ["clicks"; "impressions"; "total_cost"; "conversions"; "total_conversion_value"] /\
  ~ In "impressions" (form_columns (mkForm "clicks" "" "cost" "conversions" "conversions_value" "" "")).
Proof. split; [cbn; tauto|]. cbn. intuition discriminate. Qed.

Print Assumptions c93_the_last_week_is_complete_refuted.
