(** Property C24, continued: the names that skip_validation_checks may contain. *)
From Coq Require Import ZArith Reals List String Bool.
Require Import Verif.Base Verif.Num Verif.Design_Model Verif.Rows_Model Verif.Checks_Model Verif.Checks_Proofs Verif.Checks_Props.
Import ListNotations.
Open Scope string_scope.

(** the names of the decorated functions, data_preparation.py:722-1067 *)
Definition check_names : list string :=
  ["no_nulls"; "no_duplicate_items_per_date"; "dates_are_daily_or_weekly"; "week_ids_are_consecutive_integers"; "all_metrics_are_finite";
   "all_metrics_are_non_negative"; "number_of_items_matches_design"; "experiment_dates_match_design"; "treatment_assignment_is_unique";
   "coinflip_salt_validation"; "no_sample_ratio_mismatch"; "primary_metric_in_metrics"].
Lemma check_names_registered n : In n check_names <-> In n registered.
Proof. unfold check_names, registered. simpl. tauto. Qed.

Theorem c24_the_names_that_may_be_skipped :
  forall by_date binom v d metric metrics start concluded neg skip,
    ((forall n, In n skip -> In n check_names) ->
      (validate_historical_data by_date v metric [] = Ok tt -> validate_historical_data by_date v metric skip = Ok tt) /\
      (validate_experiment_data by_date binom v d metrics start concluded neg [] = Ok tt ->
       validate_experiment_data by_date binom v d metrics start concluded neg skip = Ok tt)) /\
    (forall n, In n skip -> ~ In n check_names ->
      ~ is_ok (validate_historical_data by_date v metric skip) /\
      ~ is_ok (validate_experiment_data by_date binom v d metrics start concluded neg skip)).
Proof.
  intros by_date binom v d metric metrics start concluded neg skip. split.
  - intros H. assert (HR : forall n, In n skip -> In n registered) by (intros n Hn; now apply check_names_registered, H). split.
    + intros E. rewrite historical_run_all in E |- *. apply bind_ok in E as (_ & _ & E).
      destruct (proj2 (proj1 (assert_all_exist_iff skip)) HR) as (us & ->). cbn [bind]. revert E.
      match goal with |- run_all [] ?l = _ -> _ => generalize l end.
      induction l as [|[n r] l IH]; [auto|]. cbn [run_all]. intros E. apply bind_ok in E as ([] & E1 & E).
      destruct r as [b|e]; [|discriminate]. apply (proj1 (c24_wrapped_check_raises_iff_failed_and_not_skipped _ _ _)) in E1 as [->|[]].
      rewrite (proj2 (proj1 (c24_wrapped_check_raises_iff_failed_and_not_skipped n skip false))) by auto. cbn [bind]. auto.
    + apply c24_skipping_affects_only_that_check; [intros n []|exact HR].
  - intros n Hn HC. rewrite check_names_registered in HC.
    destruct (c24_unknown_skip_name_is_rejected_first by_date binom v d metric metrics start concluded neg skip n Hn HC) as (n' & _ & _ & E1 & E2).
    rewrite E1, E2. split; intros [x Hx]; discriminate.
Qed.

Example c24_names_example : In "no_sample_ratio_mismatch" check_names /\ ~ In "no_null" check_names.
Proof. split; [simpl; tauto|]. simpl. intuition discriminate. Qed.

Print Assumptions c24_the_names_that_may_be_skipped.
