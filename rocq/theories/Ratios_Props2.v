(** C102: cases that meet the hypotheses, and what the theorems do not say. *)
From Coq Require Import ZArith Reals Lra Lia List String Bool Permutation Sorting.Sorted.
From Flocq Require Import Core BinarySingleNaN.
Require Import Verif.Base Verif.Num Verif.NumOrd Verif.F64 Verif.Frame Verif.ListLib Verif.Design_Model Verif.Design_Spec Verif.Design_Proofs
  Verif.Design_Yaml_Proofs Verif.Design_Props Verif.Trimmed_Model Verif.Trimmed_Spec Verif.Moments Verif.Trimmed_Proofs Verif.Trimmed_Real Verif.Trimmed_Props
  Verif.Cuped_Model Verif.Cuped_Props Verif.Stats_Model Verif.Stats_Num Verif.Stats_Props Verif.Tests_Proofs
  Verif.Tests_Props Verif.Tests_Props2 Verif.Periods_Model Verif.Periods_Proofs Verif.Periods_Props
  Verif.Text_Model Verif.Text_Spec Verif.Text_Props Verif.Text_Props2 Verif.Text_Props3
  Verif.Rows_Model Verif.Rows_Spec Verif.Rows_Proofs Verif.Rows_Props
  Verif.Checks_Model Verif.Checks_Spec Verif.Checks_Proofs Verif.Checks_Props
  Verif.Pivot_Model Verif.Pivot_Spec Verif.Pivot_Proofs Verif.Pivot_Props
  Verif.Analysis_Spec Verif.Analysis_Model Verif.Analysis_Props Verif.Effect_Props Verif.Analysis_Props2 Verif.Size_Props
  Verif.Pipeline_Model Verif.Pipeline_Spec Verif.Pipeline_Proofs Verif.Experiment_Props Verif.Assign_Proofs Verif.Assign_Props Verif.Journey_Model Verif.Journey_Proofs
  Verif.Journey_Props Verif.Sim_Estimate_Props Verif.Design_Text_Proofs Verif.Text_Proofs Verif.Totals_Props Verif.Totals_Props2 Verif.Totals_Props3
  Verif.Standard_Model Verif.Standard_Props Verif.Entry_Model Verif.Entry_Proofs Verif.Analyzer_Model Verif.Analyzer_Props Verif.Analyzer_Props2 Verif.Analyzer_Props3
  Verif.Regular_Props Verif.Regular_Props3 Verif.Ratios_Props.
Import ListNotations.
Open Scope string_scope.
Open Scope list_scope.
Open Scope Z_scope.

(** *** Weekly data with two metrics: clicks and impressions *)
Definition pair_columns : list string := ["clicks"; "impressions"].
Definition pair_row (v : string -> Z -> Z * Z) (it : string * Z) : obs :=
  mkObs (fst it) (snd it) [Fin (IZR (fst (v (fst it) (snd it)))); Fin (IZR (snd (v (fst it) (snd it))))].
Definition pair_perf (items : list string) (dates : list Z) (v : string -> Z -> Z * Z) : list obs := map (pair_row v) (list_prod items dates).
Definition pair_cols (z : Z * Z) : list (string * num) := [("clicks", Fin (IZR (fst z))); ("impressions", Fin (IZR (snd z)))].
Definition pair_data (items : list string) (dates : list Z) (v : string -> Z -> Z * Z) (lab : Z -> label) : list erow :=
  map (fun it => mkE (fst it) (snd it) (pair_cols (v (fst it) (snd it))) (week_id 0 (snd it)) (week_start 0 (snd it)) (lab (week_id 0 (snd it)))
         (toss (fst it))) (list_prod items dates).

Lemma pair_concluded items dates v d lab skip :
  mk_design (par d) = Ok d -> label_fun (par d) 0 = Ok lab -> NoDup items -> items <> [] -> dates <> [] ->
  (forall t, In t dates -> t mod day_ns = 0) ->
  missing_items (pair_perf items dates v) (grid_assigned items) = [] ->
  fill_rows 2 (pair_perf items dates v) = pair_perf items dates v ->
  (forall n, In n ["no_nulls"; "no_duplicate_items_per_date"; "dates_are_daily_or_weekly"; "all_metrics_are_finite";
                     "experiment_dates_match_design"] -> ~ In n skip) ->
  validate_experiment_data isort_by_date (fun _ _ => Ok (Fin 1)) (experiment_view (pair_data items dates v lab)) d pair_columns 0 true pair_columns skip = Ok tt ->
  concluded (pair_perf items dates v) (grid_assigned items) d pair_columns [] 0 skip (pair_data items dates v lab).
Proof.
  intros HD HL NI EI ED DT MI FR SK VA. constructor; auto.
  - repeat constructor; cbn; intuition discriminate.
  - split; [intros m n []|constructor].
  - intros c Hc Hin. cbn in Hc, Hin. repeat (destruct Hc as [<-|Hc]; [repeat (destruct Hin as [Hin|Hin]; [discriminate|]); destruct Hin|]). destruct Hc.
  - exists 0. intros o Ho. unfold pair_perf in Ho. apply in_map_iff in Ho as ([i t] & <- & Ho). apply in_prod_iff in Ho as [_ Ho].
    split; [reflexivity|]. cbn. auto.
  - exists isort_by_date, (fun _ _ => Ok (Fin 1)), (fun l => l), pair_columns. split; [auto|]. unfold prepare_experiment.
    replace (raise_if _ _) with (@Ok unit tt) by (destruct items; [congruence|reflexivity]). cbn [bind].
    destruct items as [|i0 items]; [congruence|]. destruct dates as [|t0 dates]; [congruence|].
    replace (match pair_perf (i0 :: items) (t0 :: dates) v with [] => Err (IndexError "values[0]") | r :: _ => Ok (o_date r) end) with (Ok t0) by reflexivity.
    cbn [bind]. rewrite MI. cbn [map]. rewrite app_nil_r. unfold fill_missing_rows_with_zeros at 1.
    replace (raise_if _ _) with (@Ok unit tt) by reflexivity. cbn [bind List.length]. cbn [pair_columns List.length]. rewrite FR, HL. cbn [bind add_weeks].
    unfold pair_perf at 1. rewrite map_map. rewrite (mapM_map_ok _ _ (fun it => (mkW (pair_row v it) (week_id 0 (snd it)) (week_start 0 (snd it)) [], pair_cols (v (fst it) (snd it))))).
    2: { intros it. reflexivity. }
    cbn [bind]. match goal with |- context [flat_map ?f ?l] => replace (flat_map f l) with (pair_data (i0 :: items) (t0 :: dates) v lab) end.
    + fold pair_columns. rewrite VA. reflexivity.
    + symmetry. unfold pair_data. set (items' := i0 :: items) in *. set (dates' := t0 :: dates) in *. clearbody items' dates'.
      rewrite <- (map_map (fun it => it) (fun it => mkE (fst it) (snd it) (pair_cols (v (fst it) (snd it))) (week_id 0 (snd it)) (week_start 0 (snd it)) (lab (week_id 0 (snd it))) (toss (fst it)))), map_id.
      rewrite flat_map_concat_map, map_map, <- flat_map_concat_map. apply flat_map_single. intros [i t] Ix. apply in_prod_iff in Ix as [Ix _].
      cbn [fst snd w_obs w_week w_start pair_row o_item o_date]. rewrite (filter_assigned items' i NI Ix). reflexivity.
Qed.

Definition ctr_wanted : list metric_spec := [mkMetric "CTR" "clicks" (Some "impressions") None].
Lemma ctr_known : forall c, In c (metric_columns_of ctr_wanted) -> In c (pair_columns ++ map snd (@nil (string * string))).
Proof. intros c [<-|[<-|[]]]; cbn; auto. Qed.

(** the totals of integers can be computed *)
Definition pick (c : string) (z : Z * Z) : Z := if String.eqb c "clicks" then fst z else snd z.
Lemma pair_total items dates v c i from to : c = "clicks" \/ c = "impressions" ->
  raw_total (pair_perf items dates v) (raw_value pair_columns [] c) i from to =
  Fin (IZR (fold_right (fun it acc => if String.eqb (fst it) i && (from <=? snd it) && (snd it <? to) then pick c (v (fst it) (snd it)) + acc else acc) 0
              (list_prod items dates))).
Proof.
  intros C. unfold raw_total, total, pair_perf. induction (list_prod items dates) as [|[j t] l IH]; [reflexivity|].
  cbn [map fold_right]. rewrite IH. cbn [pair_row o_item o_date fst snd].
  replace (raw_value _ _ _ _) with (Fin (IZR (pick c (v j t)))) by (destruct C as [-> | ->]; reflexivity).
  destruct (_ && _); [rewrite plus_IZR; reflexivity|unfold nadd; f_equal; ring].
Qed.
Definition pair_sum (items : list string) (dates : list Z) (v : string -> Z -> Z * Z) (c : string) (chosen : list string) (from to : Z) : Z :=
  fold_right Z.add 0 (map (fun i => fold_right (fun it acc => if String.eqb (fst it) i && (from <=? snd it) && (snd it <? to) then pick c (v (fst it) (snd it)) + acc else acc) 0
              (list_prod items dates)) chosen).
Lemma pair_weeks items dates v c chosen a b : c = "clicks" \/ c = "impressions" ->
  weeks_total (pair_perf items dates v) (raw_value pair_columns [] c) chosen 0 a b =
  Fin (IZR (pair_sum items dates v c chosen (0 + a * week_ns) (0 + b * week_ns))).
Proof.
  intros C. unfold weeks_total, pair_sum. induction chosen as [|i l IH]; [reflexivity|]. cbn [map fold_right]. unfold nsum in *. cbn [fold_right]. rewrite IH, pair_total by auto.
  rewrite plus_IZR. reflexivity.
Qed.

(** *** Every item's ratio rises, and the reported effect is negative *)
Definition simpson (i : string) (t : Z) : Z * Z :=
  if String.eqb i "a" then (if t =? 0 then (10, 100) else (1, 20)) else (if t =? 0 then (80, 100) else (9, 10)).
Lemma simpson_concluded :
  concluded (pair_perf two_items weekly_dates simpson) (grid_assigned two_items) ex_cross_design pair_columns [] 0 ex_skip
    (pair_data two_items weekly_dates simpson cross_lab).
Proof.
  apply pair_concluded; [exact cross_design_ok|reflexivity|exact two_items_once|discriminate|discriminate| | | |exact skips_allowed|].
  - intros t Ht. cbn in Ht. repeat (destruct Ht as [<-|Ht]; [reflexivity|]). destruct Ht.
  - vm_compute. reflexivity.
  - reflexivity.
  - checks_pass.
Qed.

(** In an experiment of two weeks without washout an item of arm 1 is treated in week 0, an item of arm 0 in week 1. *)
Theorem c102_rising_ratios_give_a_positive_estimate_refuted :
  exists perf assigned d metrics alo start skip out r,
    concluded perf assigned d metrics alo start skip out /\
    crossover (par d) = true /\ runtime (par d) = 2 /\ washout (par d) = Some 0 /\ untrimmed (post (par d)) /\
    results cauchy argsort_ref once out [mkMetric "CTR" "clicks" (Some "impressions") None] (par d) = Ok [("CTR", r)] /\
    (forall i arm, In (i, arm) assigned -> 
       let sum column w := raw_total perf (raw_value metrics alo column) i (start + w * week_ns) (start + (w + 1) * week_ns) in
       let treated := if arm =? 1 then 0 else 1 in let control := if arm =? 1 then 1 else 0 in
       exists n1 d1 n0 d0, sum "clicks" treated = Fin n1 /\ sum "impressions" treated = Fin d1 /\
         sum "clicks" control = Fin n0 /\ sum "impressions" control = Fin d0 /\ (0 < d1)%R /\ (0 < d0)%R /\ (n0 / d0 < n1 / d1)%R) /\
    exists x, r_abs r = Fin x /\ (x < 0)%R.
Proof.
  destruct simpson_concluded as [H1 H2 H3 H4 (time & H5) H6 (by_date & binom & outer & neg & H7 & H8)].
  assert (NB : Z.of_nat (List.length (grid_assigned two_items)) <= 2 ^ 53) by (vm_compute; discriminate).
  destruct (c93_crossover_results_with_ratios cauchy argsort_ref once by_date binom outer _ _ ex_cross_design pair_columns 0 neg [] ex_skip _ time ctr_wanted
    H7 once_lists_a_set argsort_ref_sorts H1 H2 H3 H4 H5 H6 ltac:(discriminate) ctr_known ltac:(intros m q [<-|[]] X; discriminate X) eq_refl NB H8) as (res & R0 & N).
  destruct res as [|[name r] [|? ?]]; try discriminate N. cbn in N. injection N as ->.
  assert (UQ : untrimmed (post (par ex_cross_design))) by (split; reflexivity).
  assert (RS : results cauchy argsort_ref once (pair_data two_items weekly_dates simpson cross_lab) ctr_wanted (par ex_cross_design) = Ok [("CTR", r)]) by (unfold results; rewrite R0; reflexivity).
  exists (pair_perf two_items weekly_dates simpson), (grid_assigned two_items), ex_cross_design, pair_columns, [], 0, ex_skip, (pair_data two_items weekly_dates simpson cross_lab), r.
  split; [exact simpson_concluded|]. split; [reflexivity|]. split; [reflexivity|]. split; [reflexivity|]. split; [exact UQ|]. split; [exact RS|]. split.
  - intros i arm Hi. change (grid_assigned two_items) with [("a", toss "a"); ("b", toss "b")] in Hi.
    replace (toss "a") with 1 in Hi by (vm_compute; reflexivity). replace (toss "b") with 0 in Hi by (vm_compute; reflexivity).
    cbv zeta.
    destruct Hi as [E|[E|[]]]; injection E as <- <-; do 4 eexists; (split; [apply pair_total; auto|]); (split; [apply pair_total; auto|]); (split; [apply pair_total; auto|]); (split; [apply pair_total; auto|]);
      repeat match goal with |- context [fold_right ?f ?a ?l] => let v := eval vm_compute in (fold_right f a l) in replace (fold_right f a l) with v by (vm_compute; reflexivity) end; lra.
  - assert (F : items_in_arm (grid_assigned two_items) 1 = ["a"] /\ items_outside_arm (grid_assigned two_items) 1 = ["b"]) by (split; vm_compute; reflexivity).
    destruct (c102_crossover_ratios_are_of_totals cauchy argsort_ref once _ _ _ _ _ _ _ _ ctr_wanted 0 _ 0%nat _ "impressions" "CTR" r simpson_concluded
      once_lists_a_set argsort_ref_sorts ctr_known NB eq_refl eq_refl RS eq_refl eq_refl eq_refl UQ) as (a & b & p & q & a' & b' & p' & q' & E1 & E2 & E3 & E4 & E5 & E6 & E7 & E8 & EA & _ & _ & EQ).
    rewrite (proj1 F), (proj2 F) in *. rewrite pair_weeks in E1, E2, E3, E4, E5, E6, E7, E8 by (cbn; auto).
    destruct (EQ eq_refl) as [T1 T2]. rewrite T1, T2 in EA. clear EQ T1 T2.
    repeat match goal with E : Fin (IZR (pair_sum ?i ?d ?v ?c ?l ?f ?t)) = Fin ?x |- _ =>
      let z := eval vm_compute in (pair_sum i d v c l f t) in replace (pair_sum i d v c l f t) with z in E by (vm_compute; reflexivity); injection E as <- end.
    eexists. split; [apply EA; lra|]. lra.
Qed.

(** *** A regular experiment: the ratio of totals is 8/20 in the treatment arm and 2/8 in the control arm *)
Definition rates (i : string) (t : Z) : Z * Z :=
  if String.eqb i "a" then (if t =? 0 then (3, 10) else (5, 10)) else (1, 4).
Definition plain_lab : Z -> label := match label_fun (par plain_design) 0 with Ok lab => lab | Err _ => fun _ => None end.
Lemma rates_concluded :
  concluded (pair_perf two_items weekly_dates rates) (grid_assigned two_items) plain_design pair_columns [] 0 ex_skip
    (pair_data two_items weekly_dates rates plain_lab).
Proof.
  apply pair_concluded; [apply mk_design_check; vm_compute; reflexivity|reflexivity|exact two_items_once|discriminate|discriminate| | | |exact skips_allowed|].
  - intros t Ht. cbn in Ht. repeat (destruct Ht as [<-|Ht]; [reflexivity|]). destruct Ht.
  - vm_compute. reflexivity.
  - reflexivity.
  - checks_pass.
Qed.
Definition both_wanted : list metric_spec := [mkMetric "CTR" "clicks" (Some "impressions") None; mkMetric "Clicks" "clicks" None None].
Lemma both_known : forall c, In c (metric_columns_of both_wanted) -> In c (pair_columns ++ map snd (@nil (string * string))).
Proof. intros c Hc. cbn in Hc. repeat (destruct Hc as [<-|Hc]; [cbn; auto|]). destruct Hc. Qed.
Definition weekly_rate (c i : string) : R :=
  (IZR (fold_right (fun it acc => if String.eqb (fst it) i && (0 <=? snd it)%Z && (snd it <? 0 + 2 * week_ns)%Z then (pick c (rates (fst it) (snd it)) + acc)%Z else acc) 0%Z
              (list_prod two_items weekly_dates)) / 2)%R.

Example c102_example : exists r s,
  results cauchy argsort_ref once (pair_data two_items weekly_dates rates plain_lab) both_wanted (par plain_design) = Ok [("CTR", r); ("Clicks", s)] /\
  r_abs r = Fin (8 / 20 - 2 / 8) /\ r_control_average r = Fin (2 / 8) /\
  r_abs s = Fin (8 / 2 / 1 - 2 / 2 / 1) /\ r_control_average s = Fin (2 / 2 / 1).
Proof.
  assert (NB : Z.of_nat (List.length (grid_assigned two_items)) <= 2 ^ 53) by (vm_compute; discriminate).
  assert (F : items_in_arm (grid_assigned two_items) 1 = ["a"] /\ items_in_arm (grid_assigned two_items) 0 = ["b"]) by (split; vm_compute; reflexivity).
  assert (UQ : untrimmed (post (par plain_design))) by (split; reflexivity).
  assert (OV : forall m q, In m both_wanted -> ms_override m = Some q -> is_finite q = true /\ (0 <= B2R q < 1 / 2)%R)
    by (intros m q [<-|[<-|[]]] X; discriminate X).
  assert (OK : is_ok (results cauchy argsort_ref once (pair_data two_items weekly_dates rates plain_lab) both_wanted (par plain_design))).
  { apply (c97_without_pretest_results_come_iff cauchy argsort_ref once _ _ plain_design pair_columns [] 0 ex_skip _ both_wanted weekly_rate rates_concluded once_lists_a_set
      argsort_ref_sorts ltac:(discriminate) both_known OV); [reflexivity|exact NB|reflexivity| |].
    - intros c i a Hc Hi. rewrite pair_total by (cbn in Hc; intuition auto).
      rewrite ndiv_fin by (cbn; lra). reflexivity.
    - split; [exists "a"; left; vm_compute; reflexivity|]. split; [exists "b"; right; left; vm_compute; reflexivity|].
      intros m [<-|[<-|[]]] X; [discriminate X|]. rewrite (proj1 F), (proj2 F). cbn [map ms_column].
      change (quantile_of _ _) with f0.
      replace (weekly_rate "clicks" "a") with 4%R by (unfold weekly_rate; match goal with |- context [fold_right ?f ?a ?l] => let v := eval vm_compute in (fold_right f a l) in replace (fold_right f a l) with v by (vm_compute; reflexivity) end; lra).
      replace (weekly_rate "clicks" "b") with 1%R by (unfold weekly_rate; match goal with |- context [fold_right ?f ?a ?l] => let v := eval vm_compute in (fold_right f a l) in replace (fold_right f a l) with v by (vm_compute; reflexivity) end; lra).
      apply comparable_untrimmed; [intros x [<-|[]]; lra|intros x [<-|[]]; lra|discriminate|]. exists 1%R. split; [now left|lra]. }
  destruct OK as (res & RS).
  destruct (proj1 (c97_what_stops_a_regular_experiment cauchy argsort_ref once _ _ plain_design pair_columns [] 0 ex_skip _ both_wanted rates_concluded once_lists_a_set
      argsort_ref_sorts ltac:(discriminate) both_known OV eq_refl NB)) as [[E _]|(res' & E & N)];
    [exists "a"; left; vm_compute; reflexivity|exists "b"; right; left; vm_compute; reflexivity|rewrite RS in E; discriminate E|].
  rewrite RS in E. injection E as <-.
  destruct res as [|[n1 r] [|[n2 s] [|? ?]]]; try discriminate N. cbn in N. injection N as -> ->. exists r, s. split; [exact RS|].
  destruct (c102_regular_ratios_are_of_totals cauchy argsort_ref once _ _ _ _ _ _ _ _ both_wanted _ 0%nat _ "impressions" "CTR" r rates_concluded
      once_lists_a_set argsort_ref_sorts both_known NB eq_refl eq_refl RS eq_refl eq_refl eq_refl UQ) as (a & a' & b & b' & E1 & E2 & E3 & E4 & EA & EC & _).
  destruct (c102_regular_metrics_are_per_item_and_week cauchy argsort_ref once _ _ _ _ _ _ _ _ both_wanted _ 1%nat _ "Clicks" s rates_concluded
      once_lists_a_set argsort_ref_sorts both_known NB eq_refl eq_refl RS eq_refl eq_refl eq_refl UQ) as (p & q & E5 & E6 & ED & EF).
  rewrite (proj1 F), (proj2 F) in *. rewrite pair_weeks in E1, E2, E3, E4, E5, E6 by (cbn; auto).
  repeat match goal with E : Fin (IZR (pair_sum ?i ?d ?v ?c ?l ?f ?t)) = Fin ?x |- _ =>
      let z := eval vm_compute in (pair_sum i d v c l f t) in replace (pair_sum i d v c l f t) with z in E by (vm_compute; reflexivity); injection E as <- end.
  split; [apply EA; lra|]. split; [apply EC; lra|]. split; [exact ED|exact EF].
Qed.

Print Assumptions c102_rising_ratios_give_a_positive_estimate_refuted.
