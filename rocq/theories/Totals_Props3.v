(** C91: cases that meet the hypotheses, and what the theorems do not say. *)
From Coq Require Import ZArith Reals Lra Lia List String Bool Permutation Sorting.Sorted.
From Flocq Require Import Core BinarySingleNaN.
Require Import Verif.Base Verif.Num Verif.NumOrd Verif.F64 Verif.Frame Verif.ListLib Verif.Design_Model Verif.Design_Spec Verif.Design_Proofs
  Verif.Design_Yaml_Proofs Verif.Design_Props Verif.Trimmed_Model Verif.Trimmed_Spec Verif.Moments Verif.Trimmed_Proofs Verif.Trimmed_Real Verif.Trimmed_Props
  Verif.Cuped_Model Verif.Cuped_Props Verif.Stats_Model Verif.Stats_Num Verif.Stats_Props Verif.Tests_Proofs
  Verif.Tests_Props Verif.Tests_Props2 Verif.Periods_Model Verif.Periods_Proofs Verif.Periods_Props
  Verif.Text_Model Verif.Text_Spec Verif.Text_Props Verif.Text_Props2 Verif.Text_Props3
  Verif.Rows_Model Verif.Rows_Spec Verif.Rows_Proofs Verif.Rows_Props
  Verif.Checks_Model Verif.Checks_Spec Verif.Checks_Proofs Verif.Checks_Props
  Verif.Pivot_Model Verif.Pivot_Spec Verif.Pivot_Proofs Verif.Pivot_Props
  Verif.Analysis_Spec Verif.Analysis_Model Verif.Analysis_Props Verif.Effect_Props Verif.Analysis_Props2 Verif.Size_Props
  Verif.Pipeline_Model Verif.Pipeline_Spec Verif.Pipeline_Proofs Verif.Experiment_Props Verif.Assign_Proofs Verif.Assign_Props Verif.Journey_Model Verif.Journey_Proofs
  Verif.Journey_Props Verif.Sim_Estimate_Props Verif.Design_Text_Proofs Verif.Text_Proofs Verif.Totals_Props Verif.Totals_Props2.
Import ListNotations.
Open Scope string_scope.
Open Scope list_scope.
Open Scope Z_scope.

(** *** Data with one row per item and date *)
Definition toss (i : string) : Z := coinflip_call (mkCoinflipRec "s") i.
Definition grid_row (v : string -> Z -> Z) (it : string * Z) : obs := mkObs (fst it) (snd it) [Fin (IZR (v (fst it) (snd it)))].
Definition grid_perf (items : list string) (dates : list Z) (v : string -> Z -> Z) : list obs := map (grid_row v) (list_prod items dates).
Definition grid_assigned (items : list string) : list (string * Z) := map (fun i => (i, toss i)) items.
Definition any_click : list (string * string) := [("clicks", "any")].
Definition grid_cols (z : Z) : list (string * num) := [("clicks", Fin (IZR z)); ("any", Fin (IZR (if 0 <? z then 1 else 0)))].
Definition grid_data (items : list string) (dates : list Z) (v : string -> Z -> Z) (lab : Z -> label) : list erow :=
  map (fun it => mkE (fst it) (snd it) (grid_cols (v (fst it) (snd it))) (week_id 0 (snd it)) (week_start 0 (snd it)) (lab (week_id 0 (snd it)))
         (toss (fst it))) (list_prod items dates).

Lemma any_cols z : at_least_one_row any_click (combine ["clicks"] [Fin (IZR z)]) = Ok (grid_cols z).
Proof.
  assert (I : Pipeline_Model.indicator (Fin (IZR z)) = Fin (IZR (if 0 <? z then 1 else 0))).
  { unfold Pipeline_Model.indicator. destruct (Z.ltb_spec 0 z) as [L|L].
    - rewrite (proj2 (nltb_fin 0 (IZR z))) by (apply IZR_lt in L; exact L). reflexivity.
    - rewrite (proj2 (nltb_fin_false 0 (IZR z))) by (apply IZR_le in L; exact L). reflexivity. }
  unfold grid_cols. rewrite <- I. reflexivity.
Qed.
Lemma mapM_map_ok {A B C} (f : B -> result C) (g : A -> B) (h : A -> C) l : (forall x, f (g x) = Ok (h x)) -> mapM f (map g l) = Ok (map h l).
Proof. intros H. induction l as [|x l IH]; cbn [map mapM]; [reflexivity|]. rewrite H, IH. reflexivity. Qed.
Lemma filter_assigned items i : NoDup items -> In i items -> filter (fun ia => String.eqb (fst ia) i) (grid_assigned items) = [(i, toss i)].
Proof.
  intros ND I. induction items as [|j items IH]; [destruct I|]. inversion ND as [|? ? N1 N2]; subst. cbn [grid_assigned map filter fst].
  destruct (String.eqb_spec j i) as [-> |E].
  - f_equal. clear - N1. fold (grid_assigned items). induction items as [|j items IH]; [reflexivity|]. cbn [grid_assigned map filter fst].
    destruct (String.eqb_spec j i) as [-> |E]; [exfalso; apply N1; now left|]. apply IH. intros X. apply N1. now right.
  - apply IH; auto. destruct I; congruence.
Qed.
Lemma flat_map_single {A B} (f : A -> list B) g l : (forall x, In x l -> f x = [g x]) -> flat_map f l = map g l.
Proof. induction l as [|x l IH]; intros H; [reflexivity|]. cbn [flat_map map]. rewrite H by now left. rewrite IH by (intros; apply H; now right). reflexivity. Qed.

Lemma grid_concluded items dates v d lab skip :
  mk_design (par d) = Ok d -> label_fun (par d) 0 = Ok lab -> NoDup items -> items <> [] -> dates <> [] ->
  (forall t, In t dates -> t mod day_ns = 0) ->
  missing_items (grid_perf items dates v) (grid_assigned items) = [] ->
  fill_rows 1 (grid_perf items dates v) = grid_perf items dates v ->
  (forall n, In n ["no_nulls"; "no_duplicate_items_per_date"; "dates_are_daily_or_weekly"; "all_metrics_are_finite";
                     "experiment_dates_match_design"] -> ~ In n skip) ->
  validate_experiment_data isort_by_date (fun _ _ => Ok (Fin 1)) (experiment_view (grid_data items dates v lab)) d ["clicks"] 0 true ["clicks"] skip = Ok tt ->
  concluded (grid_perf items dates v) (grid_assigned items) d ["clicks"] any_click 0 skip (grid_data items dates v lab).
Proof.
  intros HD HL NI EI ED DT MI FR SK VA. constructor; auto.
  - repeat constructor; intros [].
  - split; [intros m n [E|[]]; inversion E; subst; split; [now left|intros [|[]]; discriminate]|repeat constructor; intros []].
  - intros c Hc Hin. cbn in Hc, Hin. repeat (destruct Hc as [<-|Hc]; [repeat (destruct Hin as [Hin|Hin]; [discriminate|]); destruct Hin|]). destruct Hc.
  - exists 0. intros o Ho. unfold grid_perf in Ho. apply in_map_iff in Ho as ([i t] & <- & Ho). apply in_prod_iff in Ho as [_ Ho].
    split; [reflexivity|]. cbn. auto.
  - exists isort_by_date, (fun _ _ => Ok (Fin 1)), (fun l => l), ["clicks"]. split; [auto|]. unfold prepare_experiment.
    replace (raise_if _ _) with (@Ok unit tt) by (destruct items; [congruence|reflexivity]). cbn [bind].
    destruct items as [|i0 items]; [congruence|]. destruct dates as [|t0 dates]; [congruence|].
    replace (match grid_perf (i0 :: items) (t0 :: dates) v with [] => Err (IndexError "values[0]") | r :: _ => Ok (o_date r) end) with (Ok t0) by reflexivity.
    cbn [bind]. rewrite MI. cbn [map]. rewrite app_nil_r. unfold fill_missing_rows_with_zeros at 1.
    replace (raise_if _ _) with (@Ok unit tt) by reflexivity. cbn [bind List.length]. rewrite FR, HL. cbn [bind add_weeks].
    unfold grid_perf at 1. rewrite map_map. rewrite (mapM_map_ok _ _ (fun it => (mkW (grid_row v it) (week_id 0 (snd it)) (week_start 0 (snd it)) [], grid_cols (v (fst it) (snd it))))).
    2: { intros it. cbn [w_obs grid_row o_vals o_date]. rewrite any_cols. reflexivity. }
    cbn [bind]. match goal with |- context [flat_map ?f ?l] => replace (flat_map f l) with (grid_data (i0 :: items) (t0 :: dates) v lab) end.
    + rewrite VA. reflexivity.
    + symmetry. unfold grid_data. set (items' := i0 :: items) in *. set (dates' := t0 :: dates) in *. clearbody items' dates'.
      rewrite <- (map_map (fun it => it) (fun it => mkE (fst it) (snd it) (grid_cols (v (fst it) (snd it))) (week_id 0 (snd it)) (week_start 0 (snd it)) (lab (week_id 0 (snd it))) (toss (fst it)))), map_id.
      rewrite flat_map_concat_map, map_map, <- flat_map_concat_map. apply flat_map_single. intros [i t] Ix. apply in_prod_iff in Ix as [Ix _].
      cbn [fst snd w_obs w_week w_start grid_row o_item o_date]. rewrite (filter_assigned items' i NI Ix). reflexivity.
Qed.

(** *** Weekly and daily data of two items *)
Definition two_items : list string := ["a"; "b"].
Definition weekly_dates : list Z := [0; week_ns].
Definition weekly_clicks (i : string) (t : Z) : Z := if String.eqb i "a" then (if t =? 0 then 2 else 1) else 0.
Definition daily_dates : list Z := map (fun k => k * day_ns) [0; 1; 2; 3; 4; 5; 6; 7; 8; 9; 10; 11; 12; 13].
Definition daily_clicks (i : string) (t : Z) : Z :=
  if String.eqb i "a" then (if (t =? 3 * day_ns) || (t =? 5 * day_ns) || (t =? 9 * day_ns) then 1 else 0) else 0.

Ltac checks_pass :=
  rewrite experiment_run_all;
  match goal with |- context [assert_all_exist ?s] => let v := eval vm_compute in (assert_all_exist s) in replace (assert_all_exist s) with v by (vm_compute; reflexivity) end;
  cbn [bind]; apply run_all_pass;
  repeat (constructor; [cbn [fst snd]|]); [| | | | | | | | | | | |constructor];
  try (left; vm_compute; reflexivity);
  try (right; split; [eexists; vm_compute; reflexivity|now left]);
  try (left; unfold check_srm; cbn [bind]; f_equal; apply one_above_threshold).

Lemma cross_label : exists lab, label_fun (par ex_cross_design) 0 = Ok lab.
Proof. eexists. reflexivity. Qed.
Definition cross_lab : Z -> label := match label_fun (par ex_cross_design) 0 with Ok lab => lab | Err _ => fun _ => None end.
Lemma skips_allowed : forall n, In n ["no_nulls"; "no_duplicate_items_per_date"; "dates_are_daily_or_weekly"; "all_metrics_are_finite";
                     "experiment_dates_match_design"] -> ~ In n ex_skip.
Proof. intros n Hn X. cbn in X. destruct X as [<-|[]]. cbn in Hn. repeat (destruct Hn as [Hn|Hn]; [discriminate|]). destruct Hn. Qed.
Lemma cross_design_ok : mk_design (par ex_cross_design) = Ok ex_cross_design.
Proof. reflexivity. Qed.
Lemma two_items_once : NoDup two_items.
Proof. repeat constructor; cbn; intuition discriminate. Qed.
Lemma weekly_concluded :
  concluded (grid_perf two_items weekly_dates weekly_clicks) (grid_assigned two_items) ex_cross_design ["clicks"] any_click 0 ex_skip
    (grid_data two_items weekly_dates weekly_clicks cross_lab).
Proof.
  apply grid_concluded; [exact cross_design_ok|reflexivity|exact two_items_once|discriminate|discriminate| | | |exact skips_allowed|].
  - intros t Ht. cbn in Ht. repeat (destruct Ht as [<-|Ht]; [reflexivity|]). destruct Ht.
  - vm_compute. reflexivity.
  - reflexivity.
  - checks_pass.
Qed.
Lemma daily_concluded :
  concluded (grid_perf two_items daily_dates daily_clicks) (grid_assigned two_items) ex_cross_design ["clicks"] any_click 0 ex_skip
    (grid_data two_items daily_dates daily_clicks cross_lab).
Proof.
  apply grid_concluded; [exact cross_design_ok|reflexivity|exact two_items_once|discriminate|discriminate| | | |exact skips_allowed|].
  - intros t Ht. cbn [daily_dates map In] in Ht. repeat (destruct Ht as [<-|Ht]; [reflexivity|]). destruct Ht.
  - vm_compute. reflexivity.
  - reflexivity.
  - checks_pass.
Qed.

Definition clicks_wanted : list metric_spec := [mkMetric "Clicks" "clicks" None None].
Lemma clicks_known : forall c, In c (metric_columns_of clicks_wanted) -> In c (["clicks"] ++ map snd any_click).
Proof. intros c [<-|[]]. now left. Qed.

(** the total of a grid over some days *)
Lemma grid_total_clicks items dates v i from to :
  raw_total (grid_perf items dates v) (raw_value ["clicks"] any_click "clicks") i from to =
  Fin (IZR (fold_right (fun it acc => (if String.eqb (fst it) i && (from <=? snd it) && (snd it <? to) then v (fst it) (snd it) else 0) + acc) 0
              (list_prod items dates))).
Proof.
  unfold raw_total, total, grid_perf. induction (list_prod items dates) as [|[j t] l IH]; [reflexivity|].
  cbn [map fold_right]. rewrite IH. cbn [grid_row o_item o_date fst snd].
  replace (raw_value _ _ _ _) with (Fin (IZR (v j t))) by reflexivity. rewrite plus_IZR.
  destruct (_ && _); reflexivity.
Qed.
Lemma grid_total_any items dates v i from to :
  raw_total (grid_perf items dates v) (raw_value ["clicks"] any_click "any") i from to =
  Fin (IZR (fold_right (fun it acc => (if String.eqb (fst it) i && (from <=? snd it) && (snd it <? to) then (if 0 <? v (fst it) (snd it) then 1 else 0) else 0) + acc) 0
              (list_prod items dates))).
Proof.
  unfold raw_total, total, grid_perf. induction (list_prod items dates) as [|[j t] l IH]; [reflexivity|].
  cbn [map fold_right]. rewrite IH. cbn [grid_row o_item o_date fst snd].
  replace (raw_value _ _ _ _) with (Fin (IZR (if 0 <? v j t then 1 else 0))).
  - rewrite plus_IZR. destruct (_ && _); reflexivity.
  - transitivity (one_if_positive (Fin (IZR (v j t)))); [|reflexivity]. rewrite <- indicator_one. unfold Pipeline_Model.indicator.
    destruct (Z.ltb_spec 0 (v j t)) as [L|L].
    + rewrite (proj2 (nltb_fin 0 (IZR (v j t)))) by (apply IZR_lt in L; exact L). reflexivity.
    + rewrite (proj2 (nltb_fin_false 0 (IZR (v j t)))) by (apply IZR_le in L; exact L). reflexivity.
Qed.

Lemma same_weekly_clicks : forall c i arm w, In c (metric_columns_of clicks_wanted) -> In (i, arm) (grid_assigned two_items) ->
  - pretest (par ex_cross_design) <= w < runtime (par ex_cross_design) ->
  week_total (grid_perf two_items weekly_dates weekly_clicks) (raw_value ["clicks"] any_click c) i 0 w =
  week_total (grid_perf two_items daily_dates daily_clicks) (raw_value ["clicks"] any_click c) i 0 w.
Proof.
  intros c i arm w [<-|[]] Ia Hw. cbn in Hw. unfold week_total. rewrite !grid_total_clicks. f_equal. f_equal.
  assert (I : i = "a" \/ i = "b").
  { apply in_map_iff in Ia as (j & E & J). apply (f_equal fst) in E. cbn [fst] in E. subst j. cbn in J. intuition auto. }
  assert (W : w = 0 \/ w = 1) by lia. destruct I as [-> | ->], W as [-> | ->]; vm_compute; reflexivity.
Qed.
Definition assigned_some (l : list (string * Z)) : Prop := l <> [] /\ Z.of_nat (List.length l) <= 2 ^ 53.
Lemma clicks_plain : forall m, In m clicks_wanted -> ms_denominator m = None /\ ms_override m = None.
Proof. intros m [<-|[]]. split; reflexivity. Qed.
Example c91_weekly_and_daily_data_give_the_same_results : exists res,
  results cauchy argsort_ref once (grid_data two_items weekly_dates weekly_clicks cross_lab) clicks_wanted ex_cross_params = Ok res /\
  results cauchy argsort_ref once (grid_data two_items daily_dates daily_clicks cross_lab) clicks_wanted ex_cross_params = Ok res /\
  map fst res = ["Clicks"].
Proof.
  assert (E := c91_same_weekly_totals_same_results cauchy argsort_ref once once clicks_wanted _ _ _ _ _ _ _ _ _ _ _ _ _ _
    weekly_concluded daily_concluded once_lists_a_set once_lists_a_set ltac:(discriminate) (fun c Hc => conj (clicks_known c Hc) (clicks_known c Hc)) same_weekly_clicks).
  change (par ex_cross_design) with ex_cross_params in E. rewrite <- E.
  destruct weekly_concluded as [H1 H2 H3 H4 (time & H5) H6 (by_date & binom & outer & neg & H7 & H8)].
  assert (Opaque : assigned_some (grid_assigned two_items)) by (split; [discriminate|vm_compute; discriminate]).
  destruct (c83_crossover_results_always_come cauchy argsort_ref once by_date binom outer _ _ ex_cross_design ["clicks"] 0 neg any_click ex_skip _ time clicks_wanted
    H7 once_lists_a_set argsort_ref_sorts H1 H2 H3 H4 H5 H6 ltac:(discriminate) clicks_known clicks_plain eq_refl (proj1 Opaque) (proj2 Opaque) H8) as (res & R & N).
  exists res. assert (X : results cauchy argsort_ref once (grid_data two_items weekly_dates weekly_clicks cross_lab) clicks_wanted ex_cross_params = Ok res).
  { unfold results. change ex_cross_params with (par ex_cross_design). rewrite R. reflexivity. }
  split; [exact X|]. split; [exact X|]. exact N.
Qed.

(** The weekly totals do not determine the at-least-one metrics: they are computed per row, so that with
    daily data the value of an item can exceed one. *)
Theorem c91_weekly_totals_fix_the_indicators_refuted :
  exists perf1 perf2 assigned d metrics alo start skip out1 out2 i arm,
    concluded perf1 assigned d metrics alo start skip out1 /\ concluded perf2 assigned d metrics alo start skip out2 /\
    In (i, arm) assigned /\ alo = [("clicks", "any")] /\
    (forall j a w, In (j, a) assigned -> - pretest (par d) <= w < runtime (par d) ->
       week_total perf1 (raw_value metrics alo "clicks") j start w = week_total perf2 (raw_value metrics alo "clicks") j start w) /\
    week_total perf1 (raw_value metrics alo "any") i start 0 = Fin 1 /\
    week_total perf2 (raw_value metrics alo "any") i start 0 = Fin 2.
Proof.
  exists (grid_perf two_items weekly_dates weekly_clicks), (grid_perf two_items daily_dates daily_clicks), (grid_assigned two_items), ex_cross_design,
    ["clicks"], any_click, 0, ex_skip, (grid_data two_items weekly_dates weekly_clicks cross_lab), (grid_data two_items daily_dates daily_clicks cross_lab), "a", (toss "a").
  split; [exact weekly_concluded|]. split; [exact daily_concluded|]. split; [now left|]. split; [reflexivity|].
  split; [intros j a w Ia Hw; apply (same_weekly_clicks "clicks" j a w); auto; now left|].
  unfold week_total. rewrite !grid_total_any.
  split; (match goal with |- context [fold_right ?f ?a ?l] => let v := eval vm_compute in (fold_right f a l) in replace (fold_right f a l) with v by (vm_compute; reflexivity) end);
    reflexivity.
Qed.

(** *** Washout weeks and pretest weeks of a crossover *)
Definition washed_params (pre : Z) : params := mkParams 1000 4 "clicks" pre true f0 f0 f0 (Some 1) (flit 5 100) (flit 8 10) (Some "s").
Definition washed_design (pre : Z) : design := mkDesignRec (washed_params pre) 1000 1000.
Definition washed_lab (pre : Z) : Z -> label := match label_fun (washed_params pre) 0 with Ok lab => lab | Err _ => fun _ => None end.
Definition washed_dates (pre : Z) : list Z := (if 0 <? pre then [- week_ns] else []) ++ map (fun k => k * week_ns) [0; 1; 2; 3].
(** [noise] outside the test weeks 1 and 3 *)
Definition noisy_clicks (noise : Z) (i : string) (t : Z) : Z :=
  if (t =? 1 * week_ns) || (t =? 3 * week_ns) then (if String.eqb i "a" then 4 else 3) else noise.
Lemma washed_concluded pre noise : pre = 0 /\ noise = 0 \/ pre = 1 /\ noise = 100 ->
  concluded (grid_perf two_items (washed_dates pre) (noisy_clicks noise)) (grid_assigned two_items) (washed_design pre) ["clicks"] any_click 0 ex_skip
    (grid_data two_items (washed_dates pre) (noisy_clicks noise) (washed_lab pre)).
Proof.
  intros [[-> ->]|[-> ->]].
  - apply grid_concluded; [reflexivity|reflexivity|exact two_items_once|discriminate|discriminate| | | |exact skips_allowed|].
    + intros t Ht. cbn [washed_dates Z.ltb Z.compare app map In] in Ht. repeat (destruct Ht as [<-|Ht]; [reflexivity|]). destruct Ht.
    + vm_compute. reflexivity.
    + reflexivity.
    + checks_pass.
  - apply grid_concluded; [reflexivity|reflexivity|exact two_items_once|discriminate|discriminate| | | |exact skips_allowed|].
    + intros t Ht. cbn [washed_dates Z.ltb Z.compare app map In] in Ht. repeat (destruct Ht as [<-|Ht]; [reflexivity|]). destruct Ht.
    + vm_compute. reflexivity.
    + reflexivity.
    + checks_pass.
Qed.
Example c91_washout_and_pretest_data_do_not_matter :
  grid_perf two_items (washed_dates 0) (noisy_clicks 0) <> grid_perf two_items (washed_dates 1) (noisy_clicks 100) /\
  results cauchy argsort_ref once (grid_data two_items (washed_dates 0) (noisy_clicks 0) (washed_lab 0)) clicks_wanted (washed_params 0) =
  results cauchy argsort_ref once (grid_data two_items (washed_dates 1) (noisy_clicks 100) (washed_lab 1)) clicks_wanted (washed_params 1).
Proof.
  split; [intros E; apply (f_equal (@List.length obs)) in E; discriminate E|].
  apply (c91_a_crossover_reads_only_its_test_weeks cauchy argsort_ref once once clicks_wanted _ _ _ (washed_design 0) (washed_design 1) _ _ _ _ _ _ _
    (washed_concluded 0 0 (or_introl (conj eq_refl eq_refl))) (washed_concluded 1 100 (or_intror (conj eq_refl eq_refl)))
    once_lists_a_set once_lists_a_set ltac:(discriminate) clicks_known eq_refl).
  - constructor; try reflexivity. discriminate.
  - replace (filter _ (grid_perf two_items (washed_dates 1) (noisy_clicks 100)))
      with (filter (in_test_weeks (par (washed_design 0)) 0) (grid_perf two_items (washed_dates 0) (noisy_clicks 0))) by reflexivity.
    apply Permutation_refl.
Qed.

(** the rows in another order *)
Lemma reversed_concluded :
  concluded (grid_perf (rev two_items) (rev weekly_dates) weekly_clicks) (grid_assigned (rev two_items)) ex_cross_design ["clicks"] any_click 0 ex_skip
    (grid_data (rev two_items) (rev weekly_dates) weekly_clicks cross_lab).
Proof.
  apply grid_concluded; [exact cross_design_ok|reflexivity| |discriminate|discriminate| | | |exact skips_allowed|].
  - apply NoDup_rev. exact two_items_once.
  - intros t Ht. cbn in Ht. repeat (destruct Ht as [<-|Ht]; [reflexivity|]). destruct Ht.
  - vm_compute. reflexivity.
  - reflexivity.
  - checks_pass.
Qed.
Example c91_rows_in_another_order :
  grid_data (rev two_items) (rev weekly_dates) weekly_clicks cross_lab <> grid_data two_items weekly_dates weekly_clicks cross_lab /\
  results cauchy argsort_ref once (grid_data two_items weekly_dates weekly_clicks cross_lab) clicks_wanted ex_cross_params =
  results cauchy argsort_ref once (grid_data (rev two_items) (rev weekly_dates) weekly_clicks cross_lab) clicks_wanted ex_cross_params.
Proof.
  split; [intros E; apply (f_equal (map e_item)) in E; discriminate E|].
  apply (c91_the_order_of_the_rows_does_not_matter cauchy argsort_ref once once clicks_wanted _ _ _ _ ex_cross_design _ _ _ _ _ _
    weekly_concluded reversed_concluded once_lists_a_set once_lists_a_set ltac:(discriminate) clicks_known).
  - change (grid_perf (rev two_items) (rev weekly_dates) weekly_clicks) with (rev (grid_perf two_items weekly_dates weekly_clicks)). apply Permutation_rev.
  - change (grid_assigned (rev two_items)) with (rev (grid_assigned two_items)). apply Permutation_rev.
Qed.

(** *** Sixty items, of which the analysis keeps 54 *)
Definition sixty_params : params := mkParams 60 2 "clicks" 0 true f0 f0 (flit 5 100) (Some 0) (flit 5 100) (flit 8 10) (Some "s").
Definition sixty_design : design := mkDesignRec sixty_params 60 54.
Definition sixty_lab : Z -> label := match label_fun sixty_params 0 with Ok lab => lab | Err _ => fun _ => None end.
Definition one_click (i : string) (t : Z) : Z := 1.
Lemma sixty_once : NoDup sixty.
Proof.
  apply (proj2 (NoDup_count_occ string_dec sixty)). intros x. destruct (in_dec string_dec x sixty) as [I|N0].
  + revert x I. apply Forall_forall. repeat constructor; vm_compute; lia.
  + apply (proj1 (count_occ_not_In string_dec sixty x)) in N0. lia.
Qed.
Lemma sixty_concluded :
  concluded (grid_perf sixty weekly_dates one_click) (grid_assigned sixty) sixty_design ["clicks"] any_click 0 []
    (grid_data sixty weekly_dates one_click sixty_lab).
Proof.
  apply grid_concluded; [reflexivity|reflexivity|exact sixty_once|discriminate|discriminate| | | |intros n _ []|].
  - intros t Ht. cbn in Ht. repeat (destruct Ht as [<-|Ht]; [reflexivity|]). destruct Ht.
  - vm_compute. reflexivity.
  - vm_compute. reflexivity.
  - checks_pass.
Qed.
Example c91_fifty_four_of_sixty_items : exists res r text,
  results cauchy argsort_ref once (grid_data sixty weekly_dates one_click sixty_lab) clicks_wanted sixty_params = Ok res /\
  In ("Clicks", r) res /\ r_sample_size r = 54%nat /\
  design_text toy_repr sixty_design = Ok text /\ shows text "Number of items remaining after trimming for the analysis: " 54.
Proof.
  destruct sixty_concluded as [H1 H2 H3 H4 (time & H5) H6 (by_date & binom & outer & neg & H7 & H8)].
  assert (AS : assigned_some (grid_assigned sixty)) by (split; [discriminate|unfold grid_assigned; rewrite map_length; vm_compute; discriminate]).
  destruct (c83_crossover_results_always_come cauchy argsort_ref once by_date binom outer _ _ sixty_design ["clicks"] 0 neg any_click [] _ time clicks_wanted
    H7 once_lists_a_set argsort_ref_sorts H1 H2 H3 H4 H5 H6 ltac:(discriminate) clicks_known clicks_plain eq_refl (proj1 AS) (proj2 AS) H8) as (res & R & N).
  assert (X : results cauchy argsort_ref once (grid_data sixty weekly_dates one_click sixty_lab) clicks_wanted (par sixty_design) = Ok res).
  { unfold results. rewrite R. reflexivity. }
  destruct res as [|[n r] [|? ?]]; try discriminate N. injection N as ->.
  destruct (c90_every_design_can_be_printed toy_repr sixty_params sixty_design (Some "s") H1) as (id & rest & _ & TX).
  change (set_salt sixty_design (Some "s")) with sixty_design in TX.
  exists [("Clicks", r)], r. eexists. split; [exact X|]. split; [now left|]. split; [|split; [exact TX|]].
  - apply Nat2Z.inj. exact (proj1 (c91_reported_sizes cauchy argsort_ref once clicks_wanted _ _ sixty_design _ _ _ _ _ _ "Clicks" r sixty_concluded
      (fun X => X) once_lists_a_set ltac:(discriminate) clicks_known (fun m Hm => proj2 (clicks_plain m Hm)) X (or_introl eq_refl)) eq_refl).
  - apply (c90_item_lines toy_repr sixty_params sixty_design _ H1 ltac:(split; vm_compute; discriminate)
      ltac:(constructor; [apply one_line_iff; reflexivity| |exact toy_one_line]; intros s [= <-]; apply one_line_iff; reflexivity) TX). split; reflexivity.
Qed.

Print Assumptions c91_weekly_totals_fix_the_indicators_refuted.
