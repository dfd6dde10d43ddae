(** C109: what the eleven rows of the results of the analysis notebook say. *)
From Coq Require Import ZArith Reals Lra Lia List String Bool Permutation Sorting.Sorted.
From Flocq Require Import Core BinarySingleNaN.
Require Import Verif.Base Verif.Num Verif.NumOrd Verif.F64 Verif.Frame Verif.ListLib Verif.Design_Model Verif.Design_Spec Verif.Design_Proofs
  Verif.Design_Yaml_Proofs Verif.Design_Props Verif.Trimmed_Model Verif.Trimmed_Spec Verif.Moments Verif.Trimmed_Proofs Verif.Trimmed_Real Verif.Trimmed_Props
  Verif.Cuped_Model Verif.Cuped_Props Verif.Stats_Model Verif.Stats_Num Verif.Stats_Props Verif.Tests_Proofs
  Verif.Tests_Props Verif.Tests_Props2 Verif.Periods_Model Verif.Periods_Proofs Verif.Periods_Props
  Verif.Text_Model Verif.Text_Spec Verif.Text_Props Verif.Text_Props2 Verif.Text_Props3
  Verif.Rows_Model Verif.Rows_Spec Verif.Rows_Proofs Verif.Rows_Props
  Verif.Checks_Model Verif.Checks_Spec Verif.Checks_Proofs Verif.Checks_Props
  Verif.Pivot_Model Verif.Pivot_Spec Verif.Pivot_Proofs Verif.Pivot_Props
  Verif.Analysis_Spec Verif.Analysis_Model Verif.Analysis_Props Verif.Effect_Props Verif.Analysis_Props2 Verif.Size_Props
  Verif.Pipeline_Model Verif.Pipeline_Spec Verif.Pipeline_Proofs Verif.Experiment_Props Verif.Assign_Proofs Verif.Assign_Props Verif.Journey_Model Verif.Journey_Proofs
  Verif.Journey_Props Verif.Sim_Estimate_Props Verif.Design_Text_Proofs Verif.Text_Proofs Verif.Totals_Props Verif.Totals_Props2 Verif.Totals_Props3
  Verif.Standard_Model Verif.Standard_Props Verif.Entry_Model Verif.Entry_Proofs Verif.Analyzer_Model Verif.Analyzer_Props Verif.Analyzer_Props2 Verif.Analyzer_Props3
  Verif.Regular_Props Verif.Regular_Props3 Verif.Ratios_Props Verif.Ratios_Props2.
Import ListNotations.
Open Scope string_scope.
Open Scope list_scope.
Open Scope Z_scope.


(** *** Specification *)
(** name of the row and the column of the raw data *)
Definition amount_rows : list (string * string) :=
  [("Clicks", "clicks"); ("Impressions", "impressions"); ("Cost", "total_cost"); ("Conversions", "conversions");
   ("Conversion value", "total_conversion_value")].
Definition flag_rows : list (string * string) :=
  [("At least one impression", "impressions"); ("At least one click", "clicks"); ("At least one conversion", "conversions")].
(** cost per click, return on advertising spend *)
Definition rate_rows : list (string * string * string) :=
  [("CTR", "clicks", "impressions"); ("CPC", "total_cost", "clicks"); ("ROAS", "total_conversion_value", "total_cost")].
(** the raw rows of an item in a span of time with more than nothing in a column *)
Definition positive (x : num) : bool := nltb (Fin 0) x.
Definition rows_with (perf : list obs) (value : obs -> num) (i : string) (from to : Z) : nat :=
  List.length (filter (fun o => String.eqb (o_item o) i && (from <=? o_date o) && (o_date o <? to) && positive (value o)) perf).
Definition rows_of_items (perf : list obs) (value : obs -> num) (items : list string) (from to : Z) : nat :=
  fold_right Nat.add 0%nat (map (fun i => rows_with perf value i from to) items).

(** *** Counting rows *)
Lemma positive_one x : one_if_positive x = Fin (if positive x then 1 else 0).
Proof. rewrite <- indicator_one. unfold Pipeline_Model.indicator, positive. now destruct (nltb (Fin 0) x). Qed.
Lemma flags_of_item perf value i from to : raw_total perf (fun o => one_if_positive (value o)) i from to = Fin (INR (rows_with perf value i from to)).
Proof.
  unfold raw_total, Rows_Spec.total, rows_with. induction perf as [|o perf IH]; [reflexivity|]. cbn [fold_right filter]. rewrite IH.
  destruct (String.eqb (o_item o) i && (from <=? o_date o) && (o_date o <? to)); cbn [andb].
  - rewrite positive_one. destruct (positive (value o)); cbn [nadd].
    + cbn [List.length]. rewrite S_INR. f_equal. ring.
    + f_equal. ring.
  - cbn [nadd]. f_equal. ring.
Qed.
Lemma flags_of_items perf value items start a b : 
  weeks_total perf (fun o => one_if_positive (value o)) items start a b = Fin (INR (rows_of_items perf value items (start + a * week_ns) (start + b * week_ns))).
Proof.
  unfold weeks_total, rows_of_items, nsum. induction items as [|i l IH]; [reflexivity|]. cbn [map fold_right]. rewrite IH, flags_of_item. cbn [nadd]. f_equal. now rewrite plus_INR.
Qed.
Lemma weeks_total_ext perf v1 v2 items start a b : (forall o, v1 o = v2 o) -> weeks_total perf v1 items start a b = weeks_total perf v2 items start a b.
Proof.
  intros E. unfold weeks_total. f_equal. apply map_ext. intros i. unfold raw_total, Rows_Spec.total. induction perf as [|o perf IH]; [reflexivity|].
  cbn [fold_right]. rewrite IH, E. reflexivity.
Qed.

(** *** The rows of the notebook *)
Lemma mapM_names {A} (f : A -> result tresult) (name : A -> string) l : forall res,
  mapM (fun m => let! r := f m in Ok (name m, r)) l = Ok res -> map fst res = map name l.
Proof.
  induction l as [|m l IH]; intros res H; cbn [mapM] in H; [injection H as <-; reflexivity|].
  apply bind_ok in H as (x & H1 & H). apply bind_ok in H as (y & H2 & H). injection H as <-. apply bind_ok in H1 as (r & _ & H1). injection H1 as <-.
  cbn [map fst]. f_equal. now apply IH.
Qed.
Lemma results_names T argsort as_list out wanted p res : wanted <> [] -> results T argsort as_list out wanted p = Ok res -> map fst res = map ms_name wanted.
Proof.
  intros NE. unfold results, analyze_experiment. destruct wanted as [|m0 w]; [congruence|].
  destruct (pivot_time_assignment _ _ _ _ _ _ _ _) as [f' pv]. cbn [snd]. intros H. apply bind_ok in H as (t & _ & H). apply mapM_names in H. exact H.
Qed.
Lemma named_row (res : list (string * tresult)) wanted m r j0 : map fst res = map ms_name wanted -> NoDup (map ms_name wanted) -> nth_error wanted j0 = Some m -> In (ms_name m, r) res ->
  nth_error res j0 = Some (ms_name m, r).
Proof.
  intros E ND J I. apply In_nth_error in I as (j & I). assert (K : nth_error (map ms_name wanted) j = Some (ms_name m)) by (rewrite <- E; now rewrite (map_nth_error fst _ _ I)).
  assert (K' : nth_error (map ms_name wanted) j0 = Some (ms_name m)) by now apply map_nth_error.
  replace j0 with j; [exact I|]. apply (proj1 (NoDup_nth_error _) ND); [apply nth_error_Some; congruence|congruence].
Qed.
Lemma notebook_names_once : NoDup (map ms_name notebook_metrics).
Proof. cbn. repeat constructor; cbn; intuition discriminate. Qed.
Lemma notebook_wanted f : (forall c, In c five -> In c (form_columns f)) ->
  forall c, In c (metric_columns_of notebook_metrics) -> In c (form_columns f ++ map snd (form_at_least_one f)).
Proof.
  intros ALL c Hc. apply in_or_app.
  assert (ALO : forall m n, In (m, n) [("clicks", "at_least_one_click"); ("impressions", "at_least_one_impression"); ("conversions", "at_least_one_conversion")] ->
    In m (form_columns f) -> In n (map snd (form_at_least_one f))).
  { intros m n I J. apply in_map_iff. exists (m, n). split; auto. apply (proj1 (proj2 (proj2 (proj2 (c93_what_the_form_requests f))))). auto. }
  apply notebook_columns, in_app_or in Hc. destruct Hc as [Hc|Hc]; [left; now apply ALL|right]. cbn in Hc. destruct Hc as [<-|[<-|[<-|[]]]].
  - apply (ALO "impressions"); [cbn; tauto|apply ALL; cbn; tauto].
  - apply (ALO "clicks"); [cbn; tauto|apply ALL; cbn; tauto].
  - apply (ALO "conversions"); [cbn; tauto|apply ALL; cbn; tauto].
Qed.
Lemma amount_value metrics alo c : In c metrics -> forall o, raw_value metrics alo c o = raw_metric metrics c o.
Proof. intros I o. unfold raw_value. now destruct (in_dec string_dec c metrics). Qed.

(** the column of an "at least one" row, if it is not given in the data *)
Definition flag_column (column : string) : string :=
  if String.eqb column "impressions" then "at_least_one_impression" else if String.eqb column "clicks" then "at_least_one_click" else "at_least_one_conversion".
Lemma flag_value perf assigned d f start skip out column :
  concluded perf assigned d (form_columns f) (form_at_least_one f) start skip out ->
  (forall c, In c five -> In c (form_columns f)) -> In column ["impressions"; "clicks"; "conversions"] ->
  forall o, raw_value (form_columns f) (form_at_least_one f) (flag_column column) o = one_if_positive (raw_metric (form_columns f) column o).
Proof.
  intros CO ALL I o. destruct (cd_indicators _ _ _ _ _ _ _ _ CO) as [FI _].
  assert (MEM : forall m n, In (m, n) [("clicks", "at_least_one_click"); ("impressions", "at_least_one_impression"); ("conversions", "at_least_one_conversion")] ->
    In m (form_columns f) -> In (m, n) (form_at_least_one f)).
  { intros m n K J. apply (proj1 (proj2 (proj2 (proj2 (c93_what_the_form_requests f))))). auto. }
  assert (H : forall m n, In (m, n) [("clicks", "at_least_one_click"); ("impressions", "at_least_one_impression"); ("conversions", "at_least_one_conversion")] -> In m five ->
    raw_value (form_columns f) (form_at_least_one f) n o = one_if_positive (raw_metric (form_columns f) m o)).
  { intros m n K M. assert (IN := MEM m n K (ALL m M)). destruct (FI m n IN) as [_ NI]. unfold raw_value.
    destruct (in_dec string_dec n (form_columns f)) as [X|_]; [contradiction|].
    destruct (find (fun mn => String.eqb (snd mn) n) (form_at_least_one f)) as [[m' n']|] eqn:FD.
    - apply find_some in FD as [J E]. cbn [snd] in E. apply String.eqb_eq in E. subst n'. unfold form_at_least_one in J. apply filter_In in J as [J _].
      cbn [In] in J, K. destruct J as [J|[J|[J|[]]]], K as [K|[K|[K|[]]]]; inversion J; inversion K; subst; try discriminate; reflexivity.
    - exfalso. apply (find_none _ _ FD) in IN. cbn [snd] in IN. now rewrite String.eqb_refl in IN. }
  cbn [In] in I. destruct I as [<-|[<-|[<-|[]]]]; (apply H; [cbn; tauto|cbn; tauto]).
Qed.

Theorem c109_rows_of_a_regular_experiment :
  forall T argsort as_list perf assigned d f start skip out res,
    concluded perf assigned d (form_columns f) (form_at_least_one f) start skip out -> lists_a_set as_list -> sorts argsort ->
    (forall c, In c ["clicks"; "impressions"; "total_cost"; "conversions"; "total_conversion_value"] -> In c (form_columns f)) ->
    Z.of_nat (List.length assigned) <= 2 ^ 53 -> crossover (par d) = false -> pretest (par d) = 0 ->
    notebook_analysis T argsort as_list out d = Ok res ->
    let value column := raw_metric (form_columns f) column in
    let sum column arm := weeks_total perf (value column) (items_in_arm assigned arm) start 0 (runtime (par d)) in
    let rows column arm := rows_of_items perf (value column) (items_in_arm assigned arm) start (start + runtime (par d) * week_ns) in
    let per_item_and_week arm n := (n / IZR (runtime (par d)) / INR (List.length (items_in_arm assigned arm)))%R in
    (forall name column r, In (name, column) amount_rows -> In (name, r) res -> untrimmed (post (par d)) ->
       exists n1 n0, sum column 1 = Fin n1 /\ sum column 0 = Fin n0 /\
         r_abs r = Fin (per_item_and_week 1 n1 - per_item_and_week 0 n0) /\ r_control_average r = Fin (per_item_and_week 0 n0)) /\
    (forall name column r, In (name, column) flag_rows -> In (name, r) res ->
       r_abs r = Fin (per_item_and_week 1 (INR (rows column 1)) - per_item_and_week 0 (INR (rows column 0))) /\
       r_control_average r = Fin (per_item_and_week 0 (INR (rows column 0)))) /\
    (forall name num den r, In (name, num, den) rate_rows -> In (name, r) res -> untrimmed (post (par d)) ->
       exists n1 d1 n0 d0, sum num 1 = Fin n1 /\ sum den 1 = Fin d1 /\ sum num 0 = Fin n0 /\ sum den 0 = Fin d0 /\
         (d1 <> 0%R -> d0 <> 0%R -> r_abs r = Fin (n1 / d1 - n0 / d0)) /\ (d0 <> 0%R -> r_control_average r = Fin (n0 / d0)) /\
         ((exists x, r_abs r = Fin x) -> d1 <> 0%R /\ d0 <> 0%R)).
Proof.
  intros T argsort as_list perf assigned d f start skip out res CO HL SO ALL NB C PT HR value sum rows per.
  change (results T argsort as_list out notebook_metrics (par d) = Ok res) in HR.
  assert (HW := notebook_wanted f ALL). assert (EN := results_names _ _ _ _ notebook_metrics _ _ ltac:(discriminate) HR).
  assert (AV : forall c, In c five -> forall o, raw_value (form_columns f) (form_at_least_one f) c o = value c o) by (intros c Hc; apply amount_value; now apply ALL).
  assert (ROW : forall j m r, nth_error notebook_metrics j = Some m -> In (ms_name m, r) res -> nth_error res j = Some (ms_name m, r))
    by (intros j m r J I; exact (named_row res notebook_metrics m r j EN notebook_names_once J I)).
  assert (ES : forall c arm, In c five -> weeks_total perf (raw_value (form_columns f) (form_at_least_one f) c) (items_in_arm assigned arm) start 0 (runtime (par d)) = sum c arm)
    by (intros c arm Hc; apply weeks_total_ext; now apply AV).
  split; [|split].
  - assert (G : forall j m r, nth_error notebook_metrics j = Some m -> In (ms_name m, r) res -> ms_denominator m = None -> ms_override m = None -> In (ms_column m) five -> untrimmed (post (par d)) ->
      exists n1 n0, sum (ms_column m) 1 = Fin n1 /\ sum (ms_column m) 0 = Fin n0 /\
         r_abs r = Fin (per 1 n1 - per 0 n0) /\ r_control_average r = Fin (per 0 n0)).
    { intros j m r J I DN OV Hc U. assert (Q : untrimmed (quantile_of (par d) m)) by (unfold quantile_of; now rewrite OV).
      assert (X := c102_regular_metrics_are_per_item_and_week T argsort as_list perf assigned d _ _ start skip out notebook_metrics res j m (ms_name m) r
        CO HL SO HW NB C PT HR J (ROW j m r J I) DN Q). cbv beta zeta in X. rewrite !ES in X by exact Hc. exact X. }
    intros name column r I IR U. cbn [In amount_rows] in I.
    destruct I as [I|[I|[I|[I|[I|[]]]]]]; injection I as <- <-;
      [apply (G 0%nat (mkMetric "Clicks" "clicks" None None))|apply (G 1%nat (mkMetric "Impressions" "impressions" None None))|apply (G 2%nat (mkMetric "Cost" "total_cost" None None))
      |apply (G 3%nat (mkMetric "Conversions" "conversions" None None))|apply (G 4%nat (mkMetric "Conversion value" "total_conversion_value" None None))];
      first [reflexivity|exact IR|exact U|cbn; tauto].
  - assert (G : forall j m column r, nth_error notebook_metrics j = Some m -> In (ms_name m, r) res -> ms_denominator m = None -> ms_override m = Some f0 ->
      ms_column m = flag_column column -> In column ["impressions"; "clicks"; "conversions"] ->
      r_abs r = Fin (per 1 (INR (rows column 1)) - per 0 (INR (rows column 0))) /\ r_control_average r = Fin (per 0 (INR (rows column 0)))).
    { intros j m column r J I DN OV EC Hc. assert (Q : untrimmed (quantile_of (par d) m)) by (unfold quantile_of; rewrite OV; split; reflexivity).
      assert (X := c102_regular_metrics_are_per_item_and_week T argsort as_list perf assigned d _ _ start skip out notebook_metrics res j m (ms_name m) r
        CO HL SO HW NB C PT HR J (ROW j m r J I) DN Q). cbv beta zeta in X. rewrite EC in X.
      assert (EF : forall arm, weeks_total perf (raw_value (form_columns f) (form_at_least_one f) (flag_column column)) (items_in_arm assigned arm) start 0 (runtime (par d)) = Fin (INR (rows column arm))).
      { intros arm. rewrite (weeks_total_ext perf _ (fun o => one_if_positive (value column o))) by (intros o; exact (flag_value perf assigned d f start skip out column CO ALL Hc o)).
        rewrite flags_of_items. unfold rows. now rewrite Z.mul_0_l, Z.add_0_r. }
      rewrite !EF in X. destruct X as (n1 & n0 & E1 & E0 & X). injection E1 as <-. injection E0 as <-. exact X. }
    intros name column r I IR. cbn [In flag_rows] in I.
    destruct I as [I|[I|[I|[]]]]; injection I as <- <-;
      [apply (G 5%nat (mkMetric "At least one impression" "at_least_one_impression" None (Some f0)))|apply (G 6%nat (mkMetric "At least one click" "at_least_one_click" None (Some f0)))
      |apply (G 7%nat (mkMetric "At least one conversion" "at_least_one_conversion" None (Some f0)))];
      first [reflexivity|exact IR|cbn; tauto].
  - assert (G : forall j m den r, nth_error notebook_metrics j = Some m -> In (ms_name m, r) res -> ms_denominator m = Some den -> ms_override m = None -> In (ms_column m) five -> In den five ->
      untrimmed (post (par d)) ->
      exists n1 d1 n0 d0, sum (ms_column m) 1 = Fin n1 /\ sum den 1 = Fin d1 /\ sum (ms_column m) 0 = Fin n0 /\ sum den 0 = Fin d0 /\
         (d1 <> 0%R -> d0 <> 0%R -> r_abs r = Fin (n1 / d1 - n0 / d0)) /\ (d0 <> 0%R -> r_control_average r = Fin (n0 / d0)) /\
         ((exists x, r_abs r = Fin x) -> d1 <> 0%R /\ d0 <> 0%R)).
    { intros j m den r J I DN OV Hc Hd U. assert (Q : untrimmed (quantile_of (par d) m)) by (unfold quantile_of; now rewrite OV).
      assert (X := c102_regular_ratios_are_of_totals T argsort as_list perf assigned d _ _ start skip out notebook_metrics res j m den (ms_name m) r
        CO HL SO HW NB C PT HR J (ROW j m r J I) DN Q). cbv beta zeta in X. rewrite !ES in X by assumption. exact X. }
    intros name num den r I IR U. cbn [In rate_rows] in I.
    destruct I as [I|[I|[I|[]]]]; injection I as <- <- <-;
      [apply (G 8%nat (mkMetric "CTR" "clicks" (Some "impressions") None))|apply (G 9%nat (mkMetric "CPC" "total_cost" (Some "clicks") None))
      |apply (G 10%nat (mkMetric "ROAS" "total_conversion_value" (Some "total_cost") None))];
      first [reflexivity|exact IR|exact U|cbn; tauto].
Qed.

(** *** Shares *)
(** no more than one raw row of an item in a week *)
Definition at_most_weekly (perf : list obs) (start weeks : Z) : Prop :=
  forall i w, 0 <= w < weeks ->
    (List.length (filter (fun o => String.eqb (o_item o) i && (start + w * week_ns <=? o_date o)%Z && (o_date o <? start + (w + 1) * week_ns)%Z) perf) <= 1)%nat.
Lemma rows_with_split perf value i a b c : a <= b -> b <= c -> rows_with perf value i a c = (rows_with perf value i a b + rows_with perf value i b c)%nat.
Proof.
  intros AB BC. unfold rows_with. induction perf as [|o perf IH]; [reflexivity|]. cbn [filter].
  destruct (String.eqb (o_item o) i); cbn [andb]; [|exact IH].
  destruct (Z.leb_spec a (o_date o)), (Z.ltb_spec (o_date o) b), (Z.leb_spec b (o_date o)), (Z.ltb_spec (o_date o) c); try lia;
    cbn [andb]; destruct (positive (value o)); cbn [List.length]; rewrite ?IH; lia.
Qed.
Lemma rows_with_fewer perf value i a b : (rows_with perf value i a b <=
  List.length (filter (fun o => String.eqb (o_item o) i && (a <=? o_date o)%Z && (o_date o <? b)%Z) perf))%nat.
Proof.
  unfold rows_with. induction perf as [|o perf IH]; [reflexivity|]. cbn [filter].
  destruct (String.eqb (o_item o) i && (a <=? o_date o)%Z && (o_date o <? b)%Z); cbn [andb]; [|exact IH]. destruct (positive (value o)); cbn [List.length]; lia.
Qed.
Lemma rows_with_weeks perf value i start (n : nat) : at_most_weekly perf start (Z.of_nat n) -> (rows_with perf value i start (start + Z.of_nat n * week_ns) <= n)%nat.
Proof.
  induction n as [|n IH]; intros W.
  - unfold rows_with. rewrite (filter_ext_in _ (fun _ => false)); [clear; now induction perf|].
    intros o _. destruct (Z.leb_spec start (o_date o)), (Z.ltb_spec (o_date o) (start + Z.of_nat 0 * week_ns)); rewrite ?andb_false_r; try reflexivity. lia.
  - assert (P : 0 < week_ns) by reflexivity.
    rewrite (rows_with_split perf value i start (start + Z.of_nat n * week_ns)) by nia.
    assert (A : at_most_weekly perf start (Z.of_nat n)) by (intros j w Hw; apply W; lia). specialize (IH A).
    assert (B := W i (Z.of_nat n) ltac:(lia)). assert (C := rows_with_fewer perf value i (start + Z.of_nat n * week_ns) (start + (Z.of_nat n + 1) * week_ns)).
    replace (Z.of_nat (S n)) with (Z.of_nat n + 1) by lia. lia.
Qed.
Lemma rows_of_items_weeks perf value items start (n : nat) : at_most_weekly perf start (Z.of_nat n) ->
  (rows_of_items perf value items start (start + Z.of_nat n * week_ns) <= n * List.length items)%nat.
Proof.
  intros W. unfold rows_of_items. induction items as [|i l IH]; [cbn; lia|]. cbn [map fold_right List.length]. assert (H := rows_with_weeks perf value i start n W). lia.
Qed.

Theorem c109_at_least_one_rows_are_shares_of_weekly_data :
  forall T argsort as_list perf assigned d f start skip out res name column r,
    concluded perf assigned d (form_columns f) (form_at_least_one f) start skip out -> lists_a_set as_list -> sorts argsort ->
    (forall c, In c ["clicks"; "impressions"; "total_cost"; "conversions"; "total_conversion_value"] -> In c (form_columns f)) ->
    Z.of_nat (List.length assigned) <= 2 ^ 53 -> crossover (par d) = false -> pretest (par d) = 0 ->
    notebook_analysis T argsort as_list out d = Ok res ->
    at_most_weekly perf start (runtime (par d)) ->
    In (name, column) flag_rows -> In (name, r) res ->
    exists share effect, r_control_average r = Fin share /\ r_abs r = Fin effect /\
      (0 <= share <= 1)%R /\ (0 <= share + effect <= 1)%R.
Proof.
  intros T argsort as_list perf assigned d f start skip out res name column r CO HL SO ALL NB C PT HR W I IR.
  destruct (c109_rows_of_a_regular_experiment T argsort as_list perf assigned d f start skip out res CO HL SO ALL NB C PT HR) as (_ & H & _).
  destruct (H name column r I IR) as [EA EC]. do 2 eexists. split; [exact EC|]. split; [exact EA|].
  assert (G : forall arm, (0 <= INR (rows_of_items perf (raw_metric (form_columns f) column) (items_in_arm assigned arm) start (start + runtime (par d) * week_ns))
     / IZR (runtime (par d)) / INR (List.length (items_in_arm assigned arm)) <= 1)%R).
  { intros arm. destruct (Z_lt_le_dec 0 (runtime (par d))) as [L|L].
    - assert (K := rows_of_items_weeks perf (raw_metric (form_columns f) column) (items_in_arm assigned arm) start (Z.to_nat (runtime (par d)))).
      rewrite Z2Nat.id in K by lia. specialize (K W). clear H EA EC.
      set (n := rows_of_items _ _ (items_in_arm assigned arm) _ _) in *. set (k := List.length (items_in_arm assigned arm)) in *. clearbody n k.
      assert (EI : INR (Z.to_nat (runtime (par d))) = IZR (runtime (par d))) by (rewrite INR_IZR_INZ, Z2Nat.id by lia; reflexivity).
      apply le_INR in K. rewrite mult_INR, EI in K. apply IZR_lt in L. assert (N0 := pos_INR n). assert (K0 := pos_INR k).
      destruct k as [|k].
      + cbn in K. assert (INR n = 0%R) as -> by lra. unfold Rdiv. rewrite !Rmult_0_l. lra.
      + assert (P : (0 < INR (S k))%R) by (rewrite S_INR; assert (Q := pos_INR k); lra).
        split.
        * apply Rmult_le_pos; [apply Rmult_le_pos; [exact N0|]|]; left; now apply Rinv_0_lt_compat.
        * apply (Rmult_le_reg_r (INR (S k))); [exact P|]. apply (Rmult_le_reg_r (IZR (runtime (par d)))); [exact L|].
          replace (INR n / IZR (runtime (par d)) / INR (S k) * INR (S k) * IZR (runtime (par d)))%R with (INR n) by (field; split; lra). lra.
    - assert (E : rows_of_items perf (raw_metric (form_columns f) column) (items_in_arm assigned arm) start (start + runtime (par d) * week_ns) = 0%nat).
      { assert (R0 : forall i, rows_with perf (raw_metric (form_columns f) column) i start (start + runtime (par d) * week_ns) = 0%nat).
        { intros i. unfold rows_with. rewrite (filter_ext_in _ (fun _ => false)); [clear; now induction perf|].
          assert (P : 0 < week_ns) by reflexivity.
          intros o _. destruct (Z.leb_spec start (o_date o)), (Z.ltb_spec (o_date o) (start + runtime (par d) * week_ns)); rewrite ?andb_false_r; try reflexivity. nia. }
        unfold rows_of_items. induction (items_in_arm assigned arm) as [|i l IH]; [reflexivity|]. cbn [map fold_right]. now rewrite R0, IH. }
      rewrite E. cbn [INR]. unfold Rdiv. rewrite !Rmult_0_l. lra. }
  split; [apply G|].
  match goal with |- (0 <= ?s + (?t - ?s') <= 1)%R => replace (s + (t - s'))%R with t by ring end. apply G.
Qed.

(** *** Crossover experiments *)
Theorem c109_rates_of_a_crossover_experiment :
  forall T argsort as_list perf assigned d f start skip out w res name num den r,
    concluded perf assigned d (form_columns f) (form_at_least_one f) start skip out -> lists_a_set as_list -> sorts argsort ->
    (forall c, In c ["clicks"; "impressions"; "total_cost"; "conversions"; "total_conversion_value"] -> In c (form_columns f)) ->
    Z.of_nat (List.length assigned) <= 2 ^ 53 -> crossover (par d) = true -> washout (par d) = Some w -> untrimmed (post (par d)) ->
    notebook_analysis T argsort as_list out d = Ok res -> In (name, num, den) rate_rows -> In (name, r) res ->
    let h := runtime (par d) / 2 in let first := items_in_arm assigned 1 in let second := items_outside_arm assigned 1 in
    let one column l := weeks_total perf (raw_metric (form_columns f) column) l start w h in
    let two column l := weeks_total perf (raw_metric (form_columns f) column) l start (h + w) (2 * h) in
    List.length first = List.length second ->
    exists a b p q a' b' p' q',
      one num first = Fin a /\ two num first = Fin b /\ one num second = Fin p /\ two num second = Fin q /\
      one den first = Fin a' /\ two den first = Fin b' /\ one den second = Fin p' /\ two den second = Fin q' /\
      ((a' + q')%R <> 0%R -> (b' + p')%R <> 0%R -> r_abs r = Fin ((a + q) / (a' + q') - (b + p) / (b' + p'))) /\
      ((b' + p')%R <> 0%R -> r_control_average r = Fin ((b + p) / (b' + p'))).
Proof.
  intros T argsort as_list perf assigned d f start skip out w res name num den r CO HL SO ALL NB C WO U HR I IR h first second one two EQ.
  change (results T argsort as_list out notebook_metrics (par d) = Ok res) in HR.
  assert (HW := notebook_wanted f ALL). assert (EN := results_names _ _ _ _ notebook_metrics _ _ ltac:(discriminate) HR).
  assert (AV : forall c, In c five -> forall o, raw_value (form_columns f) (form_at_least_one f) c o = raw_metric (form_columns f) c o) by (intros c Hc; apply amount_value; now apply ALL).
  assert (ES : forall c l s e, In c five -> weeks_total perf (raw_value (form_columns f) (form_at_least_one f) c) l start s e = weeks_total perf (raw_metric (form_columns f) c) l start s e)
    by (intros c l s e Hc; apply weeks_total_ext; now apply AV).
  assert (G : forall j m, nth_error notebook_metrics j = Some m -> ms_name m = name -> ms_denominator m = Some den -> ms_override m = None -> ms_column m = num -> In num five -> In den five ->
    exists a b p q a' b' p' q',
      one num first = Fin a /\ two num first = Fin b /\ one num second = Fin p /\ two num second = Fin q /\
      one den first = Fin a' /\ two den first = Fin b' /\ one den second = Fin p' /\ two den second = Fin q' /\
      ((a' + q')%R <> 0%R -> (b' + p')%R <> 0%R -> r_abs r = Fin ((a + q) / (a' + q') - (b + p) / (b' + p'))) /\
      ((b' + p')%R <> 0%R -> r_control_average r = Fin ((b + p) / (b' + p')))).
  { intros j m J EM DN OV EC Hc Hd. assert (Q : untrimmed (quantile_of (par d) m)) by (unfold quantile_of; now rewrite OV).
    assert (IR' : In (ms_name m, r) res) by now rewrite EM.
    assert (X := c102_crossover_ratios_are_of_totals T argsort as_list perf assigned d _ _ start skip out notebook_metrics w res j m den (ms_name m) r
      CO HL SO HW NB C WO HR J (named_row res notebook_metrics m r j EN notebook_names_once J IR') DN Q). cbv beta zeta in X.
    fold h in X. fold first in X. fold second in X. rewrite EC in X. rewrite !ES in X by assumption.
    destruct X as (a & b & p & q & a' & b' & p' & q' & E1 & E2 & E3 & E4 & E5 & E6 & E7 & E8 & H1 & H2 & _ & H3).
    destruct (H3 EQ) as [T1 T2]. rewrite T1, T2 in H1. exists a, b, p, q, a', b', p', q'. repeat (split; [assumption|]). assumption. }
  cbn [In rate_rows] in I.
  destruct I as [I|[I|[I|[]]]]; injection I as <- <- <-;
    [apply (G 8%nat (mkMetric "CTR" "clicks" (Some "impressions") None))|apply (G 9%nat (mkMetric "CPC" "total_cost" (Some "clicks") None))
    |apply (G 10%nat (mkMetric "ROAS" "total_conversion_value" (Some "total_cost") None))];
    first [reflexivity|cbn; tauto].
Qed.

(** *** Concrete cases *)
Lemma plain_weekly_rows : at_most_weekly (plain_perf 1) 0 2.
Proof.
  intros i w Hw. assert (CW : w = 0 \/ w = 1) by lia. unfold plain_perf. cbn [filter o_item o_date].
  destruct CW as [-> | ->];
  repeat match goal with |- context [?a <=? ?b] => let v := eval vm_compute in (a <=? b)%Z in change (a <=? b)%Z with v
      | |- context [?a <? ?b] => let v := eval vm_compute in (a <? b)%Z in change (a <? b)%Z with v end;
  rewrite ?andb_true_r, ?andb_false_r; (destruct (String.eqb_spec "a" i) as [<-|]; [cbn; lia|]; destruct (String.eqb_spec "b" i) as [<-|]; cbn; lia).
Qed.
Lemma plain_clicked i : rows_with (plain_perf 1) (raw_metric (form_columns default_form) "clicks") i 0 (0 + 2 * week_ns) =
  if String.eqb "a" i || String.eqb "b" i then 2%nat else 0%nat.
Proof.
  assert (P : forall j z, positive (raw_metric (form_columns default_form) "clicks" (mkObs j z [Fin 1; Fin 1; Fin 1; Fin 1; Fin 1])) = true).
  { intros j z. unfold positive. apply nltb_fin. lra. }
  unfold rows_with, plain_perf. cbn [filter o_item o_date]. rewrite !P.
  repeat match goal with |- context [?a <=? ?b] => let v := eval vm_compute in (a <=? b)%Z in change (a <=? b)%Z with v
      | |- context [?a <? ?b] => let v := eval vm_compute in (a <? b)%Z in change (a <? b)%Z with v end.
  rewrite !andb_true_r. destruct (String.eqb_spec "a" i) as [<-|]; [reflexivity|]. destruct (String.eqb_spec "b" i); reflexivity.
Qed.
Example c109_example : exists out res clicks clicked ctr,
  prepare_experiment isort_by_date (fun _ _ => Ok (Fin 1)) (fun l => l) (plain_perf 1) ex_assigned plain_design
    (form_columns default_form) 0 true (form_columns default_form) (form_at_least_one default_form) ex_skip = Ok out /\
  notebook_analysis cauchy argsort_ref once out plain_design = Ok res /\ at_most_weekly (plain_perf 1) 0 2 /\
  In ("Clicks", clicks) res /\ In ("At least one click", clicked) res /\ In ("CTR", ctr) res /\
  r_abs clicked = Fin 0 /\ r_control_average clicked = Fin 1 /\
  (exists x, r_control_average clicks = Fin x) /\ (exists x y, weeks_total (plain_perf 1) (raw_metric (form_columns default_form) "impressions") ["b"] 0 0 2 = Fin x /\
    weeks_total (plain_perf 1) (raw_metric (form_columns default_form) "clicks") ["b"] 0 0 2 = Fin y /\ (x <> 0%R -> r_control_average ctr = Fin (y / x))).
Proof.
  destruct c97_example as (out & res & H & HR & N). assert (CO := plain_concluded 1 out H).
  assert (IN : forall name, In name eleven -> exists r, In (name, r) res).
  { intros name I. rewrite <- N in I. apply in_map_iff in I as ([n r] & E & I). cbn [fst] in E. subst n. now exists r. }
  destruct (IN "Clicks" ltac:(cbn; tauto)) as (clicks & I1). destruct (IN "At least one click" ltac:(cbn; tauto)) as (clicked & I2). destruct (IN "CTR" ltac:(cbn; tauto)) as (ctr & I3).
  exists out, res, clicks, clicked, ctr. split; [exact H|]. split; [exact HR|]. split; [exact plain_weekly_rows|]. do 3 (split; [assumption|]).
  destruct (c109_rows_of_a_regular_experiment cauchy argsort_ref once (plain_perf 1) ex_assigned plain_design default_form 0 ex_skip out res CO once_lists_a_set argsort_ref_sorts
    (fun c Hc => Hc) ltac:(cbn; lia) eq_refl eq_refl HR) as (HA & HF & HT).
  assert (U : untrimmed (post (par plain_design))) by (split; reflexivity).
  assert (F1 : items_in_arm ex_assigned 1 = ["a"]) by (vm_compute; reflexivity). assert (F0 : items_in_arm ex_assigned 0 = ["b"]) by (vm_compute; reflexivity).
  destruct (HF "At least one click" "clicks" clicked ltac:(cbn; tauto) I2) as [EA EC]. cbv beta zeta in EA, EC. rewrite F1, F0 in EA. rewrite F0 in EC.
  change (runtime (par plain_design)) with 2 in EA, EC. unfold rows_of_items in EA, EC. cbn [map fold_right] in EA, EC. rewrite (plain_clicked "a"), (plain_clicked "b") in EA. rewrite (plain_clicked "b") in EC.
  split; [rewrite EA; f_equal; cbn [String.eqb Ascii.eqb Bool.eqb orb Nat.add List.length INR]; lra|]. split; [rewrite EC; f_equal; cbn [String.eqb Ascii.eqb Bool.eqb orb Nat.add List.length INR]; lra|].
  split.
  - destruct (HA "Clicks" "clicks" clicks ltac:(cbn; tauto) I1 U) as (n1 & n0 & _ & _ & _ & E). eexists. exact E.
  - destruct (HT "CTR" "clicks" "impressions" ctr ltac:(cbn; tauto) I3 U) as (n1 & d1 & n0 & d0 & _ & _ & E3 & E4 & _ & E & _). rewrite F0 in E3, E4.
    exists d0, n0. auto.
Qed.

(** with daily data, a week of seven days with a click counts seven times *)
Lemma daily_ones_concluded :
  concluded (grid_perf two_items daily_dates one_click) (grid_assigned two_items) plain_design ["clicks"] any_click 0 ex_skip (grid_data two_items daily_dates one_click plain_lab).
Proof.
  apply grid_concluded; [apply mk_design_check; vm_compute; reflexivity|reflexivity|exact two_items_once|discriminate|discriminate| | | |exact skips_allowed|].
  - intros t Ht. cbn [daily_dates map In] in Ht. repeat (destruct Ht as [<-|Ht]; [reflexivity|]). destruct Ht.
  - vm_compute. reflexivity.
  - reflexivity.
  - checks_pass.
Qed.
Definition clicked_wanted : list metric_spec := [mkMetric "At least one click" "any" None (Some f0)].
Lemma daily_any i : i = "a" \/ i = "b" -> raw_total (grid_perf two_items daily_dates one_click) (raw_value ["clicks"] any_click "any") i 0 (0 + 2 * week_ns) = Fin 14.
Proof.
  intros H. rewrite grid_total_any. do 2 f_equal. destruct H as [-> | ->]; vm_compute; reflexivity.
Qed.
Theorem c109_at_least_one_rows_are_shares_refuted :
  exists T argsort as_list perf assigned d start skip out r,
    concluded perf assigned d ["clicks"] [("clicks", "any")] start skip out /\ lists_a_set as_list /\ sorts argsort /\
    crossover (par d) = false /\ pretest (par d) = 0 /\
    results T argsort as_list out [mkMetric "At least one click" "any" None (Some f0)] (par d) = Ok [("At least one click", r)] /\
    r_control_average r = Fin 7.
Proof.
  exists cauchy, argsort_ref, once, (grid_perf two_items daily_dates one_click), (grid_assigned two_items), plain_design, 0, ex_skip, (grid_data two_items daily_dates one_click plain_lab).
  change [mkMetric "At least one click" "any" None (Some f0)] with clicked_wanted.
  assert (CO := daily_ones_concluded).
  assert (F1 : items_in_arm (grid_assigned two_items) 1 = ["a"]) by (vm_compute; reflexivity). assert (F0 : items_in_arm (grid_assigned two_items) 0 = ["b"]) by (vm_compute; reflexivity).
  assert (NB : Z.of_nat (List.length (grid_assigned two_items)) <= 2 ^ 53) by (vm_compute; discriminate).
  assert (KN : forall c, In c (metric_columns_of clicked_wanted) -> In c (["clicks"] ++ map snd any_click)) by (intros c [<-|[]]; right; left; reflexivity).
  assert (OV : forall m q, In m clicked_wanted -> ms_override m = Some q -> is_finite q = true /\ (0 <= B2R q < 1 / 2)%R).
  { intros m q [<-|[]] E. assert (q = f0) as -> by (cbn [ms_override] in E; congruence). split; [reflexivity|]. replace (B2R f0) with 0%R by reflexivity. lra. }
  assert (AB : forall i a, In (i, a) (grid_assigned two_items) -> i = "a" \/ i = "b").
  { intros i a [E|[E|[]]]; apply (f_equal fst) in E; cbn [fst] in E; auto. }
  assert (OK : is_ok (results cauchy argsort_ref once (grid_data two_items daily_dates one_click plain_lab) clicked_wanted (par plain_design))).
  { apply (c97_without_pretest_results_come_iff cauchy argsort_ref once _ _ plain_design ["clicks"] any_click 0 ex_skip _ clicked_wanted (fun _ _ => 7%R) CO once_lists_a_set
      argsort_ref_sorts ltac:(discriminate) KN OV); [reflexivity|exact NB|reflexivity| |].
    - intros c i a [<-|[]] Hi.
      change (ndiv (raw_total (grid_perf two_items daily_dates one_click) (raw_value ["clicks"] any_click "any") i 0 (0 + 2 * week_ns)) (Fin 2) = Fin 7).
      rewrite (daily_any i (AB i a Hi)). rewrite ndiv_fin by (cbn; lra). cbn. f_equal. lra.
    - split; [exists "a"; left; vm_compute; reflexivity|]. split; [exists "b"; right; left; vm_compute; reflexivity|].
      intros m [<-|[]] _. rewrite F1, F0. cbn [map]. change (quantile_of _ _) with f0.
      apply comparable_untrimmed; [intros x [<-|[]]; lra|intros x [<-|[]]; lra|discriminate|]. exists 7%R. split; [now left|lra]. }
  destruct OK as (res & RS). assert (EN := results_names _ _ _ _ clicked_wanted _ _ ltac:(discriminate) RS).
  destruct res as [|[n r] [|? ?]]; try discriminate EN. cbn in EN. injection EN as ->. exists r.
  split; [exact CO|]. split; [exact once_lists_a_set|]. split; [exact argsort_ref_sorts|]. split; [reflexivity|]. split; [reflexivity|]. split; [exact RS|].
  destruct (c102_regular_metrics_are_per_item_and_week cauchy argsort_ref once _ _ _ _ _ _ _ _ clicked_wanted _ 0%nat _ "At least one click" r CO
      once_lists_a_set argsort_ref_sorts KN NB eq_refl eq_refl RS eq_refl eq_refl eq_refl ltac:(split; reflexivity)) as (n1 & n0 & _ & E0 & _ & E).
  rewrite F0 in E0, E. 
  assert (W : weeks_total (grid_perf two_items daily_dates one_click) (raw_value ["clicks"] any_click "any") ["b"] 0 0 2 = Fin 14).
  { unfold weeks_total, nsum. cbn [map fold_right]. replace (0 + 0 * week_ns) with 0 by lia. rewrite (daily_any "b") by auto. cbn [nadd]. f_equal. lra. }
  change (weeks_total (grid_perf two_items daily_dates one_click) (raw_value ["clicks"] any_click "any") ["b"] 0 0 2 = Fin n0) in E0.
  rewrite W in E0. injection E0 as E0. rewrite E, <- E0. f_equal. cbn. lra.
Qed.

(** a crossover experiment: in its first week the treated item has as many clicks as impressions, and so has it in the second *)
Example c109_crossover_example : exists out res ctr,
  prepare_experiment isort_by_date (fun _ _ => Ok (Fin 1)) (fun l => l) full_perf ex_assigned ex_cross_design
    (form_columns default_form) 0 true (form_columns default_form) (form_at_least_one default_form) ex_skip = Ok out /\
  notebook_analysis cauchy argsort_ref once out ex_cross_design = Ok res /\ In ("CTR", ctr) res /\
  List.length (items_in_arm ex_assigned 1) = List.length (items_outside_arm ex_assigned 1) /\
  exists b p b' p',
    weeks_total full_perf (raw_metric (form_columns default_form) "clicks") ["a"] 0 1 2 = Fin b /\
    weeks_total full_perf (raw_metric (form_columns default_form) "clicks") ["b"] 0 0 1 = Fin p /\
    weeks_total full_perf (raw_metric (form_columns default_form) "impressions") ["a"] 0 1 2 = Fin b' /\
    weeks_total full_perf (raw_metric (form_columns default_form) "impressions") ["b"] 0 0 1 = Fin p' /\
    ((b' + p')%R <> 0%R -> r_control_average ctr = Fin ((b + p) / (b' + p'))).
Proof.
  destruct c93_example as (out & res & _ & H & HR & N & _). 
  assert (I : exists r, In ("CTR", r) res).
  { assert (I : In "CTR" eleven) by (cbn; tauto). rewrite <- N in I. apply in_map_iff in I as ([n r] & E & I). cbn [fst] in E. subst n. now exists r. }
  destruct I as (ctr & I). exists out, res, ctr. split; [exact H|]. split; [exact HR|]. split; [exact I|].
  assert (F1 : items_in_arm ex_assigned 1 = ["a"]) by (vm_compute; reflexivity). assert (F2 : items_outside_arm ex_assigned 1 = ["b"]) by (vm_compute; reflexivity).
  assert (EQ : List.length (items_in_arm ex_assigned 1) = List.length (items_outside_arm ex_assigned 1)) by now rewrite F1, F2.
  split; [exact EQ|].
  assert (CO : concluded full_perf ex_assigned ex_cross_design (form_columns default_form) (form_at_least_one default_form) 0 ex_skip out).
  { destruct (form_fresh default_form default_distinct) as (NM & FI & OWN).
    constructor; [apply mk_design_check; vm_compute; reflexivity|exact NM|exact FI|exact OWN| | |].
    - exists 0. intros o Ho. cbn in Ho. repeat (destruct Ho as [<-|Ho]; [split; reflexivity|]). destruct Ho.
    - intros n Hn X. cbn in X. destruct X as [<-|[]]. cbn in Hn. intuition discriminate.
    - exists isort_by_date, (fun _ _ => Ok (Fin 1)), (fun l => l), (form_columns default_form). auto. }
  destruct (c109_rates_of_a_crossover_experiment cauchy argsort_ref once full_perf ex_assigned ex_cross_design default_form 0 ex_skip out 0 res "CTR" "clicks" "impressions" ctr
    CO once_lists_a_set argsort_ref_sorts (fun c Hc => Hc) ltac:(cbn; lia) eq_refl eq_refl ltac:(split; reflexivity) HR ltac:(cbn; tauto) I EQ)
    as (a & b & p & q & a' & b' & p' & q' & _ & E2 & E3 & _ & _ & E6 & E7 & _ & _ & E).
  rewrite F1, F2 in *. exists b, p, b', p'. auto.
Qed.

Print Assumptions c109_rows_of_a_regular_experiment.
Print Assumptions c109_at_least_one_rows_are_shares_of_weekly_data.
Print Assumptions c109_rates_of_a_crossover_experiment.
Print Assumptions c109_at_least_one_rows_are_shares_refuted.
