(** C83: from the raw performance rows to the results. *)
From Coq Require Import ZArith Reals Lra Lia List String Bool Permutation Sorting.Sorted.
From Flocq Require Import Core BinarySingleNaN.
Require Import Verif.Base Verif.Num Verif.NumOrd Verif.F64 Verif.Frame Verif.ListLib Verif.Design_Model Verif.Design_Spec Verif.Design_Proofs
  Verif.Design_Yaml_Proofs Verif.Design_Props Verif.Trimmed_Model Verif.Trimmed_Spec Verif.Moments Verif.Trimmed_Proofs Verif.Trimmed_Real Verif.Trimmed_Props
  Verif.Cuped_Model Verif.Cuped_Props Verif.Stats_Model Verif.Stats_Num Verif.Stats_Props Verif.Tests_Proofs
  Verif.Tests_Props Verif.Tests_Props2 Verif.Periods_Model Verif.Periods_Proofs Verif.Periods_Props
  Verif.Rows_Model Verif.Rows_Spec Verif.Rows_Proofs Verif.Rows_Props
  Verif.Checks_Model Verif.Checks_Spec Verif.Checks_Proofs Verif.Checks_Props
  Verif.Pivot_Model Verif.Pivot_Spec Verif.Pivot_Proofs Verif.Pivot_Props
  Verif.Analysis_Spec Verif.Analysis_Model Verif.Analysis_Props Verif.Effect_Props Verif.Analysis_Props2
  Verif.Pipeline_Model Verif.Pipeline_Spec Verif.Pipeline_Proofs Verif.Experiment_Props Verif.Assign_Props Verif.Journey_Model Verif.Journey_Proofs.
Import ListNotations.
Open Scope string_scope.
Open Scope list_scope.
Open Scope Z_scope.

(** the columns of the preparation that are no metrics *)
Definition own_columns : list string := ["item_id"; "date"; "week_id"; "week_start"; "time_period"; "treatment_assignment"].

(** *** The returned frame cannot be analysed as it is *)
Lemma prepared_has_period rows : has_col "time_period" (prepared_frame rows) = true.
Proof.
  unfold prepared_frame, has_col, columns. rewrite !map_app, !existsb_app. cbn. now rewrite !orb_true_r.
Qed.
Theorem c83_prepared_data_must_lose_a_column_first :
  forall T argsort as_list rows wanted p week item treat,
    wanted <> [] ->
    analyze_experiment T argsort as_list (prepared_frame rows) wanted p week item treat =
      (prepared_frame rows, Err (ValueError "time_period_column must not already be a column")).
Proof.
  intros T argsort as_list rows wanted p week item treat N. unfold analyze_experiment.
  destruct wanted as [|m l]; [congruence|]. unfold pivot_time_assignment. rewrite prepared_has_period. reflexivity.
Qed.

(** *** Every week is observed *)
Section Checked.
Context by_date binom outer perf assigned d metrics start concluded neg alo skip out
  (HP : forall l, Permutation (outer l) l) (HD : mk_design (par d) = Ok d)
  (HS1 : ~ In "no_nulls" skip) (HS2 : ~ In "no_duplicate_items_per_date" skip)
  (H : prepare_experiment by_date binom outer perf assigned d metrics start concluded neg alo skip = Ok out).

Lemma prepared_dates x : In x (map e_date out) <-> seen_date perf x.
Proof.
  pose proof H as H'. apply prepare_experiment_ok in H' as (NA & NP & HV & lab & L & HI); [|exact HP].
  destruct (c35_one_row_per_assigned_item_and_date _ _ _ _ _ _ _ _ _ _ _ _ _ HP HS2 H) as [EX _].
  rewrite in_map_iff. split.
  - intros (r & <- & Hr). apply HI in Hr. tauto.
  - intros Hx. destruct assigned as [|[i a] ?]; [congruence|]. destruct (EX i x) as (r & Hr & _ & E); auto; [exists a; now left|eauto].
Qed.
End Checked.

Theorem c83_every_week_is_observed :
  forall by_date binom outer perf assigned d metrics start neg alo skip out time,
    (forall l, Permutation (outer l) l) -> mk_design (par d) = Ok d ->
    ~ In "no_nulls" skip -> ~ In "no_duplicate_items_per_date" skip ->
    ~ In "dates_are_daily_or_weekly" skip -> ~ In "experiment_dates_match_design" skip ->
    (forall o, In o perf -> o_date o mod day_ns = time) ->
    prepare_experiment by_date binom outer perf assigned d metrics start true neg alo skip = Ok out ->
    forall w, - pretest (par d) <= w < runtime (par d) -> seen_date perf (start + w * week_ns).
Proof.
  intros by_date binom outer perf assigned d metrics start neg alo skip out time HP HD S1 S2 S3 S4 HT H w Hw.
  destruct (c78_prepared_dates_lie_in_the_experiment _ _ _ _ _ _ _ _ _ _ _ _ _ HP HD S1 S2 H) as (RNG & _ & MX).
  destruct (MX S4) as [MN MX']. destruct (MX' eq_refl) as (last & SL & LL). clear MX MX'.
  assert (DI := prepared_dates _ _ _ _ _ _ _ _ _ _ _ _ _ HP S2 H).
  pose proof H as H'. apply prepare_experiment_ok in H' as (_ & _ & HV & _); [|exact HP].
  assert (CK := experiment_check_passed _ _ _ _ _ _ _ _ _ "dates_are_daily_or_weekly"
    (check_dates_spacing (v_dates (experiment_view out))) HV ltac:(do 3 right; left; reflexivity) S3).
  cbn [experiment_view v_dates] in CK.
  assert (NE : map e_date out <> []) by (intros E; apply DI in MN; rewrite E in MN; destruct MN).
  apply (c26_midnight_dates_form_a_progression _ time NE) in CK.
  2:{ intros x Hx. apply DI in Hx as (o & Ho & <-). auto. }
  assert (G : forall k, k = 7 \/ k = 1 -> progression k (map e_date out) -> seen_date perf (start + w * week_ns)).
  { intros k K (a & n & Hn & HI). apply DI, HI.
    assert (W : week_ns = 7 * day_ns) by reflexivity. assert (D0 : 0 < day_ns) by reflexivity.
    assert (EA : a = start - pretest (par d) * week_ns).
    { apply DI, HI in MN as (i & Hi & E). assert (X : In a (map e_date out)) by (apply HI; exists 0; lia).
      apply DI, RNG in X. destruct K as [-> | ->]; nia. }
    apply DI, HI in SL as (j & Hj & EL).
    destruct K as [-> | ->].
    - exists (w + pretest (par d)). split; [|rewrite EA, W; ring]. rewrite EL, EA, W in LL. split; [lia|]. nia.
    - exists (7 * (w + pretest (par d))). split; [|rewrite EA, W; ring]. rewrite EL, EA, W in LL. split; [lia|]. nia. }
  destruct CK as [CK|CK]; [apply (G 7)|apply (G 1)]; auto.
Qed.

(** *** The frame seen by the analysis *)
(** what the notebook passes on: daily_experiment_data.drop(columns="time_period"),
    notebooks/02_experiment_analyzer.ipynb:1671-1672 *)
Definition analysed_frame (rows : list erow) : frame := drop_col "time_period" (prepared_frame rows).

Lemma get_col_app c f g : get_col c (f ++ g) = match get_col c f with Some v => Some v | None => get_col c g end.
Proof. induction f as [|[x v] f IH]; cbn; auto. destruct (String.eqb c x); auto. Qed.
Lemma get_col_map c (h : string -> list cell) l : get_col c (map (fun x => (x, h x)) l) = if existsb (String.eqb c) l then Some (h c) else None.
Proof.
  induction l as [|x l IH]; cbn; auto. destruct (String.eqb_spec c x) as [->|N]; auto.
Qed.
Lemma get_drop c n f : c <> n -> get_col c (drop_col n f) = get_col c f.
Proof.
  intros N. unfold drop_col. induction f as [|[x v] f IH]; cbn; auto. destruct (String.eqb_spec n x) as [->|M]; cbn.
  - destruct (String.eqb_spec c x); [congruence|auto].
  - destruct (String.eqb c x); auto.
Qed.
Lemma get_dropped n f : get_col n (drop_col n f) = None.
Proof.
  unfold drop_col. induction f as [|[x v] f IH]; cbn; auto. destruct (String.eqb_spec n x) as [->|M]; cbn; auto.
  destruct (String.eqb_spec n x); [congruence|auto].
Qed.

Definition analysed_row (cols : list string) (r : erow) : prow akey :=
  mkP (e_item r, [e_arm r]) (Some (e_week r)) (map (col_of (e_cols r)) cols).

Section Frame.
Context (names : list string) (rows : list erow)
  (HN : forall r, In r rows -> map fst (e_cols r) = names) (NE : rows <> [])
  (OWN : forall c, In c own_columns -> ~ In c names).

Lemma own_not c : In c own_columns -> existsb (String.eqb c) names = false.
Proof.
  intros I. apply existsb_false_iff. intros x Hx. apply String.eqb_neq. intros <-. exact (OWN c I Hx).
Qed.

Lemma prepared_columns c : get_col c (analysed_frame rows) =
  if String.eqb c "item_id" then Some (map (fun r => CStr (e_item r)) rows)
  else if String.eqb c "date" then Some (map (fun r => CZ (e_date r)) rows)
  else if existsb (String.eqb c) names then Some (metric_cells rows c)
  else if String.eqb c "week_id" then Some (map (fun r => CZ (e_week r)) rows)
  else if String.eqb c "week_start" then Some (map (fun r => CZ (e_start r)) rows)
  else if String.eqb c "treatment_assignment" then Some (map (fun r => CZ (e_arm r)) rows)
  else None.
Proof.
  assert (EN : match rows with [] => [] | r :: _ => map fst (e_cols r) end = names).
  { destruct rows as [|r l]; [congruence|]. apply HN. now left. }
  unfold analysed_frame. destruct (string_dec c "time_period") as [->|N].
  - rewrite get_dropped, own_not by (cbn; tauto). reflexivity.
  - rewrite get_drop by auto. unfold prepared_frame. rewrite EN, !get_col_app, get_col_map. cbn [get_col].
    destruct (String.eqb c "item_id"); auto. destruct (String.eqb c "date"); auto. destruct (existsb _ names); auto.
    destruct (String.eqb c "week_id"); auto. destruct (String.eqb c "week_start"); auto.
    destruct (String.eqb_spec c "time_period"); [congruence|]. destruct (String.eqb c "treatment_assignment"); auto.
Qed.
Lemma prepared_metric c : In c names -> get_col c (analysed_frame rows) = Some (metric_cells rows c).
Proof.
  intros I. rewrite prepared_columns.
  destruct (String.eqb_spec c "item_id") as [->|]; [exfalso; apply (OWN "item_id"); cbn; auto|].
  destruct (String.eqb_spec c "date") as [->|]; [exfalso; apply (OWN "date"); cbn; auto|].
  replace (existsb (String.eqb c) names) with true; auto. symmetry. apply existsb_exists. exists c. split; auto. apply String.eqb_refl.
Qed.

Lemma flat_seq {A B} (f : nat -> list B) (g : A -> B) (l : list A) : (forall i a, nth_error l i = Some a -> f i = [g a]) ->
  flat_map f (seq 0 (List.length l)) = map g l.
Proof.
  revert f. induction l as [|a l IH]; intros f Hf; cbn; auto. rewrite (Hf 0%nat a eq_refl). cbn. f_equal.
  rewrite <- seq_shift. rewrite flat_map_concat_map, map_map, <- flat_map_concat_map. apply IH. intros i b Hb. apply Hf. exact Hb.
Qed.

Lemma analysed_rows cols : (forall c, In c cols -> In c names) ->
  frame_rows (analysed_frame rows) cols "item_id" "week_id" (Some "treatment_assignment") = map (analysed_row cols) rows.
Proof.
  intros HC. unfold frame_rows, col_or_nil. rewrite (prepared_columns "week_id"), own_not by (cbn; tauto).
  cbn [String.eqb Ascii.eqb Bool.eqb]. rewrite map_length. apply flat_seq. intros i r Hr. unfold frame_row, col_or_nil.
  rewrite (prepared_columns "treatment_assignment"), (prepared_columns "item_id"), (prepared_columns "week_id"), !own_not by (cbn; tauto).
  cbn [String.eqb Ascii.eqb Bool.eqb].
  assert (NT : forall (h : erow -> cell), nth i (map h rows) CNull = h r).
  { intros h. apply nth_error_nth. now rewrite nth_error_map, Hr. }
  rewrite !NT. cbn [z_of_cell str_of_cell]. unfold analysed_row. f_equal. f_equal. apply map_ext_in. intros c Hc.
  rewrite (prepared_metric c (HC c Hc)). unfold metric_cells. rewrite NT. unfold col_of. destruct (get_num c (e_cols r)); reflexivity.
Qed.
End Frame.

(** *** The analysis of a complete table *)
Lemma subset_found {K} (arm : K -> option Z) cols keys F m s : In (m, s) cols -> exists sub, metric_subset arm (tab cols keys F) true m = Ok sub.
Proof.
  intros I. unfold metric_subset. replace (existsb _ _) with true; eauto. symmetry. apply existsb_exists. exists (m, s). split; auto. apply String.eqb_refl.
Qed.
Lemma some_needed p : exists s, needed p s.
Proof. unfold needed. destruct (crossover p); eauto. Qed.
Lemma needed_required p s : In s (required_periods p) -> needed p s.
Proof.
  unfold required_periods, needed. destruct (crossover p); [cbn; intuition|]. destruct (0 <? pretest p) eqn:E; cbn.
  - apply Z.ltb_lt in E. intuition.
  - intuition.
Qed.

Lemma analysis_is_tested T argsort cols keys F p (m : metric_spec) :
  NoDup cols -> (crossover p = false -> pretest p = 0%Z -> forall c, ~ In (c, "pretest") cols) -> (0 <= pretest p)%Z ->
  (forall c s, c = ms_column m \/ ms_denominator m = Some c -> needed p s -> In (c, s) cols) ->
  analyze_single_metric T argsort key_arm (tab cols keys F) true p (ms_column m) (ms_denominator m) (ms_override m) =
  tested T argsort p keys (fun c s k => F k (c, s)) m.
Proof.
  intros ND NP PT HI. destruct (some_needed p) as (s0 & N0).
  assert (CO : forall c sub, (forall s, needed p s -> In (c, s) cols) -> metric_subset key_arm (tab cols keys F) true c = Ok sub ->
    complete p sub = true /\ s_arms sub = Some (map key_arm keys) /\
        (forall s, In (c, s) cols -> sget s (s_periods sub) = Some (map (fun k => F k (c, s)) keys)) /\
        (forall s, ~ In (c, s) cols -> sget s (s_periods sub) = None)).
  { intros c sub HC HS. destruct (metric_subset_tab key_arm cols keys F _ _ ND HS) as (A1 & G1 & G1'). repeat (split; auto).
    unfold complete. rewrite A1. cbn [andb]. apply forallb_forall. intros s Hs. apply needed_required in Hs. now rewrite (G1 s) by auto. }
  destruct (subset_found key_arm cols keys F (ms_column m) s0 ltac:(auto)) as (sub & HS).
  destruct (CO _ sub ltac:(auto) HS) as (C1 & A1 & G1 & G1').
  assert (DD : exists den, match ms_denominator m with
              | Some d => let! s := metric_subset key_arm (tab cols keys F) true d in Ok (Some s)
              | None => Ok None
              end = Ok den /\ match den with Some s => complete p s | None => true end = true /\
     match ms_denominator m, den with
    | None, None => True
    | Some c, Some sd => s_arms sd = Some (map key_arm keys) /\
        (forall s, In (c, s) cols -> sget s (s_periods sd) = Some (map (fun k => F k (c, s)) keys)) /\
        (forall s, ~ In (c, s) cols -> sget s (s_periods sd) = None)
    | _, _ => False end).
  { destruct (ms_denominator m) as [c|]; [|exists None; auto].
    destruct (subset_found key_arm cols keys F c s0 ltac:(auto)) as (sd & HSd). destruct (CO _ sd ltac:(auto) HSd) as (C2 & A2 & G2 & G2').
    exists (Some sd). rewrite HSd. cbn [bind]. auto. }
  destruct DD as (den & HDen & C2 & DD).
  unfold analyze_single_metric. rewrite HS. cbn [bind]. rewrite HDen. cbn [bind]. rewrite C1, C2. cbn [andb negb raise_if bind].
  unfold tested. change recorded_arm with key_arm. rewrite <- default_alpha_value.
  replace (match ms_override m with Some q => q | None => post p end) with (match ms_override m with None => post p | Some q => q end) by (now destruct (ms_override m)).
  set (q := match ms_override m with None => post p | Some q => q end) in *. unfold needed in HI.
  destruct (crossover p) eqn:C.
  - unfold analyze_crossover, period_values, arm_values. rewrite A1, (G1 "test_1"), (G1 "test_2") by auto.
    destruct (ms_denominator m) as [c|], den as [sd|]; try contradiction; [|reflexivity].
    destruct DD as (A2 & G2 & _). rewrite A2, (G2 "test_1"), (G2 "test_2") by auto. reflexivity.
  - assert (PP : forall c sd, s_arms sd = Some (map key_arm keys) ->
       (forall s, In (c, s) cols -> sget s (s_periods sd) = Some (map (fun k => F k (c, s)) keys)) ->
       (forall s, ~ In (c, s) cols -> sget s (s_periods sd) = None) ->
       In (c, "test") cols -> ((0 < pretest p)%Z -> In (c, "pretest") cols) ->
       prepare_regular argsort (period_values sd "test") (sget "pretest" (s_periods sd)) (arm_values sd) q =
       let! y := (if (0 <? pretest p)%Z then apply_cuped_adjustment argsort (map (fun k => F k (c, "test")) keys) (map (fun k => F k (c, "pretest")) keys) q
                  else Ok (map (fun k => F k (c, "test")) keys)) in
       Ok (select (map (arm_is 1) (map key_arm keys)) y, select (map (arm_is 0) (map key_arm keys)) y)).
    { intros c sd A G G' I1 I2. unfold prepare_regular, period_values, arm_values. rewrite A, (G "test") by auto.
      destruct (0 <? pretest p)%Z eqn:E.
      - apply Z.ltb_lt in E. now rewrite (G "pretest") by auto.
      - apply Z.ltb_ge in E. rewrite (G' "pretest"); [reflexivity|]. apply NP; auto. lia. }
    unfold analyze_regular. rewrite (PP (ms_column m) sub) by auto.
    destruct (if (0 <? pretest p)%Z then apply_cuped_adjustment argsort (map (fun k => F k (ms_column m, "test")) keys) (map (fun k => F k (ms_column m, "pretest")) keys) q
                  else Ok (map (fun k => F k (ms_column m, "test")) keys)) as [y|e]; [|reflexivity]. cbn [bind fst snd].
    destruct (ms_denominator m) as [c|], den as [sd|]; try contradiction; [|reflexivity].
    destruct DD as (A2 & G2 & G2'). rewrite (PP c sd) by auto.
    destruct (if (0 <? pretest p)%Z then _ else _) as [z|e]; reflexivity.
Qed.

(** *** From the raw rows to the results *)
(** the weeks of a period: [n] weeks from week [a] on, week 0 being the first of the experiment *)
Definition period_span (p : params) (s : string) (a n : Z) : Prop :=
  if crossover p then
    exists w, washout p = Some w /\ n = runtime p / 2 - w /\
      ((s = "test_1" /\ a = w) \/ (s = "test_2" /\ a = runtime p / 2 + w))
  else (s = "test" /\ a = 0 /\ n = runtime p) \/ (s = "pretest" /\ a = - pretest p /\ n = pretest p).

(** the total of a column over the raw rows of an item in some days *)
Definition raw_total (perf : list obs) (value : obs -> num) (i : string) (from to : Z) : num :=
  total (fun o => String.eqb (o_item o) i && (from <=? o_date o) && (o_date o <? to)) value perf.

Lemma span_label p d lab s a n : mk_design p = Ok d -> label_fun p 0 = Ok lab -> needed p s -> period_span p s a n ->
  (forall w, lab w = Some s <-> a <= w < a + n) /\ n = weeks_of p s /\ 0 < n /\ - pretest p <= a /\ a + n <= runtime p.
Proof.
  intros HD L N SP. assert (D := HD). apply mk_design_iff in D as [D _]. assert (PT := ok_pretest _ D). assert (RT := ok_runtime _ D).
  unfold needed in N. unfold period_span in SP. destruct (crossover p) eqn:C.
  - destruct (c13_crossover_periods p d 0 lab HD C L) as (wash & h & E & R & W & Wp & S).
    destruct SP as (w' & E' & -> & SP). rewrite E in E'. inversion E'; subst w'.
    assert (RH : runtime p / 2 = h) by (rewrite R, Z.mul_comm, Z.div_mul; lia). rewrite RH in *.
    assert (X : (runtime p - 2 * wash) / 2 = h - wash).
    { rewrite R. replace (2 * h - 2 * wash) with ((h - wash) * 2) by ring. now rewrite Z.div_mul by lia. }
    assert (WO : weeks_of p "test_1" = h - wash /\ weeks_of p "test_2" = h - wash) by (unfold weeks_of; rewrite E; cbn; auto).
    destruct SP as [[-> ->]|[-> ->]].
    + split; [intros w; destruct (S w) as (_ & _ & -> & _); lia|]. lia.
    + split; [intros w; destruct (S w) as (_ & _ & _ & _ & -> & _); lia|]. lia.
  - assert (S := fun w => c12_regular_periods p d 0 w lab HD C L).
    destruct SP as [(-> & -> & ->)|(-> & -> & ->)].
    + split; [|unfold weeks_of; cbn; lia]. intros w. destruct (S w) as (_ & -> & _). split; [intros (i & ? & ->); lia|]. intros. exists w. lia.
    + destruct N as [N|[_ N]]; [discriminate|]. split; [|unfold weeks_of; cbn; lia]. intros w. destruct (S w) as (-> & _ & _).
      split; [intros (i & ? & ->); lia|]. intros. exists (- w - 1). lia.
Qed.

(** every needed period has a span *)
Lemma span_exists p d s : mk_design p = Ok d -> needed p s -> exists a n, period_span p s a n.
Proof.
  intros HD N. apply mk_design_iff in HD as [D _]. unfold needed in N. unfold period_span. destruct (crossover p) eqn:C.
  - destruct (ok_crossover _ D C) as (w & -> & _). destruct N as [-> | ->]; do 2 eexists; exists w; (split; [reflexivity|]); (split; [reflexivity|]); eauto.
  - destruct N as [->|[-> _]]; do 2 eexists; eauto.
Qed.

(** the journey, once every week is known to be observed *)
Lemma end_to_end_when_observed :
  forall T argsort as_list by_date binom outer perf assigned d metrics start neg alo skip out wanted,
    (forall l, Permutation (outer l) l) -> lists_a_set as_list -> mk_design (par d) = Ok d ->
    NoDup metrics -> fresh_indicators metrics alo ->
    (forall c, In c own_columns -> ~ In c (metrics ++ map snd alo)) ->
    (forall o, In o perf -> List.length (o_vals o) = List.length metrics) ->
    ~ In "no_nulls" skip -> ~ In "no_duplicate_items_per_date" skip -> ~ In "all_metrics_are_finite" skip ->
    (forall w, - pretest (par d) <= w < runtime (par d) -> exists x, seen_date perf x /\ in_week start x w) ->
    wanted <> [] -> (forall c, In c (metric_columns_of wanted) -> In c (metrics ++ map snd alo)) ->
    prepare_experiment by_date binom outer perf assigned d metrics start true neg alo skip = Ok out ->
    exists keys V,
      StronglySorted (fun a b => akleb a b = true /\ a <> b) keys /\
      Permutation keys (map (fun ia => (fst ia, [snd ia])) assigned) /\
      (forall c s k, In c (metric_columns_of wanted) -> needed (par d) s -> exists x, V c s k = Fin x) /\
      (forall c s a n i arm, In c (metric_columns_of wanted) -> needed (par d) s -> period_span (par d) s a n -> In (i, arm) assigned ->
         V c s (i, [arm]) =
         ndiv (raw_total perf (raw_value metrics alo c) i (start + a * week_ns) (start + (a + n) * week_ns)) (Fin (IZR n))) /\
      analyze_experiment T argsort as_list (analysed_frame out) wanted (par d) "week_id" "item_id" "treatment_assignment" =
        (analysed_frame out, mapM (fun m => let! r := tested T argsort (par d) keys V m in Ok (ms_name m, r)) wanted).
Proof.
  intros T argsort as_list by_date binom outer perf assigned d metrics start neg alo skip out wanted
    HP HL HD NM FI OWN HR S1 S2 S5 EW NW HW H.
  destruct (c78_prepared_dates_lie_in_the_experiment _ _ _ _ _ _ _ _ _ _ _ _ _ HP HD S1 S2 H) as (RNG & NUL & _).
  assert (DI := prepared_dates _ _ _ _ _ _ _ _ _ _ _ _ _ HP S2 H).
  destruct (c35_one_row_per_assigned_item_and_date _ _ _ _ _ _ _ _ _ _ _ _ _ HP S2 H) as [EX _].
  pose proof H as H'. apply prepare_experiment_ok in H' as (NA & NP & HV & lab & HLab & HI); [|exact HP].
  set (names := metrics ++ map snd alo) in *.
  assert (LV : forall r vals, value_or_zero (List.length metrics) perf (e_item r) (e_date r) vals -> List.length vals = List.length metrics).
  { intros r vals [(o & Ho & _ & _ & ->)|[_ ->]]; [rewrite map_length; now apply HR|apply repeat_length]. }
  assert (ROW : forall r, In r out -> map fst (e_cols r) = names /\ e_week r = week_id start (e_date r) /\ e_period r = lab (e_week r) /\ In (e_item r, e_arm r) assigned).
  { intros r Hr. apply HI in Hr as (A1 & A2 & A3 & A4 & A5 & vals & A6 & A7).
    split; [|split; [symmetry; now apply week_id_iff|auto]].
    assert (ML : map fst (combine metrics vals) = metrics).
    { apply LV in A6. clear - A6. revert vals A6. induction metrics; intros [|v vals]; cbn; intros L; try discriminate; auto. f_equal. apply IHmetrics. lia. }
    now destruct (at_least_one_value alo metrics NM FI _ _ ML A7) as [X _]. }
  assert (NE : out <> []).
  { intros E. rewrite E in DI. destruct perf as [|o0 l]; [congruence|]. apply (DI (o_date o0)). exists o0. split; [now left|reflexivity]. }
  set (cols := as_list (metric_columns_of wanted)).
  destruct (HL (metric_columns_of wanted)) as [NDc INc]. fold cols in NDc, INc.
  assert (SUB : forall c, In c cols -> In c names) by (intros c Hc; apply HW, INc; exact Hc).
  assert (NC : cols <> []).
  { destruct wanted as [|m ms]; [congruence|]. intros E. assert (X := proj2 (INc (ms_column m)) (or_introl eq_refl)). rewrite E in X. destruct X. }
  assert (FR := analysed_rows names out (fun r Hr => proj1 (ROW r Hr)) NE OWN cols SUB).
  set (rows := map (analysed_row cols) out) in *.
  (* no infinite values *)
  assert (CALM : calm rows).
  { assert (GET : forall r c, In r out -> In c names -> exists x, get_num c (e_cols r) = Some x).
    { intros r c Hr Hc. apply ROW in Hr as [E _]. rewrite <- E in Hc. clear - Hc. induction (e_cols r) as [|[x v] l IH]; [destruct Hc|].
      cbn in *. destruct (String.eqb_spec c x); eauto. destruct Hc as [->|Hc]; [congruence|auto]. }
    assert (NCOL : forall c, In c names -> num_column c (map e_cols out) = Some (map (fun r => col_of (e_cols r) c) out)).
    { intros c Hc. assert (G : forall l, (forall r, In r l -> In r out) -> num_column c (map e_cols l) = Some (map (fun r => col_of (e_cols r) c) l)).
      { induction l as [|r l IH]; intros Hl; [reflexivity|]. cbn [map num_column]. rewrite IH by (intros; apply Hl; now right).
        destruct (GET r c (Hl r (or_introl eq_refl)) Hc) as (x & E). assert (E2 : col_of (e_cols r) c = x) by (unfold col_of; now rewrite E). now rewrite E, E2. }
      apply G. auto. }
    assert (CK : check_finite (v_col (experiment_view out)) metrics = Ok false).
    { rewrite experiment_run_all in HV. apply bind_ok in HV as (us & _ & HV).
      destruct (run_all_ok _ _ HV "all_metrics_are_finite" (check_finite (v_col (experiment_view out)) metrics)) as (b & E & [-> |X]); auto; [|tauto].
      do 5 right. left. reflexivity. }
    assert (FIN : forall c, In c metrics -> forall r, In r out -> exists x, col_of (e_cols r) c = Fin x).
    { intros c Hc r Hr. rewrite c28_finite_iff in CK.
      2:{ intros m Hm. cbn [experiment_view v_col]. rewrite NCOL by (apply in_or_app; auto). discriminate. }
      apply (CK c (map (fun r => col_of (e_cols r) c) out) _ Hc).
      - cbn [experiment_view v_col]. apply NCOL. apply in_or_app; auto.
      - apply in_map_iff. eauto. }
    intros pr Hpr. apply in_map_iff in Hpr as (r & <- & Hr). cbn [analysed_row p_vals]. apply Forall_forall. intros x Hx.
    apply in_map_iff in Hx as (c & <- & Hc). apply SUB in Hc.
    destruct (in_dec string_dec c metrics) as [M|M].
    - destruct (FIN c M r Hr) as (x & ->). split; discriminate.
    - apply HI in Hr as (A1 & A2 & A3 & A4 & A5 & vals & A6 & A7). apply LV in A6.
      assert (X := prepared_cell metrics alo (mkObs "" 0 vals) (e_cols r) c NM FI A6 A7 Hc). unfold col_of. rewrite X.
      unfold raw_value. destruct (in_dec _ _ _); [tauto|]. destruct (find _ alo) as [[m1 n1]|]; [|split; discriminate].
      cbn [fst]. destruct (raw_metric metrics m1 _) as [z| | |]; cbn; try (split; discriminate). destruct (Rlt_dec 0 z); split; discriminate. }
  (* every needed period is there *)
  assert (PER : forall s, needed (par d) s -> exists r, In r out /\ lab (e_week r) = Some s).
  { intros s Hs. destruct (span_exists _ _ _ HD Hs) as (a & n & SP). destruct (span_label _ _ _ _ _ _ HD HLab Hs SP) as (LW & _ & N0 & B1 & B2).
    destruct (EW a) as (x & SD & IW); [lia|].
    apply DI in SD. apply in_map_iff in SD as (r & E & Hr). exists r. split; auto. apply ROW in Hr as (_ & -> & _). rewrite E.
    replace (week_id start x) with a; [apply LW; lia|]. symmetry. now apply week_id_iff. }
  (* the pivot *)
  assert (D := HD). apply mk_design_iff in D as [D _].
  assert (PV : exists t, pivot_rows akeqb akleb (par d) 0 cols rows = Ok t).
  { destruct (pivot_rows akeqb akleb (par d) 0 cols rows) as [t|e] eqn:E; [eauto|]. exfalso.
    destruct (proj1 (c14_fails_iff_no_test_week _ akeqb akleb (par d) d 0 lab cols rows akey_ord HD HLab CALM NC) (ex_intro _ e E)) as [C X].
    destruct (PER "test") as (r & Hr & LR); [unfold needed; rewrite C; auto|].
    apply (X (analysed_row cols r) (e_week r)); [unfold rows; apply in_map; auto|reflexivity|].
    destruct (c12_regular_periods _ _ _ (e_week r) _ HD C HLab) as (_ & Y & _). apply Y in LR as (i & ? & ->). lia. }
  destruct PV as (t & PV).
  assert (ET := pivot_rows_tab akeqb akleb akey_ord (par d) d 0 lab cols rows t HD HLab CALM PV).
  destruct (c14_values_are_weekly_averages _ _ _ (par d) d 0%Z lab cols rows t akey_ord HD HLab CALM NC PV) as (CK & CS & CCo & _).
  set (keys := keys_at akeqb akleb lab (List.length cols) rows) in *.
  set (F := fun (k : akey) (c : string * string) => ndiv (Rows_Spec.total (is_at akeqb lab k (snd c)) (metric_value cols (fst c)) rows) (Fin (IZR (weeks_of (par d) (snd c))))) in *.
  set (tc := cols_at akeqb akleb lab cols rows) in *.
  assert (KE : map fst (Pivot_Model.t_rows t) = keys) by (rewrite ET; unfold tab; cbn [Pivot_Model.t_rows]; rewrite map_map; apply map_id).
  rewrite KE in CK, CS. assert (TE : t_cols t = tc) by now rewrite ET. rewrite TE in CCo.
  assert (NDt : NoDup tc) by now apply cols_at_NoDup.
  assert (IT : forall c s, In c (metric_columns_of wanted) -> needed (par d) s -> In (c, s) tc).
  { intros c s Hc Hs. apply CCo. split; [apply INc; auto|]. destruct (PER s Hs) as (r & Hr & LR). exists (analysed_row cols r).
    split; [unfold rows; apply in_map; auto|]. exists (e_week r). split; [reflexivity|exact LR]. }
  assert (NPre : crossover (par d) = false -> pretest (par d) = 0%Z -> forall c, ~ In (c, "pretest") tc).
  { intros C P c I. apply CCo in I as (_ & r & _ & w & _ & LW). unfold label_fun in HLab. rewrite C in HLab. inversion HLab; subst lab.
    assert (SP := regular_label_spec 0 (pretest (par d)) (runtime (par d)) w ltac:(lia) ltac:(generalize (ok_runtime _ D); lia)).
    unfold regular_spec in SP. rewrite LW in SP. destruct SP as [[SP X]|[[SP X]|[SP X]]]; try discriminate.
    unfold in_span in X. lia. }
  exists keys, (fun c s k => F k (c, s)). split; [exact CS|]. split; [|split; [|split]].
  - assert (ND1 : NoDup keys).
    { assert (G : forall l : list akey, StronglySorted (fun a b => akleb a b = true /\ a <> b) l -> NoDup l).
      { clear. induction 1 as [|k l SS IH FA]; constructor; auto. intros I. rewrite Forall_forall in FA. now apply FA in I. }
      apply G. exact CS. }
    assert (A1 := assigned_once _ _ _ _ _ _ _ _ _ _ _ _ _ HP HR S2 H).
    assert (ND2 : NoDup assigned).
    { assert (G : forall l : list (string * Z), (forall i a, In (i, a) l -> filter (fun ia => String.eqb (fst ia) i) l = [(i, a)]) -> NoDup l).
      { clear. induction l as [|[i a] l IH]; intros G; constructor.
        - intros I. specialize (G i a (or_introl eq_refl)). cbn in G. rewrite String.eqb_refl in G. injection G as G.
          assert (J : In (i, a) (filter (fun ia => String.eqb (fst ia) i) l)) by (apply filter_In; split; auto; apply String.eqb_refl).
          rewrite G in J. destruct J.
        - apply IH. intros i' a' I. assert (X := G i' a' (or_intror I)). cbn in X. destruct (String.eqb_spec i i') as [->|N]; auto.
          injection X as _ X. assert (J : In (i', a') (filter (fun ia => String.eqb (fst ia) i') l)) by (apply filter_In; split; auto; apply String.eqb_refl).
          rewrite X in J. destruct J. }
      now apply G. }
    apply NoDup_Permutation; auto.
    { apply FinFun.Injective_map_NoDup; auto. intros [i a] [i' a'] E. cbn in E. congruence. }
    intros k. rewrite CK. transitivity (exists i a, k = (i, [a]) /\ In (i, a) assigned).
    2:{ split; [intros (i & a & -> & I); apply in_map_iff; exists (i, a); auto|intros I; apply in_map_iff in I as ([i a] & <- & I); eauto]. }
    clear ND1 ND2. split.
    + intros (pr & s & Hpr & <- & _). apply in_map_iff in Hpr as (r & <- & Hr). cbn. exists (e_item r), (e_arm r). split; auto. now apply ROW.
    + intros (i & a & -> & I). destruct perf as [|o0 l] eqn:EP; [congruence|]. rewrite <- EP in *.
      destruct (EX i (o_date o0)) as (r & Hr & Er & _); [eauto|exists o0; split; [rewrite EP; now left|reflexivity]|].
      destruct (ROW r Hr) as (_ & _ & PR & IA). assert (Z0 := NUL r Hr). rewrite PR in Z0.
      destruct (lab (e_week r)) as [s|] eqn:LR; [|congruence].
      specialize (A1 i a I).
      assert (EA : e_arm r = a).
      { rewrite Er in IA. assert (J : In (i, e_arm r) (filter (fun ia => String.eqb (fst ia) i) assigned)) by (apply filter_In; split; auto; apply String.eqb_refl).
        rewrite A1 in J. destruct J as [J|[]]. congruence. }
      exists (analysed_row cols r), s. split; [unfold rows; now apply in_map|]. cbn. rewrite Er, EA. split; auto. exists (e_week r). auto.
  - intros c s k Hc Hs. destruct (span_exists _ _ _ HD Hs) as (a & n & SP). destruct (span_label _ _ _ _ _ _ HD HLab Hs SP) as (_ & EN & N0 & _).
    unfold F. cbn [fst snd]. rewrite <- EN.
    destruct (total_finite (is_at akeqb lab k s) (metric_value cols c) rows) as (x & ->).
    { intros r Hr. unfold metric_value. assert (CR := CALM r Hr). rewrite Forall_forall in CR.
      destruct (assoc String.eqb c (combine cols (p_vals r))) as [v|] eqn:EA; [|split; discriminate].
      apply CR. clear - EA. revert EA. generalize (p_vals r). induction cols as [|x l IH]; intros [|y ys]; cbn; try discriminate.
      destruct (String.eqb c x); intros X; [injection X as ->; now left|right; now apply IH]. }
    exists (x / IZR n)%R. apply ndiv_fin. apply not_0_IZR. lia.
  - intros c s a n i arm Hc Hs SP I. destruct (span_label _ _ _ _ _ _ HD HLab Hs SP) as (LW & EN & N0 & B1 & B2).
    unfold F. cbn [fst snd]. rewrite <- EN. f_equal.
    assert (IC : In c cols) by now apply INc.
    assert (PT := prepared_total _ _ _ _ _ _ _ _ _ _ _ _ _ HP NM FI HR S2 H i arm c
       (fun x => (start + a * week_ns <=? x) && (x <? start + (a + n) * week_ns)) I (SUB c IC)).
    unfold raw_total. rewrite <- (total_ext (fun o => String.eqb (o_item o) i && ((start + a * week_ns <=? o_date o) && (o_date o <? start + (a + n) * week_ns)))
       _ (raw_value metrics alo c) (raw_value metrics alo c) perf) by (intros; split; [apply andb_assoc|auto]).
    rewrite <- PT. unfold rows. rewrite total_map. apply total_ext. intros r Hr. split.
    + unfold is_at, row_label. cbn [analysed_row p_key p_week]. rewrite <- andb_assoc.
      assert (E1 : akeqb (e_item r, [e_arm r]) (i, [arm]) = String.eqb (e_item r) i && Z.eqb (e_arm r) arm).
      { unfold akeqb, paireqb. cbn [fst snd]. f_equal. destruct (list_eq_dec Z.eq_dec [e_arm r] [arm]) as [X|X]; destruct (Z.eqb_spec (e_arm r) arm); congruence. }
      rewrite E1, <- andb_assoc. f_equal. f_equal. destruct (ROW r Hr) as (_ & EWk & _).
      assert (W : forall w, in_week start (e_date r) w <-> e_week r = w) by (intros w; rewrite EWk; symmetry; apply week_id_iff).
      assert (W0 := proj2 (W _) eq_refl). unfold in_week in W0.
      destruct (lab (e_week r)) as [s'|] eqn:LR.
      * destruct (String.eqb_spec s' s) as [->|NEq].
        -- apply LW in LR. symmetry. apply andb_true_iff. rewrite Z.leb_le, Z.ltb_lt. unfold week_ns in *. nia.
        -- symmetry. apply andb_false_iff. rewrite Z.leb_gt, Z.ltb_ge. destruct (Z.lt_ge_cases (e_week r) a) as [B|B]; [left; unfold week_ns in *; nia|].
           destruct (Z.lt_ge_cases (e_week r) (a + n)) as [B'|B']; [|right; unfold week_ns in *; nia]. exfalso. apply NEq.
           assert (X : lab (e_week r) = Some s) by (apply LW; lia). congruence.
      * symmetry. apply andb_false_iff. rewrite Z.leb_gt, Z.ltb_ge. destruct (Z.lt_ge_cases (e_week r) a) as [B|B]; [left; unfold week_ns in *; nia|].
        destruct (Z.lt_ge_cases (e_week r) (a + n)) as [B'|B']; [|right; unfold week_ns in *; nia]. exfalso.
        assert (X : lab (e_week r) = Some s) by (apply LW; lia). congruence.
    + intros _. f_equal. unfold metric_value. cbn [analysed_row p_vals].
      assert (AC : forall l, In c l -> assoc String.eqb c (combine l (map (col_of (e_cols r)) l)) = Some (col_of (e_cols r) c)).
      { clear. induction l as [|x l IH]; intros I; [destruct I|]. cbn. destruct (String.eqb_spec c x) as [->|N]; auto. destruct I as [->|I]; [congruence|auto]. }
      now rewrite AC.
  - unfold analyze_experiment. destruct wanted as [|m0 ms]; [congruence|]. fold cols.
    unfold pivot_time_assignment.
    assert (HC0 : has_col "time_period" (analysed_frame out) = false) by (apply has_col_none; unfold analysed_frame; apply get_dropped).
    rewrite HC0.
    assert (PC := prepared_columns names out (fun r Hr => proj1 (ROW r Hr)) NE OWN). assert (ON := own_not names OWN).
    assert (REQ : existsb (fun c => negb (has_col c (analysed_frame out))) ("item_id" :: "week_id" :: cols ++ ["treatment_assignment"]) = false).
    { apply existsb_false_iff. intros c Hc. apply negb_false_iff, has_col_get. destruct Hc as [<-|[<-|Hc]].
      - rewrite PC. eexists. reflexivity.
      - rewrite PC, ON by (cbn; tauto). eexists. reflexivity.
      - apply in_app_or in Hc as [Hc|[<-|[]]].
        + rewrite (prepared_metric names out (fun r Hr => proj1 (ROW r Hr)) NE OWN c (SUB c Hc)). eauto.
        + rewrite PC, ON by (cbn; tauto). eexists. reflexivity. }
    rewrite REQ, HLab, FR, PV. f_equal.
    + assert (EQ : forall v, set_col "time_period" v (analysed_frame out) = analysed_frame out ++ [("time_period", v)]) by (intros; now apply set_col_fresh).
      rewrite EQ. now apply drop_fresh_app.
    + cbn [bind]. rewrite ET.
      assert (MM : forall l, (forall m, In m l -> In m (m0 :: ms)) ->
        mapM (fun m => let! r := analyze_single_metric T argsort key_arm (tab tc keys F) true (par d) (ms_column m) (ms_denominator m) (ms_override m) in Ok (ms_name m, r)) l =
        mapM (fun m => let! r := tested T argsort (par d) keys (fun c s k => F k (c, s)) m in Ok (ms_name m, r)) l).
      { induction l as [|m l IH]; intros Hl; [reflexivity|]. cbn [mapM]. rewrite IH by (intros; apply Hl; now right).
        rewrite (analysis_is_tested T argsort tc keys F (par d) m NDt NPre (ok_pretest _ D)); [reflexivity|].
        intros c s Hc Hs. apply IT; auto. specialize (Hl m (or_introl eq_refl)). unfold metric_columns_of. apply in_or_app. destruct Hc as [->|Hc].
        - left. now apply in_map.
        - right. apply in_flat_map. exists m. split; auto. rewrite Hc. now left. }
      apply MM. auto.
Qed.

Theorem c83_end_to_end :
  forall T argsort as_list by_date binom outer perf assigned d metrics start neg alo skip out time wanted,
    (forall l, Permutation (outer l) l) -> lists_a_set as_list -> mk_design (par d) = Ok d ->
    NoDup metrics -> fresh_indicators metrics alo ->
    (forall c, In c own_columns -> ~ In c (metrics ++ map snd alo)) ->
    (forall o, In o perf -> List.length (o_vals o) = List.length metrics /\ o_date o mod day_ns = time) ->
    (forall n, In n ["no_nulls"; "no_duplicate_items_per_date"; "dates_are_daily_or_weekly"; "all_metrics_are_finite";
                     "experiment_dates_match_design"] -> ~ In n skip) ->
    wanted <> [] -> (forall c, In c (metric_columns_of wanted) -> In c (metrics ++ map snd alo)) ->
    prepare_experiment by_date binom outer perf assigned d metrics start true neg alo skip = Ok out ->
    exists keys V,
      StronglySorted (fun a b => akleb a b = true /\ a <> b) keys /\
      Permutation keys (map (fun ia => (fst ia, [snd ia])) assigned) /\
      (forall c s k, In c (metric_columns_of wanted) -> needed (par d) s -> exists x, V c s k = Fin x) /\
      (forall c s a n i arm, In c (metric_columns_of wanted) -> needed (par d) s -> period_span (par d) s a n -> In (i, arm) assigned ->
         V c s (i, [arm]) =
         ndiv (raw_total perf (raw_value metrics alo c) i (start + a * week_ns) (start + (a + n) * week_ns)) (Fin (IZR n))) /\
      analyze_experiment T argsort as_list (analysed_frame out) wanted (par d) "week_id" "item_id" "treatment_assignment" =
        (analysed_frame out, mapM (fun m => let! r := tested T argsort (par d) keys V m in Ok (ms_name m, r)) wanted).
Proof.
  intros T argsort as_list by_date binom outer perf assigned d metrics start neg alo skip out time wanted
    HP HL HD NM FI OWN HR HS NW HW H.
  assert (S1 := HS "no_nulls" ltac:(cbn; auto)). assert (S2 := HS "no_duplicate_items_per_date" ltac:(cbn; auto)).
  assert (S3 := HS "dates_are_daily_or_weekly" ltac:(cbn; auto)). assert (S5 := HS "all_metrics_are_finite" ltac:(cbn; tauto)).
  assert (S4 := HS "experiment_dates_match_design" ltac:(cbn; tauto)). clear HS.
  assert (EW := c83_every_week_is_observed _ _ _ _ _ _ _ _ _ _ _ _ _ HP HD S1 S2 S3 S4 (fun o Ho => proj2 (HR o Ho)) H).
  apply (end_to_end_when_observed T argsort as_list by_date binom outer perf assigned d metrics start neg alo skip out wanted); auto.
  - intros o Ho. now apply HR.
  - intros w Hw. exists (start + w * week_ns). split; [now apply EW|]. unfold in_week, week_ns. lia.
Qed.

(** *** The analysis of a crossover cannot fail *)
Lemma finite_column {K} (f : K -> num) keys : (forall k, exists x, f k = Fin x) -> exists g, map f keys = map (fun k => Fin (g k)) keys.
Proof.
  intros H. exists (fun k => match f k with Fin x => x | _ => 0%R end). apply map_ext. intros k. destruct (H k) as (x & ->). reflexivity.
Qed.

Lemma crossover_results_when_observed :
  forall T argsort as_list by_date binom outer perf assigned d metrics start neg alo skip out wanted,
    (forall l, Permutation (outer l) l) -> lists_a_set as_list -> sorts argsort -> mk_design (par d) = Ok d ->
    NoDup metrics -> fresh_indicators metrics alo ->
    (forall c, In c own_columns -> ~ In c (metrics ++ map snd alo)) ->
    (forall o, In o perf -> List.length (o_vals o) = List.length metrics) ->
    ~ In "no_nulls" skip -> ~ In "no_duplicate_items_per_date" skip -> ~ In "all_metrics_are_finite" skip ->
    (forall w, - pretest (par d) <= w < runtime (par d) -> exists x, seen_date perf x /\ in_week start x w) ->
    wanted <> [] -> (forall c, In c (metric_columns_of wanted) -> In c (metrics ++ map snd alo)) ->
    (forall m, In m wanted -> ms_denominator m = None /\ ms_override m = None) ->
    crossover (par d) = true -> assigned <> [] -> Z.of_nat (List.length assigned) <= 2 ^ 53 ->
    prepare_experiment by_date binom outer perf assigned d metrics start true neg alo skip = Ok out ->
    exists res,
      analyze_experiment T argsort as_list (analysed_frame out) wanted (par d) "week_id" "item_id" "treatment_assignment" =
        (analysed_frame out, Ok res) /\
      map fst res = map ms_name wanted.
Proof.
  intros T argsort as_list by_date binom outer perf assigned d metrics start neg alo skip out wanted
    HP HL SO HD NM FI OWN HR S1 S2 S5 EW NW HW PL C NA NB H.
  destruct (end_to_end_when_observed T argsort as_list by_date binom outer perf assigned d metrics start neg alo skip out wanted
    HP HL HD NM FI OWN HR S1 S2 S5 EW NW HW H) as (keys & V & _ & PK & FIN & _ & E).
  assert (LK : List.length keys = List.length assigned) by (rewrite (Permutation_length PK), map_length; reflexivity).
  assert (NK : keys <> []) by (intros X; rewrite X in LK; destruct assigned; [congruence|discriminate]).
  assert (U : usable (List.length keys) (post (par d))).
  { apply (usable_design_post _ d); auto; [destruct keys; [congruence|cbn; lia]|]. now rewrite LK. }
  assert (TE : forall m, In m wanted -> exists r, tested T argsort (par d) keys V m = Ok r).
  { intros m Hm. destruct (PL m Hm) as [PD PO]. unfold tested. change recorded_arm with key_arm. rewrite C, PD, PO. cbv beta zeta.
    assert (IC : In (ms_column m) (metric_columns_of wanted)) by (unfold metric_columns_of; apply in_or_app; left; now apply in_map).
    assert (N1 : needed (par d) "test_1" /\ needed (par d) "test_2") by (unfold needed; rewrite C; auto).
    destruct (finite_column (K:=akey) (V (ms_column m) "test_1") keys) as (f & ->); [intros; apply FIN; tauto|].
    destruct (finite_column (K:=akey) (V (ms_column m) "test_2") keys) as (g & ->); [intros; apply FIN; tauto|].
    set (l := map (fun k => mkX (key_arm k) (f k) (g k)) keys).
    assert (LL : List.length l = List.length keys) by (unfold l; now rewrite map_length).
    replace (map key_arm keys) with (map x_arm (map finite l)) by (unfold l; now rewrite !map_map).
    replace (map (fun k => Fin (f k)) keys) with (map x_one (map finite l)) by (unfold l; now rewrite !map_map).
    replace (map (fun k => Fin (g k)) keys) with (map x_two (map finite l)) by (unfold l; now rewrite !map_map).
    assert (G : exists tr co, prepare_crossover (map x_one (map finite l)) (map x_two (map finite l)) (map x_arm (map finite l)) (is_zero (post (par d)))
                  = (data tr, data co) /\ List.length tr = List.length l /\ List.length co = List.length l).
    { destruct (is_zero (post (par d))).
      - destruct (c62_demeaned l) as (tr & co & X & L1 & L2 & _); [intros X; rewrite X in LL; destruct keys; [congruence|discriminate]|]. eauto.
      - exists (map while_treated l), (map while_control l). rewrite c62_pairs_raw_values, !map_length. split; auto.
        now rewrite treated_finite, control_finite. }
    destruct G as (tr & co & -> & L1 & L2). cbn [fst snd].
    destruct (c59_relative_difference_paired T argsort tr co (post (par d)) "two-sided" (rnd (5 / 100)) SO) as (r & _ & _ & R & _);
      [now rewrite L1, LL|now rewrite L2|cbn; auto|]. eauto. }
  rewrite E.
  assert (MM : forall l, (forall m, In m l -> In m wanted) -> exists res,
    mapM (fun m => let! r := tested T argsort (par d) keys V m in Ok (ms_name m, r)) l = Ok res /\ map fst res = map ms_name l).
  { induction l as [|m l IH]; intros Hl; [exists []; auto|]. destruct IH as (res & ER & EN); [intros; apply Hl; now right|].
    destruct (TE m (Hl m (or_introl eq_refl))) as (r & Er). exists ((ms_name m, r) :: res). cbn [mapM]. rewrite Er. cbn [bind]. rewrite ER.
    split; [reflexivity|]. cbn. now rewrite EN. }
  destruct (MM wanted (fun m Hm => Hm)) as (res & -> & EN). eauto.
Qed.

Theorem c83_crossover_results_always_come :
  forall T argsort as_list by_date binom outer perf assigned d metrics start neg alo skip out time wanted,
    (forall l, Permutation (outer l) l) -> lists_a_set as_list -> sorts argsort -> mk_design (par d) = Ok d ->
    NoDup metrics -> fresh_indicators metrics alo ->
    (forall c, In c own_columns -> ~ In c (metrics ++ map snd alo)) ->
    (forall o, In o perf -> List.length (o_vals o) = List.length metrics /\ o_date o mod day_ns = time) ->
    (forall n, In n ["no_nulls"; "no_duplicate_items_per_date"; "dates_are_daily_or_weekly"; "all_metrics_are_finite";
                     "experiment_dates_match_design"] -> ~ In n skip) ->
    wanted <> [] -> (forall c, In c (metric_columns_of wanted) -> In c (metrics ++ map snd alo)) ->
    (forall m, In m wanted -> ms_denominator m = None /\ ms_override m = None) ->
    crossover (par d) = true -> assigned <> [] -> Z.of_nat (List.length assigned) <= 2 ^ 53 ->
    prepare_experiment by_date binom outer perf assigned d metrics start true neg alo skip = Ok out ->
    exists res,
      analyze_experiment T argsort as_list (analysed_frame out) wanted (par d) "week_id" "item_id" "treatment_assignment" =
        (analysed_frame out, Ok res) /\
      map fst res = map ms_name wanted.
Proof.
  intros T argsort as_list by_date binom outer perf assigned d metrics start neg alo skip out time wanted
    HP HL SO HD NM FI OWN HR HS NW HW PL C NA NB H.
  assert (S1 := HS "no_nulls" ltac:(cbn; auto)). assert (S2 := HS "no_duplicate_items_per_date" ltac:(cbn; auto)).
  assert (S3 := HS "dates_are_daily_or_weekly" ltac:(cbn; auto)). assert (S5 := HS "all_metrics_are_finite" ltac:(cbn; tauto)).
  assert (S4 := HS "experiment_dates_match_design" ltac:(cbn; tauto)). clear HS.
  assert (EW := c83_every_week_is_observed _ _ _ _ _ _ _ _ _ _ _ _ _ HP HD S1 S2 S3 S4 (fun o Ho => proj2 (HR o Ho)) H).
  apply (crossover_results_when_observed T argsort as_list by_date binom outer perf assigned d metrics start neg alo skip out wanted); auto.
  - intros o Ho. now apply HR.
  - intros w Hw. exists (start + w * week_ns). split; [now apply EW|]. unfold in_week, week_ns. lia.
Qed.

(** *** Any times of day *)
(** With the check of the week ids in place of the spacing of the dates, the times of day do not matter. *)
Theorem c83_every_week_has_rows :
  forall by_date binom outer perf assigned d metrics start neg alo skip out,
    (forall l, Permutation (outer l) l) -> orders_by_date by_date -> mk_design (par d) = Ok d ->
    ~ In "no_nulls" skip -> ~ In "no_duplicate_items_per_date" skip ->
    ~ In "week_ids_are_consecutive_integers" skip -> ~ In "experiment_dates_match_design" skip ->
    prepare_experiment by_date binom outer perf assigned d metrics start true neg alo skip = Ok out ->
    forall w, - pretest (par d) <= w < runtime (par d) -> exists x, seen_date perf x /\ in_week start x w.
Proof.
  intros by_date binom outer perf assigned d metrics start neg alo skip out HP HB HD S1 S2 S3 S4 H w Hw.
  destruct (c78_prepared_dates_lie_in_the_experiment _ _ _ _ _ _ _ _ _ _ _ _ _ HP HD S1 S2 H) as (RNG & _ & MX).
  destruct (MX S4) as [MN MX']. destruct (MX' eq_refl) as (last & SL & LL). clear MX MX'.
  assert (DI := prepared_dates _ _ _ _ _ _ _ _ _ _ _ _ _ HP S2 H).
  pose proof H as H'. apply prepare_experiment_ok in H' as (_ & _ & HV & lab & _ & HI); [|exact HP].
  assert (CK := experiment_check_passed _ _ _ _ _ _ _ _ _ "week_ids_are_consecutive_integers"
    (check_week_ids by_date (combine (v_weeks (experiment_view out)) (v_dates (experiment_view out)))) HV ltac:(do 4 right; left; reflexivity) S3).
  apply (c27_passing_means_ids_consecutive_and_monotone by_date) in CK as [IV _]; [|exact HB].
  assert (PAIR : forall a, In a (combine (v_weeks (experiment_view out)) (v_dates (experiment_view out))) <-> exists r, In r out /\ a = (e_week r, e_date r)).
  { intros a. cbn [experiment_view v_weeks v_dates]. clear. induction out as [|r l IH]; cbn; [firstorder|].
    rewrite IH. split; [intros [<-|(r0 & ? & ->)]; eauto|intros (r0 & [<-|?] & ->); eauto]. }
  assert (WK : forall r, In r out -> in_week start (e_date r) (e_week r)) by (intros r Hr; apply HI in Hr; tauto).
  apply DI, in_map_iff in MN as (r0 & E0 & H0). apply DI in SL as SL'. apply in_map_iff in SL' as (r1 & E1 & H1).
  assert (W0 := WK _ H0). assert (W1 := WK _ H1). rewrite E0 in W0. rewrite E1 in W1.
  assert (B1 := RNG _ SL).
  destruct (IV (e_week r0, e_date r0) (e_week r1, e_date r1) w) as (a & Ha & Ea); [apply PAIR; eauto|apply PAIR; eauto| |].
  { cbn [fst]. unfold in_week in W0, W1. assert (D0 : 0 < week_ns) by reflexivity. split; nia. }
  apply PAIR in Ha as (r & Hr & ->). cbn [fst] in Ea. exists (e_date r). split.
  - apply DI, in_map_iff. eauto.
  - rewrite <- Ea. auto.
Qed.

Theorem c83_end_to_end_at_any_time_of_day :
  forall T argsort as_list by_date binom outer perf assigned d metrics start neg alo skip out wanted,
    (forall l, Permutation (outer l) l) -> orders_by_date by_date -> lists_a_set as_list -> mk_design (par d) = Ok d ->
    NoDup metrics -> fresh_indicators metrics alo ->
    (forall c, In c own_columns -> ~ In c (metrics ++ map snd alo)) ->
    (forall o, In o perf -> List.length (o_vals o) = List.length metrics) ->
    (forall n, In n ["no_nulls"; "no_duplicate_items_per_date"; "week_ids_are_consecutive_integers"; "all_metrics_are_finite";
                     "experiment_dates_match_design"] -> ~ In n skip) ->
    wanted <> [] -> (forall c, In c (metric_columns_of wanted) -> In c (metrics ++ map snd alo)) ->
    prepare_experiment by_date binom outer perf assigned d metrics start true neg alo skip = Ok out ->
    exists keys V,
      StronglySorted (fun a b => akleb a b = true /\ a <> b) keys /\
      Permutation keys (map (fun ia => (fst ia, [snd ia])) assigned) /\
      (forall c s k, In c (metric_columns_of wanted) -> needed (par d) s -> exists x, V c s k = Fin x) /\
      (forall c s a n i arm, In c (metric_columns_of wanted) -> needed (par d) s -> period_span (par d) s a n -> In (i, arm) assigned ->
         V c s (i, [arm]) =
         ndiv (raw_total perf (raw_value metrics alo c) i (start + a * week_ns) (start + (a + n) * week_ns)) (Fin (IZR n))) /\
      analyze_experiment T argsort as_list (analysed_frame out) wanted (par d) "week_id" "item_id" "treatment_assignment" =
        (analysed_frame out, mapM (fun m => let! r := tested T argsort (par d) keys V m in Ok (ms_name m, r)) wanted).
Proof.
  intros T argsort as_list by_date binom outer perf assigned d metrics start neg alo skip out wanted
    HP HB HL HD NM FI OWN HR HS NW HW H.
  assert (S1 := HS "no_nulls" ltac:(cbn; auto)). assert (S2 := HS "no_duplicate_items_per_date" ltac:(cbn; auto)).
  assert (S3 := HS "week_ids_are_consecutive_integers" ltac:(cbn; auto)). assert (S5 := HS "all_metrics_are_finite" ltac:(cbn; tauto)).
  assert (S4 := HS "experiment_dates_match_design" ltac:(cbn; tauto)). clear HS.
  apply (end_to_end_when_observed T argsort as_list by_date binom outer perf assigned d metrics start neg alo skip out wanted); auto.
  apply (c83_every_week_has_rows by_date binom outer perf assigned d metrics start neg alo skip out); auto.
Qed.

Theorem c83_crossover_results_at_any_time_of_day :
  forall T argsort as_list by_date binom outer perf assigned d metrics start neg alo skip out wanted,
    (forall l, Permutation (outer l) l) -> orders_by_date by_date -> lists_a_set as_list -> sorts argsort -> mk_design (par d) = Ok d ->
    NoDup metrics -> fresh_indicators metrics alo ->
    (forall c, In c own_columns -> ~ In c (metrics ++ map snd alo)) ->
    (forall o, In o perf -> List.length (o_vals o) = List.length metrics) ->
    (forall n, In n ["no_nulls"; "no_duplicate_items_per_date"; "week_ids_are_consecutive_integers"; "all_metrics_are_finite";
                     "experiment_dates_match_design"] -> ~ In n skip) ->
    wanted <> [] -> (forall c, In c (metric_columns_of wanted) -> In c (metrics ++ map snd alo)) ->
    (forall m, In m wanted -> ms_denominator m = None /\ ms_override m = None) ->
    crossover (par d) = true -> assigned <> [] -> Z.of_nat (List.length assigned) <= 2 ^ 53 ->
    prepare_experiment by_date binom outer perf assigned d metrics start true neg alo skip = Ok out ->
    exists res,
      analyze_experiment T argsort as_list (analysed_frame out) wanted (par d) "week_id" "item_id" "treatment_assignment" =
        (analysed_frame out, Ok res) /\
      map fst res = map ms_name wanted.
Proof.
  intros T argsort as_list by_date binom outer perf assigned d metrics start neg alo skip out wanted
    HP HB HL SO HD NM FI OWN HR HS NW HW PL C NA NB H.
  assert (S1 := HS "no_nulls" ltac:(cbn; auto)). assert (S2 := HS "no_duplicate_items_per_date" ltac:(cbn; auto)).
  assert (S3 := HS "week_ids_are_consecutive_integers" ltac:(cbn; auto)). assert (S5 := HS "all_metrics_are_finite" ltac:(cbn; tauto)).
  assert (S4 := HS "experiment_dates_match_design" ltac:(cbn; tauto)). clear HS.
  apply (crossover_results_when_observed T argsort as_list by_date binom outer perf assigned d metrics start neg alo skip out wanted); auto.
  apply (c83_every_week_has_rows by_date binom outer perf assigned d metrics start neg alo skip out); auto.
Qed.

(** Concrete cases: the call of Experiment_Props, analysed.  One item without performance has the average 0. *)
Example c83_example : exists out keys V,
  prepare_experiment isort_by_date (fun _ _ => Ok (Fin 1)) (fun l => l) ex_perf ex_assigned ex_exp_design
    ["clicks"] 0 true ["clicks"] [] ex_skip = Ok out /\
  Permutation keys (map (fun ia => (fst ia, [snd ia])) ex_assigned) /\
  V "clicks" "test" ("a", [coinflip_call (mkCoinflipRec "s") "a"]) = Fin 2 /\
  V "clicks" "pretest" ("a", [coinflip_call (mkCoinflipRec "s") "a"]) = Fin 1 /\
  V "clicks" "test" ("b", [coinflip_call (mkCoinflipRec "s") "b"]) = Fin 0 /\
  snd (analyze_experiment cauchy argsort_ref once (analysed_frame out) [mkMetric "clicks" "clicks" None None] ex_exp_params
    "week_id" "item_id" "treatment_assignment") =
    mapM (fun m => let! r := tested cauchy argsort_ref ex_exp_params keys V m in Ok (ms_name m, r)) [mkMetric "clicks" "clicks" None None].
Proof.
  destruct c35_example as (HD & out & H & _). exists out.
  destruct (c83_end_to_end cauchy argsort_ref once isort_by_date (fun _ _ => Ok (Fin 1)) (fun l => l) ex_perf ex_assigned ex_exp_design
    ["clicks"] 0 ["clicks"] [] ex_skip out 0 [mkMetric "clicks" "clicks" None None])
    as (keys & V & _ & PK & _ & VA & E); auto.
  - exact once_lists_a_set.
  - repeat constructor; intros [].
  - split; [intros ? ? []|constructor].
  - intros c Hc [<-|[]]. cbn in Hc. repeat (destruct Hc as [Hc|Hc]; [discriminate|]). destruct Hc.
  - intros o Ho. cbn in Ho. repeat (destruct Ho as [<-|Ho]; [split; reflexivity|]). destruct Ho.
  - intros n Hn X. cbn in X. destruct X as [<-|[]]. cbn in Hn. repeat (destruct Hn as [Hn|Hn]; [discriminate|]). destruct Hn.
  - discriminate.
  - exists keys, V. split; auto. split; auto.
    assert (T : needed ex_exp_params "test" /\ needed ex_exp_params "pretest") by (unfold needed; cbn; split; [now left|right; split; [reflexivity|lia]]).
    assert (I : In ("a", coinflip_call (mkCoinflipRec "s") "a") ex_assigned /\ In ("b", coinflip_call (mkCoinflipRec "s") "b") ex_assigned)
      by (cbn [ex_assigned In]; auto).
    assert (CA : forall s a i arm, needed ex_exp_params s -> period_span ex_exp_params s a 1 -> In (i, arm) ex_assigned ->
      V "clicks" s (i, [arm]) = ndiv (raw_total ex_perf (raw_value ["clicks"] [] "clicks") i (0 + a * week_ns) (0 + (a + 1) * week_ns)) (Fin 1)).
    { intros s a i arm Ns SP Ia. apply (VA "clicks" s a 1 i arm); auto. now left. }
    rewrite (CA "test" 0), (CA "test" 0), (CA "pretest" (-1)); try tauto; try (unfold period_span; cbn; tauto).
    assert (RV : forall x i z, raw_value ["clicks"] [] "clicks" (mkObs i z [Fin x]) = Fin x) by (intros; reflexivity).
    assert (RT : forall i from to, raw_total ex_perf (raw_value ["clicks"] [] "clicks") i from to =
      Fin ((if String.eqb "a" i && (from <=? - week_ns) && (- week_ns <? to) then 1 else 0) +
           ((if String.eqb "a" i && (from <=? 0) && (0 <? to) then 2 else 0) +
            ((if String.eqb "c" i && (from <=? 0) && (0 <? to) then 5 else 0) + 0)))%R).
    { intros i from to. unfold raw_total, total, ex_perf. cbn [fold_right o_item o_date]. rewrite !RV.
      repeat match goal with |- context [if ?b then _ else _] => destruct b end; reflexivity. }
    rewrite !RT, !ndiv_fin by lra. cbn [String.eqb Ascii.eqb Bool.eqb andb].
    repeat match goal with |- context [?a <=? ?b] => let v := eval vm_compute in (a <=? b) in change (a <=? b) with v
      | |- context [?a <? ?b] => let v := eval vm_compute in (a <? b) in change (a <? b) with v end.
    split; [f_equal; cbn [andb]; lra|]. split; [f_equal; cbn [andb]; lra|]. split; [f_equal; cbn [andb]; lra|].
    change ex_exp_params with (par ex_exp_design). rewrite E. reflexivity.
Qed.

(** a crossover of two weeks *)
Definition ex_cross_params : params :=
  mkParams 1000 2 "clicks" 0 true f0 f0 f0 (Some 0) (flit 5 100) (flit 8 10) (Some "s").
Definition ex_cross_design : design := mkDesignRec ex_cross_params 1000 1000.
Definition ex_cross_perf : list obs := [mkObs "a" 0 [Fin 1]; mkObs "a" week_ns [Fin 2]; mkObs "c" 0 [Fin 5]].
Example c83_crossover_example : exists out res,
  prepare_experiment isort_by_date (fun _ _ => Ok (Fin 1)) (fun l => l) ex_cross_perf ex_assigned ex_cross_design
    ["clicks"] 0 true ["clicks"] [] ex_skip = Ok out /\
  analyze_experiment cauchy argsort_ref once (analysed_frame out) [mkMetric "Clicks" "clicks" None None] ex_cross_params
    "week_id" "item_id" "treatment_assignment" = (analysed_frame out, Ok res) /\ map fst res = ["Clicks"].
Proof.
  set (out := flat_map (fun ia => [mkE (fst ia) 0 [("clicks", if String.eqb (fst ia) "a" then Fin 1 else Fin 0)]
                            0 0 (Some "test_1") (snd ia);
      mkE (fst ia) week_ns [("clicks", if String.eqb (fst ia) "a" then Fin 2 else Fin 0)] 1 week_ns (Some "test_2") (snd ia)]) ex_assigned).
  assert (H : prepare_experiment isort_by_date (fun _ _ => Ok (Fin 1)) (fun l => l) ex_cross_perf ex_assigned ex_cross_design
    ["clicks"] 0 true ["clicks"] [] ex_skip = Ok out).
  { assert (V : validate_experiment_data isort_by_date (fun _ _ => Ok (Fin 1)) (experiment_view out) ex_cross_design
      ["clicks"] 0 true ["clicks"] ex_skip = Ok tt).
    { rewrite experiment_run_all.
      replace (assert_all_exist ex_skip) with (Ok [tt]) by (vm_compute; reflexivity). cbn [bind].
      apply run_all_pass.
      repeat (constructor; [cbn [fst snd]|]); [| | | | | | | | | | | |constructor];
        try (left; vm_compute; reflexivity).
      - right. split; [eexists; reflexivity|now left].
      - left. unfold check_srm. cbn [bind]. f_equal. apply one_above_threshold. }
    unfold prepare_experiment.
    match goal with |- context [raise_if ?b ?e] => change (raise_if b e) with (@Ok unit tt) end. cbn [bind ex_cross_perf].
    fold ex_cross_perf. unfold fill_missing_rows_with_zeros at 1.
    match goal with |- context [raise_if ?b ?e] => change (raise_if b e) with (@Ok unit tt) end. cbn [bind].
    destruct (label_fun (par ex_cross_design) 0) as [lab|] eqn:EL; [|discriminate EL]. injection EL as <-. cbn [bind].
    match goal with |- context [mapM ?f ?l] =>
      replace (mapM f l) with (Ok (map (fun r => (r, combine ["clicks"] (o_vals (w_obs r)))) l)) by reflexivity end.
    cbn [bind].
    match goal with |- context [flat_map ?f ?l] => replace (flat_map f l) with out by reflexivity end.
    rewrite V. reflexivity. }
  exists out.
  destruct (c83_crossover_results_always_come cauchy argsort_ref once isort_by_date (fun _ _ => Ok (Fin 1)) (fun l => l) ex_cross_perf ex_assigned
    ex_cross_design ["clicks"] 0 ["clicks"] [] ex_skip out 0 [mkMetric "Clicks" "clicks" None None]) as (res & E & N); auto.
  - exact once_lists_a_set.
  - exact argsort_ref_sorts.
  - repeat constructor; intros [].
  - split; [intros ? ? []|constructor].
  - intros c Hc [<-|[]]. cbn in Hc. repeat (destruct Hc as [Hc|Hc]; [discriminate|]). destruct Hc.
  - intros o Ho. cbn in Ho. repeat (destruct Ho as [<-|Ho]; [split; reflexivity|]). destruct Ho.
  - intros n Hn X. cbn in X. destruct X as [<-|[]]. cbn in Hn. repeat (destruct Hn as [Hn|Hn]; [discriminate|]). destruct Hn.
  - discriminate.
  - intros m [<-|[]]. auto.
  - discriminate.
  - cbn. lia.
  - eauto.
Qed.
(** the second week is observed half a day after its beginning *)
Definition ex_late_perf : list obs := [mkObs "a" 0 [Fin 1]; mkObs "a" (week_ns + day_ns / 2) [Fin 2]; mkObs "c" 0 [Fin 5]].
Lemma ex_late_prepared : exists out,
  prepare_experiment isort_by_date (fun _ _ => Ok (Fin 1)) (fun l => l) ex_late_perf ex_assigned ex_cross_design
    ["clicks"] 0 true ["clicks"] [] ex_skip = Ok out.
Proof.
  set (out := flat_map (fun ia => [mkE (fst ia) 0 [("clicks", if String.eqb (fst ia) "a" then Fin 1 else Fin 0)]
                            0 0 (Some "test_1") (snd ia);
      mkE (fst ia) (week_ns + day_ns / 2) [("clicks", if String.eqb (fst ia) "a" then Fin 2 else Fin 0)] 1 week_ns (Some "test_2") (snd ia)]) ex_assigned).
  assert (H : prepare_experiment isort_by_date (fun _ _ => Ok (Fin 1)) (fun l => l) ex_late_perf ex_assigned ex_cross_design
    ["clicks"] 0 true ["clicks"] [] ex_skip = Ok out).
  { assert (V : validate_experiment_data isort_by_date (fun _ _ => Ok (Fin 1)) (experiment_view out) ex_cross_design
      ["clicks"] 0 true ["clicks"] ex_skip = Ok tt).
    { rewrite experiment_run_all.
      replace (assert_all_exist ex_skip) with (Ok [tt]) by (vm_compute; reflexivity). cbn [bind].
      apply run_all_pass.
      repeat (constructor; [cbn [fst snd]|]); [| | | | | | | | | | | |constructor];
        try (left; vm_compute; reflexivity).
      - right. split; [eexists; reflexivity|now left].
      - left. unfold check_srm. cbn [bind]. f_equal. apply one_above_threshold. }
    unfold prepare_experiment.
    match goal with |- context [raise_if ?b ?e] => change (raise_if b e) with (@Ok unit tt) end. cbn [bind ex_late_perf].
    fold ex_late_perf. unfold fill_missing_rows_with_zeros at 1.
    match goal with |- context [raise_if ?b ?e] => change (raise_if b e) with (@Ok unit tt) end. cbn [bind].
    destruct (label_fun (par ex_cross_design) 0) as [lab|] eqn:EL; [|discriminate EL]. injection EL as <-. cbn [bind].
    match goal with |- context [mapM ?f ?l] =>
      replace (mapM f l) with (Ok (map (fun r => (r, combine ["clicks"] (o_vals (w_obs r)))) l)) by reflexivity end.
    cbn [bind].
    match goal with |- context [flat_map ?f ?l] => replace (flat_map f l) with out by reflexivity end.
    rewrite V. reflexivity. }
  exists out. exact H.
Qed.
Example c83_late_example : exists out res,
  prepare_experiment isort_by_date (fun _ _ => Ok (Fin 1)) (fun l => l) ex_late_perf ex_assigned ex_cross_design
    ["clicks"] 0 true ["clicks"] [] ex_skip = Ok out /\
  analyze_experiment cauchy argsort_ref once (analysed_frame out) [mkMetric "Clicks" "clicks" None None] ex_cross_params
    "week_id" "item_id" "treatment_assignment" = (analysed_frame out, Ok res) /\ map fst res = ["Clicks"].
Proof.
  destruct ex_late_prepared as (out & H). exists out.
  destruct (c83_crossover_results_at_any_time_of_day cauchy argsort_ref once isort_by_date (fun _ _ => Ok (Fin 1)) (fun l => l) ex_late_perf ex_assigned
    ex_cross_design ["clicks"] 0 ["clicks"] [] ex_skip out [mkMetric "Clicks" "clicks" None None]) as (res & E & N); auto.
  - exact c27_sorter_exists.
  - exact once_lists_a_set.
  - exact argsort_ref_sorts.
  - repeat constructor; intros [].
  - split; [intros ? ? []|constructor].
  - intros c Hc [<-|[]]. cbn in Hc. repeat (destruct Hc as [Hc|Hc]; [discriminate|]). destruct Hc.
  - intros o Ho. cbn in Ho. repeat (destruct Ho as [<-|Ho]; [reflexivity|]). destruct Ho.
  - intros n Hn X. cbn in X. destruct X as [<-|[]]. cbn in Hn. repeat (destruct Hn as [Hn|Hn]; [discriminate|]). destruct Hn.
  - discriminate.
  - intros m [<-|[]]. auto.
  - discriminate.
  - cbn. lia.
  - eauto.
Qed.
(** without the same time of day the first instant of a week need not be observed *)
Theorem c83_every_week_is_observed_from_its_start_refuted :
  ~ (forall by_date binom outer perf assigned d metrics start neg alo skip out,
       (forall l, Permutation (outer l) l) -> orders_by_date by_date -> mk_design (par d) = Ok d ->
       (forall n, In n ["no_nulls"; "no_duplicate_items_per_date"; "dates_are_daily_or_weekly"; "week_ids_are_consecutive_integers";
                        "all_metrics_are_finite"; "experiment_dates_match_design"] -> ~ In n skip) ->
       prepare_experiment by_date binom outer perf assigned d metrics start true neg alo skip = Ok out ->
       forall w, - pretest (par d) <= w < runtime (par d) -> seen_date perf (start + w * week_ns)).
Proof.
  intros X. destruct ex_late_prepared as (out & H).
  refine (_ (X isort_by_date (fun _ _ => Ok (Fin 1)) (fun l => l) ex_late_perf ex_assigned ex_cross_design ["clicks"] 0 ["clicks"] [] ex_skip out
    (fun l => Permutation_refl l) c27_sorter_exists eq_refl _ H 1 _)).
  - intros (o & Ho & E). cbn in Ho. destruct Ho as [<-|[<-|[<-|[]]]]; discriminate E.
  - intros n Hn Y. cbn in Y. destruct Y as [<-|[]]. cbn in Hn. repeat (destruct Hn as [Hn|Hn]; [discriminate|]). destruct Hn.
  - cbn. lia.
Qed.
Print Assumptions c83_prepared_data_must_lose_a_column_first.
Print Assumptions c83_every_week_is_observed.
Print Assumptions c83_every_week_has_rows.
Print Assumptions c83_every_week_is_observed_from_its_start_refuted.
Print Assumptions c83_end_to_end_at_any_time_of_day.
Print Assumptions c83_crossover_results_at_any_time_of_day.
Print Assumptions c83_end_to_end.
Print Assumptions c83_crossover_results_always_come.
