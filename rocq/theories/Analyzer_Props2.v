(** C93, continued: the figures and the number of days. *)
From Coq Require Import ZArith Reals Lra Lia List String Ascii Bool Permutation Sorting.Sorted.
From Flocq Require Import Core BinarySingleNaN.
Require Verif.Bars_Model Verif.Bars_Props Verif.Overtime_Model Verif.Overtime_Props Verif.Cupedplot_Model Verif.Cupedplot_Props.
Require Import Verif.Base Verif.Num Verif.NumOrd Verif.F64 Verif.Frame Verif.ListLib Verif.Design_Model Verif.Design_Spec Verif.Design_Proofs
  Verif.Design_Yaml_Proofs Verif.Design_Props Verif.Trimmed_Model Verif.Trimmed_Spec Verif.Moments Verif.Trimmed_Proofs Verif.Trimmed_Real Verif.Trimmed_Props
  Verif.Cuped_Model Verif.Cuped_Props Verif.Stats_Model Verif.Stats_Num Verif.Stats_Props Verif.Tests_Proofs
  Verif.Tests_Props Verif.Tests_Props2 Verif.Periods_Model Verif.Periods_Proofs Verif.Periods_Props
  Verif.Rows_Model Verif.Rows_Spec Verif.Rows_Proofs Verif.Rows_Props
  Verif.Checks_Model Verif.Checks_Spec Verif.Checks_Proofs Verif.Checks_Props
  Verif.Pivot_Model Verif.Pivot_Spec Verif.Pivot_Proofs Verif.Pivot_Props
  Verif.Analysis_Spec Verif.Analysis_Model Verif.Analysis_Props Verif.Effect_Props Verif.Analysis_Props2
  Verif.Pipeline_Model Verif.Pipeline_Spec Verif.Pipeline_Proofs Verif.Experiment_Props Verif.Assign_Props Verif.Journey_Model Verif.Journey_Proofs
  Verif.Journey_Props Verif.Standard_Model Verif.Standard_Props Verif.Entry_Model Verif.Entry_Proofs Verif.Analyzer_Model Verif.Analyzer_Props.
Import ListNotations.
Open Scope string_scope.
Open Scope list_scope.
Open Scope Z_scope.

(** *** The figure of the effects *)
Definition missing_message (m : string) : string := ("Primary metric from design " ++ Bars_Model.lower m ++ " missing from data.")%string.
Definition bars_messages : list string :=
  ["'xerr' must not contain negative values"; "zero-size array to reduction operation minimum which has no identity";
   "zero-size array to reduction operation maximum which has no identity"].
Lemma error_bars_messages l e : Bars_Model.error_bars l = Err e -> exists m, In m bars_messages /\ e = ValueError m.
Proof.
  intros H. destruct l as [|i0 l0]; [discriminate|]. cbn [Bars_Model.error_bars] in H.
  assert (EB : forall bars e, Bars_Model.errorbar bars = Err e -> exists m, In m bars_messages /\ e = ValueError m).
  { intros bars e'. unfold Bars_Model.errorbar. destruct (existsb _ _); [intros [= <-]|discriminate]. eexists. split; [|reflexivity]. now left. }
  match type of H with bind ?t _ = _ => destruct t eqn:A end; cbn [bind] in H.
  2:{ injection H as ->. unfold Bars_Model.np_min in A. match type of A with context [filter ?g ?l] => destruct (filter g l) end; [injection A as <-|discriminate]. eexists. split; [|reflexivity]. right; now left. }
  match type of H with bind ?t _ = _ => destruct t eqn:B end; cbn [bind] in H.
  2:{ injection H as ->. unfold Bars_Model.np_max in B. match type of B with context [filter ?g ?l] => destruct (filter g l) end; [injection B as <-|discriminate]. eexists. split; [|reflexivity]. right; right; now left. }
  repeat match type of H with bind (Bars_Model.errorbar ?b) _ = _ =>
    let X := fresh in destruct (Bars_Model.errorbar b) eqn:X; [cbn [bind] in H|injection H as ->; eapply EB; eassumption] end. discriminate.
Qed.
Lemma bars_message_other m x : In x bars_messages -> x <> missing_message m.
Proof. intros [<-|[<-|[<-|[]]]]; discriminate. Qed.

Lemma figure_of_names res d :
  effects_figure res d = Err (ValueError (missing_message (metric (par d)))) <->
  List.length (filter (fun nr : string * tresult => String.eqb (Bars_Model.lower (fst nr)) (Bars_Model.lower (metric (par d)))) res) <> 1%nat.
Proof.
  set (m := metric (par d)). set (is_primary := fun nr : string * tresult => String.eqb (Bars_Model.lower (fst nr)) (Bars_Model.lower m)).
  assert (FL : filter (fun e => String.eqb (Bars_Model.lower (Bars_Model.e_metric e)) (Bars_Model.lower m)) (map effect_row res) = map effect_row (filter is_primary res)).
  { clear. induction res as [|nr res IH]; [reflexivity|]. cbn [map filter]. unfold is_primary at 1. cbn [effect_row Bars_Model.e_metric].
    destruct (String.eqb _ _); cbn [map]; now rewrite IH. }
  unfold effects_figure. fold m. fold is_primary.
  destruct (filter is_primary res) as [|x [|y l]] eqn:EF.
  - unfold Bars_Model.plot_effects. rewrite FL. cbn [map]. split; [intros _; cbn; lia|reflexivity].
  - cbn [List.length]. split; [|lia]. intros E _. destruct (forallb no_relative res); [discriminate|].
    unfold Bars_Model.plot_effects in E. rewrite FL in E. cbn [map] in E.
    assert (G : forall e, e = ValueError (missing_message m) -> ~ exists z, In z bars_messages /\ e = ValueError z).
    { intros e -> (z & Hz & X). apply (bars_message_other m z Hz). congruence. }
    match type of E with bind ?t _ = _ => destruct t eqn:A end; cbn [bind] in E; [|apply error_bars_messages in A; injection E as E; now apply (G _ E)].
    match type of E with bind ?t _ = _ => destruct t eqn:B end; cbn [bind] in E; [|apply error_bars_messages in B; injection E as E; now apply (G _ E)].
    match type of E with bind ?t _ = _ => destruct t eqn:C end; cbn [bind] in E; [discriminate|apply error_bars_messages in C; injection E as E; now apply (G _ E)].
  - unfold Bars_Model.plot_effects. rewrite FL. cbn [map]. split; [intros _; cbn; lia|reflexivity].
Qed.

(** the figure of the eleven results finds the primary metric exactly if it is called like one of them *)
Definition eleven_lower : list string :=
  ["clicks"; "impressions"; "cost"; "conversions"; "conversion value"; "at least one impression"; "at least one click";
   "at least one conversion"; "ctr"; "cpc"; "roas"].
Theorem c93_figure_finds_the_primary_metric_iff :
  forall res d, map fst res = eleven ->
    (effects_figure res d = Err (ValueError (missing_message (metric (par d)))) <-> ~ In (Bars_Model.lower (metric (par d))) eleven_lower).
Proof.
  intros res d E. rewrite figure_of_names.
  set (m := Bars_Model.lower (metric (par d))).
  assert (L : List.length (filter (fun nr : string * tresult => String.eqb (Bars_Model.lower (fst nr)) m) res) =
              List.length (filter (fun n => String.eqb n m) eleven_lower)).
  { change eleven_lower with (map Bars_Model.lower eleven). rewrite <- E. clear. induction res as [|nr res IH]; [reflexivity|]. cbn [map filter].
    destruct (String.eqb _ _); cbn [List.length]; now rewrite IH. }
  rewrite L. clear.
  assert (G : forall l, NoDup l -> List.length (filter (fun n => String.eqb n m) l) = if existsb (String.eqb m) l then 1%nat else 0%nat).
  { induction 1 as [|x l N ND IH]; [reflexivity|]. cbn [filter existsb]. rewrite String.eqb_sym. destruct (String.eqb_spec m x) as [<-|D]; cbn [orb].
    - cbn [List.length]. rewrite IH. replace (existsb (String.eqb m) l) with false; auto. symmetry. apply existsb_false_iff. intros y Hy. apply String.eqb_neq. congruence.
    - exact IH. }
  rewrite G by (unfold eleven_lower; repeat (constructor; [cbn; intuition discriminate|]); constructor).
  destruct (existsb (String.eqb m) eleven_lower) eqn:X.
  - apply (existsb_eqb_In _ String.eqb_eq) in X. split; [lia|tauto].
  - split; [|discriminate]. intros _ I. apply (existsb_eqb_In _ String.eqb_eq) in I. congruence.
Qed.

(** of the metrics a design can be made for, three are found *)
Theorem c93_designs_for_cost_and_value_have_no_figure :
  forall res d, map fst res = eleven -> In (metric (par d)) allowed_primary_metrics ->
    (effects_figure res d = Err (ValueError (missing_message (metric (par d)))) <->
     ~ In (metric (par d)) ["clicks"; "impressions"; "conversions"]).
Proof.
  intros res d E A. rewrite (c93_figure_finds_the_primary_metric_iff res d E). cbn in A.
  destruct A as [<-|[<-|[<-|[<-|[<-|[<-|[]]]]]]]; cbn; intuition discriminate.
Qed.

(** *** The table of projections *)
Theorem c93_five_metrics_are_projected :
  forall res, map fst res = eleven ->
    map fst (projected_results res) = ["Clicks"; "Impressions"; "Cost"; "Conversions"; "Conversion value"] /\
    exists rest, res = (projected_results res ++ rest)%list.
Proof.
  intros res E. unfold eleven in E.
  destruct res as [|x0 [|x1 [|x2 [|x3 [|x4 [|x5 [|x6 [|x7 [|x8 [|x9 [|x10 [|]]]]]]]]]]]]; try discriminate.
  cbn [map] in E. injection E as E0 E1 E2 E3 E4 E5 E6 E7 E8 E9 E10.
  assert (P : projected_results [x0; x1; x2; x3; x4; x5; x6; x7; x8; x9; x10] = [x0; x1; x2; x3; x4]).
  { unfold projected_results. cbn [filter]. rewrite E0, E1, E2, E3, E4, E5, E6, E7, E8, E9, E10. reflexivity. }
  rewrite P. cbn [map]. rewrite E0, E1, E2, E3, E4. split; auto. now exists [x5; x6; x7; x8; x9; x10].
Qed.

(** *** The plots over time *)
Definition cuped_message : string := "CUPED adjustment can only be done with pretest data. Please make sure to provide pretest data".

Lemma frame_columns rows c : In c (columns (prepared_frame rows)) <->
  In c own_columns \/ exists r l, rows = r :: l /\ In c (map fst (e_cols r)).
Proof.
  unfold prepared_frame, columns. rewrite !map_app, !in_app_iff. rewrite map_map. cbn [fst]. rewrite map_id. unfold own_columns. cbn [map fst In].
  destruct rows as [|r l]; cbn [In].
  - split; [intros H; left; tauto|]. intros [H|(r & l & E & _)]; [tauto|discriminate].
  - split.
    + intros H. assert (In c (map fst (e_cols r)) \/ ~ In c (map fst (e_cols r))) as [I|N] by (destruct (in_dec string_dec c (map fst (e_cols r))); auto); [eauto|left; tauto].
    + intros [H|(r' & l' & [= <- <-] & H)]; tauto.
Qed.

Theorem c93_adjusted_plots_need_pretest_weeks :
  forall argsort empty z by_date binom outer perf assigned d f start concluded neg skip out,
    (forall l, Permutation (outer l) l) -> mk_design (par d) = Ok d -> pretest (par d) = 0 -> form_columns f <> [] ->
    prepare_experiment by_date binom outer perf assigned d (form_columns f) start concluded neg (form_at_least_one f) skip = Ok out ->
    plots_over_time argsort empty z out (plotted_columns f) true = Err (ValueError cuped_message).
Proof.
  intros argsort empty z by_date binom outer perf assigned d f start concluded neg skip out HP HD P0 NE H.
  apply prepare_experiment_ok in H as (_ & _ & _ & lab & L & HI); [|exact HP].
  assert (NP : forall w, lab w <> Some "pretest").
  { intros w E. destruct (crossover (par d)) eqn:C.
    - destruct (c13_crossover_periods _ _ 0 lab HD C L) as (wash & h & _ & _ & _ & _ & S). destruct (S w) as [S1 _]. apply S1 in E. lia.
    - destruct (c12_regular_periods _ _ 0 w lab HD C L) as (S1 & _). apply S1 in E as (i & ? & _). lia. }
  unfold plots_over_time, plotted_columns. destruct (form_columns f) as [|m l]; [congruence|]. cbn [app mapM].
  match goal with |- context [Overtime_Model.plot_metric_over_time ?a ?b ?c ?e ?g ?h ?i ?j] => assert (E : Overtime_Model.plot_metric_over_time a b c e g h i j = Err (ValueError cuped_message)) end; [|now rewrite E].
  unfold Overtime_Model.plot_metric_over_time, Overtime_Model.plotted_column, notebook_names. cbn [Overtime_Model.nm_date Overtime_Model.nm_period Overtime_Model.nm_item].
  rewrite !Overtime_Props.need_ok by (apply frame_columns; left; cbn; tauto). cbn [bind].
  match goal with |- context [existsb ?g ?l] => assert (EX : existsb g l = false) end.
  { apply existsb_false_iff. intros x Hx. rewrite map_map in Hx. apply in_map_iff in Hx as (r & <- & Hr).
    apply HI in Hr as (_ & _ & _ & _ & PR & _). unfold Cupedplot_Model.is_pretest, plot_row. cbn [Overtime_Model.o_row Cupedplot_Model.p_period].
    rewrite PR. specialize (NP (e_week r)). destruct (lab (e_week r)) as [s|]; [|reflexivity]. apply String.eqb_neq. congruence. }
  rewrite EX. reflexivity.
Qed.

(** the values of the prepared data are numbers *)
Section Values.
Context by_date binom outer perf assigned d f start concluded neg skip out
  (HP : forall l, Permutation (outer l) l) (HF : distinct_columns f)
  (HR : forall o, In o perf -> List.length (o_vals o) = List.length (form_columns f))
  (HS : ~ In "all_metrics_are_finite" skip)
  (H : prepare_experiment by_date binom outer perf assigned d (form_columns f) start concluded neg (form_at_least_one f) skip = Ok out).

Lemma prepared_numbers r m : In r out -> In m (plotted_columns f) -> exists x, get_num m (e_cols r) = Some (Fin x).
Proof.
  assert (NM := prepared_names _ _ _ _ _ _ _ _ _ _ _ _ HP HF HR H).
  destruct (form_fresh f HF) as (ND & FI & _).
  pose proof H as H'. apply prepare_experiment_ok in H' as (_ & _ & HV & lab & _ & HI); [|exact HP].
  assert (GET : forall r c, In r out -> In c (plotted_columns f) -> exists x, get_num c (e_cols r) = Some x).
  { intros q c Hq Hc. rewrite <- (NM q Hq) in Hc. clear - Hc. induction (e_cols q) as [|[x v] l IH]; [destruct Hc|].
    cbn in *. destruct (String.eqb_spec c x); eauto. destruct Hc as [->|Hc]; [congruence|auto]. }
  assert (NCOL : forall c, In c (plotted_columns f) -> num_column c (map e_cols out) = Some (map (fun r => col_of (e_cols r) c) out)).
  { intros c Hc. assert (G : forall l, (forall r, In r l -> In r out) -> num_column c (map e_cols l) = Some (map (fun r => col_of (e_cols r) c) l)).
    { induction l as [|q l IH]; intros Hl; [reflexivity|]. cbn [map num_column]. rewrite IH by (intros; apply Hl; now right).
      destruct (GET q c (Hl q (or_introl eq_refl)) Hc) as (x & E). assert (E2 : col_of (e_cols q) c = x) by (unfold col_of; now rewrite E). now rewrite E, E2. }
    apply G. auto. }
  assert (CK : check_finite (v_col (experiment_view out)) (form_columns f) = Ok false).
  { rewrite experiment_run_all in HV. apply bind_ok in HV as (us & _ & HV).
    destruct (run_all_ok _ _ HV "all_metrics_are_finite" (check_finite (v_col (experiment_view out)) (form_columns f))) as (b & E & [-> |X]); auto; [|tauto].
    do 5 right. left. reflexivity. }
  assert (FIN : forall c, In c (form_columns f) -> forall r, In r out -> exists x, get_num c (e_cols r) = Some (Fin x)).
  { intros c Hc q Hq. rewrite c28_finite_iff in CK.
    2:{ intros n Hn. cbn [experiment_view v_col]. rewrite NCOL by (apply in_or_app; auto). discriminate. }
    destruct (CK c (map (fun r => col_of (e_cols r) c) out) (col_of (e_cols q) c) Hc) as (x & E).
    - cbn [experiment_view v_col]. apply NCOL. apply in_or_app; auto.
    - apply in_map_iff. eauto.
    - exists x. destruct (GET q c Hq) as (y & E'); [apply in_or_app; auto|]. unfold col_of in E. rewrite E' in E. congruence. }
  intros Hr Hm. destruct (in_dec string_dec m (form_columns f)) as [I|N]; [now apply FIN|].
  destruct (proj1 (HI r) Hr) as (_ & _ & _ & _ & _ & vals & A6 & A7).
  assert (LV : List.length vals = List.length (form_columns f)).
  { destruct A6 as [(o & Ho & _ & _ & ->)|[_ ->]]; [rewrite map_length; now apply HR|apply repeat_length]. }
  assert (ML : map fst (combine (form_columns f) vals) = form_columns f).
  { clear - LV. revert vals LV. induction (form_columns f) as [|x l IH]; intros [|v vals]; cbn; intros L; try discriminate; auto. f_equal. apply IH. lia. }
  destruct (at_least_one_value _ _ ND FI _ _ ML A7) as [_ X].
  destruct (GET r m Hr Hm) as (y & EY). assert (XM := X m). destruct (in_dec string_dec m (form_columns f)) as [?|_]; [tauto|].
  destruct (find _ (form_at_least_one f)) as [[m1 n1]|] eqn:FD; [|congruence]. cbn [fst] in XM.
  apply find_some in FD as [FD _]. destruct FI as [FI _]. destruct (FI m1 n1 FD) as [I1 _].
  destruct (FIN m1 I1 r Hr) as (x & EX). assert (X1 := X m1). destruct (in_dec string_dec m1 (form_columns f)) as [_|?]; [|tauto].
  rewrite <- X1, EX in XM. cbn [option_map] in XM. rewrite XM. unfold one_if_positive. destruct (Rlt_dec 0 x); eauto.
Qed.
End Values.

(** a row of one metric, as in Overtime_Props *)
Definition real_row (m : string) (r : erow) : Cupedplot_Props.rrow * Z :=
  (Cupedplot_Props.mkRR (e_item r) (e_date r) (match e_period r with Some s => s | None => "" end)
     (match get_num m (e_cols r) with Some (Fin x) => x | _ => 0%R end), e_arm r).
Lemma plot_row_real m rows : (forall r, In r rows -> exists x, get_num m (e_cols r) = Some (Fin x)) ->
  map (plot_row m) rows = map Overtime_Props.orow_of (map (real_row m) rows).
Proof.
  intros H. rewrite map_map. apply map_ext_in. intros r Hr. destruct (H r Hr) as (x & E).
  unfold plot_row, Overtime_Props.orow_of, real_row, Cupedplot_Props.row. cbn [fst snd Cupedplot_Props.r_item Cupedplot_Props.r_date Cupedplot_Props.r_period Cupedplot_Props.r_value].
  now rewrite E.
Qed.
Lemma mapM_all {A B} (g : A -> result B) l (P : A -> B -> Prop) : (forall x, In x l -> exists y, g x = Ok y /\ P x y) ->
  exists ys, mapM g l = Ok ys /\ Forall2 P l ys.
Proof.
  induction l as [|x l IH]; intros H; [exists []; split; [reflexivity|constructor]|].
  destruct (H x (or_introl eq_refl)) as (y & E & HP). destruct IH as (ys & E' & F); [intros; apply H; now right|].
  exists (y :: ys). cbn [mapM]. rewrite E. cbn [bind]. rewrite E'. split; [reflexivity|now constructor].
Qed.

(** the values of a metric on a day in an arm *)
Definition value_of (m : string) (r : erow) : R := match get_num m (e_cols r) with Some (Fin x) => x | _ => 0%R end.
Definition values_on (m : string) (day arm : Z) (rows : list erow) : list R :=
  map (value_of m) (filter (fun r => Z.eqb (e_date r) day && Z.eqb (e_arm r) arm)%bool rows).
Lemma values_on_arm m day arm rows :
  map Cupedplot_Props.r_value (Overtime_Props.on_arm day arm (map (real_row m) rows)) = values_on m day arm rows.
Proof.
  unfold Overtime_Props.on_arm, values_on. induction rows as [|r rows IH]; [reflexivity|]. cbn [map filter real_row fst snd Cupedplot_Props.r_date].
  destruct (Z.eqb (e_date r) day && Z.eqb (e_arm r) arm)%bool; cbn [map]; [|exact IH]. f_equal. exact IH.
Qed.

Lemma covered by_date binom outer perf assigned d metrics start concluded neg alo skip out i a day :
  (forall l, Permutation (outer l) l) ->
  prepare_experiment by_date binom outer perf assigned d metrics start concluded neg alo skip = Ok out ->
  In (i, a) assigned -> seen_date perf day -> exists r, In r out /\ e_arm r = a /\ e_date r = day.
Proof.
  intros HP H I S. destruct (prepare_experiment_covers _ _ _ _ _ _ _ _ _ _ _ _ _ HP H i day) as (r & Hr & Ei & Ed); [eauto|exact S|].
  pose proof H as H'. apply prepare_experiment_ok in H' as (_ & _ & _ & lab & _ & HI); [|exact HP].
  exists (mkE i day (e_cols r) (e_week r) (e_start r) (e_period r) a). split; [|auto]. apply HI. apply HI in Hr.
  cbn [e_item e_date e_cols e_week e_start e_period e_arm]. rewrite Ei, Ed in Hr. tauto.
Qed.

Theorem c93_plots_of_the_raw_values :
  forall argsort empty z by_date binom outer perf assigned d f start concluded neg skip out,
    (forall l, Permutation (outer l) l) -> distinct_columns f ->
    (forall o, In o perf -> List.length (o_vals o) = List.length (form_columns f)) ->
    ~ In "all_metrics_are_finite" skip ->
    (exists i, In (i, 1) assigned) -> (exists i, In (i, 0) assigned) ->
    prepare_experiment by_date binom outer perf assigned d (form_columns f) start concluded neg (form_at_least_one f) skip = Ok out ->
    exists plots, plots_over_time argsort empty (Fin z) out (plotted_columns f) false = Ok plots /\
      Forall2 (fun m plot =>
        (forall day, In day (map Overtime_Model.pt_date (fst plot)) <-> seen_date perf day) /\
        forall p, In p (fst plot) ->
          let t := values_on m (Overtime_Model.pt_date p) 1 out in let c := values_on m (Overtime_Model.pt_date p) 0 out in
          t <> [] /\ c <> [] /\ Overtime_Props.shows z t c p) (plotted_columns f) plots.
Proof.
  intros argsort empty z by_date binom outer perf assigned d f start concluded neg skip out HP HF HR HS (i1 & A1) (i0 & A0) H.
  assert (NUM := prepared_numbers _ _ _ _ _ _ _ _ _ _ _ _ HP HF HR HS H).
  assert (NM := prepared_names _ _ _ _ _ _ _ _ _ _ _ _ HP HF HR H). assert (NE := prepared_some _ _ _ _ _ _ _ _ _ _ _ _ HP HR H).
  assert (COV := fun i a day => covered _ _ _ _ _ _ _ _ _ _ _ _ _ i a day HP H).
  pose proof H as H'. apply prepare_experiment_ok in H' as (_ & NP & _ & lab & _ & HI); [|exact HP].
  unfold plots_over_time. apply mapM_all. intros m Hm.
  rewrite (plot_row_real m out) by (intros; now apply NUM).
  assert (SD : exists day, seen_date perf day) by (destruct perf as [|o0 l]; [congruence|]; exists (o_date o0), o0; split; [now left|reflexivity]).
  destruct SD as (day0 & SD).
  destruct (Overtime_Props.c81_raw_values argsort empty z (columns (prepared_frame out)) (notebook_names m) (map (fun r => (e_date r, e_period r)) out)
    (map (real_row m) out)) as (pts & E & _ & DT & SH).
  - intros c Hc. apply frame_columns. cbn in Hc. destruct Hc as [<-|Hc]; [|left; cbn; tauto].
    right. destruct out as [|r l]; [congruence|]. exists r, l. split; auto. now rewrite (NM r (or_introl eq_refl)).
  - apply frame_columns. left. cbn. tauto.
  - apply frame_columns. left. cbn. tauto.
  - destruct (COV i1 1 day0 A1 SD) as (r & Hr & Ea & _). exists (real_row m r). split; [now apply in_map|exact Ea].
  - destruct (COV i0 0 day0 A0 SD) as (r & Hr & Ea & _). exists (real_row m r). split; [now apply in_map|exact Ea].
  - rewrite E. eexists. split; [reflexivity|]. cbn [fst].
    assert (DD : forall day, In day (map Overtime_Model.pt_date pts) <-> seen_date perf day).
    { intros day. rewrite DT. split.
      - intros (r & Hr & Ed). apply in_map_iff in Hr as (q & <- & Hq). cbn in Ed. subst day. now apply HI in Hq as (_ & Hq & _).
      - intros S. destruct (COV i1 1 day A1 S) as (r & Hr & _ & Ed). exists (real_row m r). split; [now apply in_map|exact Ed]. }
    split; [exact DD|]. intros p Hp. assert (S : seen_date perf (Overtime_Model.pt_date p)) by (apply DD; now apply in_map).
    destruct (SH p Hp) as [SH1 _]. cbv zeta in SH1. rewrite !values_on_arm in SH1. cbv zeta.
    assert (NN : forall i a, In (i, a) assigned -> values_on m (Overtime_Model.pt_date p) a out <> []).
    { intros i a I X. destruct (COV i a _ I S) as (r & Hr & Ea & Ed). unfold values_on in X. apply map_eq_nil in X.
      assert (J : In r (filter (fun r => Z.eqb (e_date r) (Overtime_Model.pt_date p) && Z.eqb (e_arm r) a)%bool out)).
      { apply filter_In. split; auto. apply andb_true_iff. split; now apply Z.eqb_eq. }
      rewrite X in J. destruct J. }
    split; [eapply NN; eauto|]. split; [eapply NN; eauto|]. apply SH1; eapply NN; eauto.
Qed.

(* ------------------------------------------------------------------ *)
(** *** Days per period *)
(** the periods of a design: name, first week counted from the start, number of weeks *)
Definition spans (p : params) : list (string * Z * Z) :=
  ("pretest", - pretest p, pretest p) ::
  (if crossover p then
     let h := runtime p / 2 in let w := match washout p with Some w => w | None => 0 end in
     [("washout_1", 0, w); ("test_1", w, h - w); ("washout_2", h, w); ("test_2", h + w, h - w)]
   else [("test", 0, runtime p)]).

Lemma spans_label p d lab s a n : mk_design p = Ok d -> label_fun p 0 = Ok lab -> In (s, a, n) (spans p) ->
  - pretest p <= a /\ a + n <= runtime p /\ 0 <= n /\ (a + n = runtime p -> 0 < n) /\ forall w, lab w = Some s <-> a <= w < a + n.
Proof.
  intros HD L I. unfold spans in I. destruct (crossover p) eqn:C.
  - destruct (c13_crossover_periods p d 0 lab HD C L) as (wash & h & E & R & W1 & W2 & W).
    destruct (crossover_shape p d HD C) as (_ & _ & _ & _ & _ & PP). rewrite E, R in I. replace (2 * h / 2) with h in I by (rewrite Z.mul_comm, Z.div_mul; lia).
    cbn [In] in I.
    repeat destruct I as [I|I]; try contradiction; injection I as <- <- <-;
      (split; [lia|split; [lia|split; [lia|split; [lia|intros w]]]]); destruct (W w) as (Q1 & Q2 & Q3 & Q4 & Q5 & _);
      first [rewrite Q1|rewrite Q2|rewrite Q3|rewrite Q4|rewrite Q5]; lia.
  - pose proof HD as HD'. apply mk_design_iff in HD' as [[? ? ? ? ? ? ? ? ? ? ?] _].
    cbn [In] in I. destruct I as [I|[I|[]]]; injection I as <- <- <-;
      (split; [lia|split; [lia|split; [lia|split; [lia|intros w]]]]);
      destruct (c12_regular_periods p d 0 w lab HD C L) as (Q1 & Q2 & _).
    + rewrite Q1. split; [intros (i & Hi & ->); lia|]. intros. exists (-1 - w). lia.
    + rewrite Q2. split; [intros (i & Hi & ->); lia|]. intros. exists w. lia.
Qed.

Lemma progression_length l a0 c lo hi : c <> 0 -> NoDup l -> lo <= hi ->
  (forall x, In x l <-> exists i, lo <= i < hi /\ x = a0 + i * c) -> Z.of_nat (List.length l) = hi - lo.
Proof.
  intros C N LE H. set (l' := map (fun j => a0 + (lo + Z.of_nat j) * c) (seq 0 (Z.to_nat (hi - lo)))).
  assert (E : Permutation l l').
  { apply NoDup_Permutation; auto.
    - apply FinFun.Injective_map_NoDup; [|apply seq_NoDup]. intros x y E. nia.
    - intros x. rewrite H. unfold l'. rewrite in_map_iff. split.
      + intros (i & Hi & ->). exists (Z.to_nat (i - lo)). split; [rewrite Z2Nat.id by lia; ring|]. apply in_seq. lia.
      + intros (j & <- & Hj). apply in_seq in Hj. exists (lo + Z.of_nat j). split; [lia|reflexivity]. }
  rewrite (Permutation_length E). unfold l'. rewrite map_length, seq_length. lia.
Qed.

(** every period has all its days, one per week or seven per week; only the last week may be cut short *)
Theorem c93_days_per_period :
  forall by_date binom outer perf assigned d metrics start neg alo skip out time,
    (forall l, Permutation (outer l) l) -> mk_design (par d) = Ok d ->
    ~ In "no_nulls" skip -> ~ In "no_duplicate_items_per_date" skip ->
    ~ In "dates_are_daily_or_weekly" skip -> ~ In "experiment_dates_match_design" skip ->
    (forall o, In o perf -> o_date o mod day_ns = time) ->
    prepare_experiment by_date binom outer perf assigned d metrics start true neg alo skip = Ok out ->
    exists per_week missing, (per_week = 7 \/ per_week = 1) /\ 0 <= missing < per_week /\
      forall s a n, In (s, a, n) (spans (par d)) ->
        Z.of_nat (days_in out s) = per_week * n - (if Z.eqb (a + n) (runtime (par d)) then missing else 0).
Proof.
  intros by_date binom outer perf assigned d metrics start neg alo skip out time HP HD S1 S2 S3 S4 HT H.
  destruct (c78_prepared_dates_lie_in_the_experiment _ _ _ _ _ _ _ _ _ _ _ _ _ HP HD S1 S2 H) as (RNG & _ & MX).
  destruct (MX S4) as [MN MX']. destruct (MX' eq_refl) as (last & SL & LL). clear MX MX'.
  assert (DI := prepared_dates _ _ _ _ _ _ _ _ _ _ _ _ _ HP S2 H).
  pose proof H as H'. apply prepare_experiment_ok in H' as (_ & _ & HV & lab & L & HI); [|exact HP].
  assert (CK := experiment_check_passed _ _ _ _ _ _ _ _ _ "dates_are_daily_or_weekly"
    (check_dates_spacing (v_dates (experiment_view out))) HV ltac:(do 3 right; left; reflexivity) S3).
  cbn [experiment_view v_dates] in CK.
  assert (NE : map e_date out <> []) by (intros E; apply DI in MN; rewrite E in MN; destruct MN).
  apply (c26_midnight_dates_form_a_progression _ time NE) in CK.
  2:{ intros x Hx. apply DI in Hx as (o & Ho & <-). auto. }
  assert (W : week_ns = 7 * day_ns) by reflexivity. assert (D0 : 0 < day_ns) by reflexivity.
  set (P := pretest (par d)) in *. set (T := runtime (par d)) in *.
  assert (G : forall k pw, k * pw = 7 -> 0 < k -> 0 < pw -> progression k (map e_date out) ->
    exists missing, 0 <= missing < pw /\ forall s a n, In (s, a, n) (spans (par d)) ->
        Z.of_nat (days_in out s) = pw * n - (if Z.eqb (a + n) T then missing else 0)).
  { intros k pw K K0 PW (a0 & N & HN & HA).
    assert (EA : a0 = start - P * week_ns).
    { apply DI, HA in MN as (i & Hi & E). assert (X : In a0 (map e_date out)) by (apply HA; exists 0; lia).
      apply DI, RNG in X. nia. }
    assert (NHI : N <= pw * (P + T)).
    { assert (X : In (a0 + (N - 1) * (k * day_ns)) (map e_date out)) by (apply HA; exists (N - 1); split; [lia|ring]).
      apply DI, RNG in X. assert ((N - 1) * k < (P + T) * 7) by nia. nia. }
    assert (NLO : pw * (P + T - 1) < N).
    { apply DI, HA in SL as (j & Hj & EL). assert ((P + T - 1) * 7 <= j * k) by nia. nia. }
    exists (pw * (P + T) - N). split; [nia|]. intros s a n I.
    destruct (spans_label _ _ _ _ _ _ HD L I) as (B1 & B2 & B3 & B4 & LB). fold P in B1. fold T in B2, B4.
    assert (CNT : forall hi, hi = Z.min N (pw * (P + a + n)) -> pw * (P + a) <= hi ->
      Z.of_nat (days_in out s) = hi - pw * (P + a)).
    { intros hi EH LE. unfold days_in. apply (progression_length _ a0 (k * day_ns)); [nia|apply dedup_NoDup; intros; apply Z.eqb_eq|exact LE|].
      intros x. rewrite dedup_In by (intros; apply Z.eqb_eq). rewrite in_map_iff. split.
      - intros (r & <- & Hr). apply filter_In in Hr as [Hr Hl]. unfold has_label in Hl.
        assert (Hd : In (e_date r) (map e_date out)) by now apply in_map. apply HA in Hd as (i & Hi & Ei).
        apply HI in Hr as (_ & _ & IW & _ & EP & _). destruct (e_period r) as [q|]; [|discriminate]. apply String.eqb_eq in Hl. subst q.
        symmetry in EP. apply LB in EP. unfold in_week in IW. exists i. split; [|exact Ei].
        assert (7 * (P + e_week r) <= i * k) by nia. assert (i * k < 7 * (P + e_week r + 1)) by nia.
        assert (pw * (P + e_week r) <= i) by nia. assert (i < pw * (P + e_week r + 1)) by nia. subst hi. split; [nia|]. apply Z.min_glb_lt; nia.
      - intros (i & [I1 I2] & ->). assert (IN : 0 <= i < N) by (split; [nia|lia]).
        assert (Hd : In (a0 + i * (k * day_ns)) (map e_date out)) by (apply HA; eauto).
        apply in_map_iff in Hd as (r & Er & Hr). exists r. split; [exact Er|]. apply filter_In. split; [exact Hr|].
        apply HI in Hr as (_ & _ & IW & _ & EP & _). unfold in_week in IW. rewrite Er in IW. unfold has_label. rewrite EP.
        assert (I3 : i < pw * (P + a + n)) by lia.
        assert (i * k < 7 * (P + e_week r + 1)) by nia. assert (7 * (P + e_week r) <= i * k) by nia.
        assert (7 * (P + a) <= i * k) by nia. assert (i * k < 7 * (P + a + n)) by nia.
        assert (LW : lab (e_week r) = Some s) by (apply LB; lia). rewrite LW. apply String.eqb_refl. }
    destruct (Z.eqb_spec (a + n) T) as [ET|NT].
    - rewrite (CNT N); [|rewrite Z.min_l; [reflexivity|nia]|specialize (B4 ET); nia]. subst T. rewrite <- ET in *. nia.
    - rewrite (CNT (pw * (P + a + n))); [nia| |nia]. rewrite Z.min_r; [reflexivity|]. assert (a + n <= T - 1) by lia. nia. }
  destruct CK as [CK|CK].
  - destruct (G 7 1) as (m & Hm & X); auto; try lia. exists 1, m. auto.
  - destruct (G 1 7) as (m & Hm & X); auto; try lia. exists 7, m. auto.
Qed.
Print Assumptions c93_figure_finds_the_primary_metric_iff.
Print Assumptions c93_designs_for_cost_and_value_have_no_figure.
Print Assumptions c93_five_metrics_are_projected.
Print Assumptions c93_adjusted_plots_need_pretest_weeks.
Print Assumptions c93_plots_of_the_raw_values.
Print Assumptions c93_days_per_period.
