(** C91: the results of a concluded experiment depend only on the totals per item and period. *)
From Coq Require Import ZArith Reals Lra Lia List String Bool Permutation Sorting.Sorted.
From Flocq Require Import Core BinarySingleNaN.
Require Import Verif.Base Verif.Num Verif.NumOrd Verif.F64 Verif.Frame Verif.ListLib Verif.Design_Model Verif.Design_Spec Verif.Design_Proofs
  Verif.Design_Yaml_Proofs Verif.Design_Props Verif.Trimmed_Model Verif.Trimmed_Spec Verif.Moments Verif.Trimmed_Proofs Verif.Trimmed_Real Verif.Trimmed_Props
  Verif.Cuped_Model Verif.Cuped_Props Verif.Stats_Model Verif.Stats_Num Verif.Stats_Props Verif.Tests_Proofs
  Verif.Tests_Props Verif.Tests_Props2 Verif.Periods_Model Verif.Periods_Proofs Verif.Periods_Props
  Verif.Rows_Model Verif.Rows_Spec Verif.Rows_Proofs Verif.Rows_Props
  Verif.Checks_Model Verif.Checks_Spec Verif.Checks_Proofs Verif.Checks_Props
  Verif.Pivot_Model Verif.Pivot_Spec Verif.Pivot_Proofs Verif.Pivot_Props
  Verif.Analysis_Spec Verif.Analysis_Model Verif.Analysis_Props Verif.Effect_Props Verif.Analysis_Props2
  Verif.Pipeline_Model Verif.Pipeline_Spec Verif.Pipeline_Proofs Verif.Experiment_Props Verif.Assign_Proofs Verif.Assign_Props Verif.Journey_Model Verif.Journey_Proofs
  Verif.Journey_Props.
Import ListNotations.
Open Scope string_scope.
Open Scope list_scope.
Open Scope Z_scope.

(** the data [out] of a concluded experiment, prepared from the raw rows with the checks active *)
Record concluded (perf : list obs) (assigned : list (string * Z)) (d : design) (metrics : list string)
  (alo : list (string * string)) (start : Z) (skip : list string) (out : list erow) : Prop := {
  cd_design : mk_design (par d) = Ok d;
  cd_metrics : NoDup metrics;
  cd_indicators : fresh_indicators metrics alo;
  cd_names : forall c, In c own_columns -> ~ In c (metrics ++ map snd alo);
  cd_rows : exists time, forall o, In o perf -> List.length (o_vals o) = List.length metrics /\ o_date o mod day_ns = time;
  cd_checks : forall n, In n ["no_nulls"; "no_duplicate_items_per_date"; "dates_are_daily_or_weekly"; "all_metrics_are_finite";
                     "experiment_dates_match_design"] -> ~ In n skip;
  cd_call : exists by_date binom outer neg, (forall l, Permutation (outer l) l) /\
    prepare_experiment by_date binom outer perf assigned d metrics start true neg alo skip = Ok out
}.
(** the results of its analysis *)
Definition results T argsort as_list (out : list erow) (wanted : list metric_spec) (p : params) : result (list (string * tresult)) :=
  snd (analyze_experiment T argsort as_list (analysed_frame out) wanted p "week_id" "item_id" "treatment_assignment").

(** designs whose analyses agree: the pretest period only matters for regular experiments *)
Record analysed_alike (p1 p2 : params) : Prop := {
  aa_type : crossover p1 = crossover p2;
  aa_runtime : runtime p1 = runtime p2;
  aa_washout : crossover p1 = true -> washout p1 = washout p2;
  aa_pretest : crossover p1 = false -> pretest p1 = pretest p2;
  aa_post : post p1 = post p2
}.

Lemma tested_ext T argsort p1 p2 keys V1 V2 m : analysed_alike p1 p2 -> 0 <= pretest p1 ->
  (forall c s k, c = ms_column m \/ ms_denominator m = Some c -> needed p1 s -> In k keys -> V1 c s k = V2 c s k) ->
  tested T argsort p1 keys V1 m = tested T argsort p2 keys V2 m.
Proof.
  intros [A1 A2 A3 A4 A5] PT HV. unfold tested. rewrite <- A1, <- A5.
  assert (CO : forall c s, c = ms_column m \/ ms_denominator m = Some c -> needed p1 s -> map (V1 c s) keys = map (V2 c s) keys).
  { intros c s Hc Hs. apply map_ext_in. intros k Hk. now apply HV. }
  unfold needed in CO. destruct (crossover p1) eqn:C.
  - rewrite !(CO (ms_column m)) by auto. destruct (ms_denominator m) as [c|] eqn:D; auto. rewrite !(CO c) by auto. reflexivity.
  - rewrite <- (A4 eq_refl). rewrite (CO (ms_column m) "test") by auto.
    destruct (0 <? pretest p1) eqn:E.
    + apply Z.ltb_lt in E. rewrite (CO (ms_column m) "pretest") by auto.
      destruct (apply_cuped_adjustment argsort _ _ _) as [y|e]; [|reflexivity]. cbn [bind].
      destruct (ms_denominator m) as [c|] eqn:D; auto. rewrite (CO c "test"), (CO c "pretest") by auto. reflexivity.
    + cbn [bind]. destruct (ms_denominator m) as [c|] eqn:D; auto. rewrite (CO c "test") by auto. reflexivity.
Qed.

Lemma keys_unique (l1 l2 : list akey) : StronglySorted (fun a b => akleb a b = true /\ a <> b) l1 ->
  StronglySorted (fun a b => akleb a b = true /\ a <> b) l2 -> Permutation l1 l2 -> l1 = l2.
Proof.
  intros S1 S2 P. apply (SSorted_unique (fun a b => akleb a b = true /\ a <> b)); auto.
  intros x y [A _] [B _]. now apply (ord_antisym _ _ akey_ord).
Qed.
Lemma mapM_ext_in {A B} (f g : A -> result B) l : (forall x, In x l -> f x = g x) -> mapM f l = mapM g l.
Proof.
  induction l as [|x l IH]; intros H; [reflexivity|]. cbn [mapM]. rewrite (H x) by now left. rewrite IH by (intros; apply H; now right). reflexivity.
Qed.
Lemma wanted_column wanted m c : In m wanted -> c = ms_column m \/ ms_denominator m = Some c -> In c (metric_columns_of wanted).
Proof.
  intros I [-> | E]; unfold metric_columns_of; apply in_or_app; [left; now apply in_map|]. right. apply in_flat_map. exists m. rewrite E. cbn. auto.
Qed.

(** the results in terms of the totals *)
Lemma results_from_totals T argsort as_list wanted perf assigned d metrics alo start skip out :
  concluded perf assigned d metrics alo start skip out -> lists_a_set as_list -> wanted <> [] ->
  (forall c, In c (metric_columns_of wanted) -> In c (metrics ++ map snd alo)) ->
  exists keys V,
    StronglySorted (fun a b => akleb a b = true /\ a <> b) keys /\
    Permutation keys (map (fun ia => (fst ia, [snd ia])) assigned) /\
    (forall c s a n i arm, In c (metric_columns_of wanted) -> needed (par d) s -> period_span (par d) s a n -> In (i, arm) assigned ->
         V c s (i, [arm]) =
         ndiv (raw_total perf (raw_value metrics alo c) i (start + a * week_ns) (start + (a + n) * week_ns)) (Fin (IZR n))) /\
    results T argsort as_list out wanted (par d) = mapM (fun m => let! r := tested T argsort (par d) keys V m in Ok (ms_name m, r)) wanted.
Proof.
  intros [H1 H2 H3 H4 (time & H5) H6 (by_date & binom & outer & neg & H7 & H8)] HL NW HW.
  destruct (c83_end_to_end T argsort as_list by_date binom outer perf assigned d metrics start neg alo skip out time wanted
    H7 HL H1 H2 H3 H4 H5 H6 NW HW H8) as (keys & V & A & B & _ & C & D).
  exists keys, V. repeat (split; auto). unfold results. now rewrite D.
Qed.

Theorem c91_same_totals_same_results :
  forall T argsort as_list1 as_list2 wanted perf1 assigned1 d1 metrics1 alo1 start1 skip1 out1
    perf2 assigned2 d2 metrics2 alo2 start2 skip2 out2,
    concluded perf1 assigned1 d1 metrics1 alo1 start1 skip1 out1 ->
    concluded perf2 assigned2 d2 metrics2 alo2 start2 skip2 out2 ->
    lists_a_set as_list1 -> lists_a_set as_list2 -> wanted <> [] ->
    (forall c, In c (metric_columns_of wanted) -> In c (metrics1 ++ map snd alo1) /\ In c (metrics2 ++ map snd alo2)) ->
    analysed_alike (par d1) (par d2) -> Permutation assigned1 assigned2 ->
    (forall c s a n i arm, In c (metric_columns_of wanted) -> needed (par d1) s -> period_span (par d1) s a n -> In (i, arm) assigned1 ->
       raw_total perf1 (raw_value metrics1 alo1 c) i (start1 + a * week_ns) (start1 + (a + n) * week_ns) =
       raw_total perf2 (raw_value metrics2 alo2 c) i (start2 + a * week_ns) (start2 + (a + n) * week_ns)) ->
    results T argsort as_list1 out1 wanted (par d1) = results T argsort as_list2 out2 wanted (par d2).
Proof.
  intros T argsort as1 as2 wanted perf1 assigned1 d1 metrics1 alo1 start1 skip1 out1 perf2 assigned2 d2 metrics2 alo2 start2 skip2 out2
    C1 C2 L1 L2 NW HW AA PA HT.
  destruct (results_from_totals T argsort as1 wanted _ _ _ _ _ _ _ _ C1 L1 NW (fun c Hc => proj1 (HW c Hc))) as (k1 & V1 & S1 & P1 & E1 & ->).
  destruct (results_from_totals T argsort as2 wanted _ _ _ _ _ _ _ _ C2 L2 NW (fun c Hc => proj2 (HW c Hc))) as (k2 & V2 & S2 & P2 & E2 & ->).
  assert (K : k1 = k2).
  { apply keys_unique; auto. eapply perm_trans; [exact P1|]. eapply perm_trans; [apply Permutation_map, PA|]. now apply Permutation_sym. }
  subst k2. assert (D1 := cd_design _ _ _ _ _ _ _ _ C1).
  assert (PT : 0 <= pretest (par d1)) by (apply mk_design_iff in D1 as [D1 _]; exact (ok_pretest _ D1)).
  assert (SAME : forall s, needed (par d1) s -> needed (par d2) s).
  { intros s. unfold needed. destruct AA as [A1 A2 A3 A4 A5]. rewrite <- A1. destruct (crossover (par d1)); auto. now rewrite <- A4. }
  assert (SPAN : forall s a n, period_span (par d1) s a n -> period_span (par d2) s a n).
  { intros s a n. unfold period_span. destruct AA as [A1 A2 A3 A4 A5]. rewrite <- A1, <- A2. destruct (crossover (par d1)).
    - now rewrite <- A3. - now rewrite <- A4. }
  apply mapM_ext_in. intros m Hm. rewrite (tested_ext T argsort (par d1) (par d2) k1 V1 V2 m AA PT); auto.
  intros c s k Hc Hs Hk. assert (Ic := wanted_column wanted m c Hm Hc).
  apply (Permutation_in k P1) in Hk. apply in_map_iff in Hk as ([i arm] & <- & Hk). cbn [fst snd].
  destruct (span_exists (par d1) d1 s D1 Hs) as (a & n & SP).
  rewrite (E1 c s a n i arm), (E2 c s a n i arm); auto.
  - now rewrite (HT c s a n i arm).
  - now apply (Permutation_in (i, arm) PA).
Qed.

(** *** What therefore does not matter *)
(** the order of the rows of the two inputs *)
Theorem c91_the_order_of_the_rows_does_not_matter :
  forall T argsort as_list1 as_list2 wanted perf1 perf2 assigned1 assigned2 d metrics alo start skip out1 out2,
    concluded perf1 assigned1 d metrics alo start skip out1 -> concluded perf2 assigned2 d metrics alo start skip out2 ->
    lists_a_set as_list1 -> lists_a_set as_list2 -> wanted <> [] ->
    (forall c, In c (metric_columns_of wanted) -> In c (metrics ++ map snd alo)) ->
    Permutation perf1 perf2 -> Permutation assigned1 assigned2 ->
    results T argsort as_list1 out1 wanted (par d) = results T argsort as_list2 out2 wanted (par d).
Proof.
  intros. eapply c91_same_totals_same_results; eauto.
  - now constructor.
  - intros. unfold raw_total. now apply total_perm.
Qed.

(** the week [w] of the experiment *)
Definition week_total (perf : list obs) (value : obs -> num) (i : string) (start w : Z) : num :=
  raw_total perf value i (start + w * week_ns) (start + (w + 1) * week_ns).

Lemma raw_total_split perf value i a b c : a <= b <= c ->
  raw_total perf value i a c = nadd (raw_total perf value i a b) (raw_total perf value i b c).
Proof.
  intros L. unfold raw_total, total. induction perf as [|o l IH]; cbn [fold_right]; [now rewrite nadd_0_l|]. rewrite IH. clear IH.
  set (x := fold_right _ _ l). set (y := fold_right _ _ l).
  assert (SW : forall p q, nadd (nadd p x) (nadd q y) = nadd (nadd p q) (nadd x y)).
  { intros p q. rewrite !nadd_assoc. f_equal. rewrite <- !nadd_assoc. f_equal. apply nadd_comm. }
  destruct (String.eqb (o_item o) i); cbn [andb]; [|rewrite SW, !nadd_0_l; reflexivity].
  destruct (Z.leb_spec a (o_date o)), (Z.leb_spec b (o_date o)), (Z.ltb_spec (o_date o) b), (Z.ltb_spec (o_date o) c); cbn [andb]; try lia;
    rewrite SW, ?nadd_0_l; try reflexivity; f_equal; now rewrite nadd_comm, nadd_0_l.
Qed.
Lemma raw_total_weeks perf1 perf2 v1 v2 i s1 s2 a : forall n, 
  (forall w, a <= w < a + Z.of_nat n -> week_total perf1 v1 i s1 w = week_total perf2 v2 i s2 w) ->
  raw_total perf1 v1 i (s1 + a * week_ns) (s1 + (a + Z.of_nat n) * week_ns) =
  raw_total perf2 v2 i (s2 + a * week_ns) (s2 + (a + Z.of_nat n) * week_ns).
Proof.
  assert (W : 0 < week_ns) by reflexivity.
  induction n as [|n IH]; intros H.
  - assert (X : forall perf v s, raw_total perf v i s s = Fin 0).
    { intros perf v s. unfold raw_total. apply total_none. intros r _ E. apply andb_true_iff in E as [E1 E2].
      apply andb_true_iff in E1 as [_ E1]. apply Z.leb_le in E1. apply Z.ltb_lt in E2. lia. }
    change (Z.of_nat 0) with 0. rewrite Z.add_0_r, !X. reflexivity.
  - assert (X : forall perf v s, raw_total perf v i (s + a * week_ns) (s + (a + Z.of_nat (S n)) * week_ns) =
      nadd (raw_total perf v i (s + a * week_ns) (s + (a + Z.of_nat n) * week_ns)) (week_total perf v i s (a + Z.of_nat n))).
    { intros perf v s. unfold week_total. replace (a + Z.of_nat (S n)) with (a + Z.of_nat n + 1) by lia. apply raw_total_split. nia. }
    rewrite !X, IH by (intros; apply H; lia). rewrite H by lia. reflexivity.
Qed.

(** Only the totals per week count: daily and weekly data with the same weekly totals give the same results. *)
Theorem c91_same_weekly_totals_same_results :
  forall T argsort as_list1 as_list2 wanted perf1 perf2 assigned d metrics1 metrics2 alo1 alo2 start1 start2 skip1 skip2 out1 out2,
    concluded perf1 assigned d metrics1 alo1 start1 skip1 out1 -> concluded perf2 assigned d metrics2 alo2 start2 skip2 out2 ->
    lists_a_set as_list1 -> lists_a_set as_list2 -> wanted <> [] ->
    (forall c, In c (metric_columns_of wanted) -> In c (metrics1 ++ map snd alo1) /\ In c (metrics2 ++ map snd alo2)) ->
    (forall c i arm w, In c (metric_columns_of wanted) -> In (i, arm) assigned -> - pretest (par d) <= w < runtime (par d) ->
       week_total perf1 (raw_value metrics1 alo1 c) i start1 w = week_total perf2 (raw_value metrics2 alo2 c) i start2 w) ->
    results T argsort as_list1 out1 wanted (par d) = results T argsort as_list2 out2 wanted (par d).
Proof.
  intros T argsort as1 as2 wanted perf1 perf2 assigned d metrics1 metrics2 alo1 alo2 start1 start2 skip1 skip2 out1 out2 C1 C2 L1 L2 NW HW HT.
  apply (c91_same_totals_same_results T argsort as1 as2 wanted _ _ _ _ _ _ _ _ _ _ _ _ _ _ _ _ C1 C2 L1 L2 NW HW); [now constructor|apply Permutation_refl|].
  intros c s a n i arm Ic Ns SP Ia. assert (D := cd_design _ _ _ _ _ _ _ _ C1).
  assert (LB : exists lab, label_fun (par d) 0 = Ok lab).
  { apply mk_design_iff in D as [D _]. unfold label_fun. destruct (crossover (par d)) eqn:C; [|eauto]. destruct (ok_crossover _ D C) as (w & -> & _). eauto. }
  destruct LB as (lab & LB). destruct (span_label (par d) d lab s a n D LB Ns SP) as (_ & _ & P & B1 & B2).
  rewrite <- (Z2Nat.id n) by lia. apply raw_total_weeks. intros w Hw. rewrite Z2Nat.id in Hw by lia. apply (HT c i arm w); auto. lia.
Qed.

(** A crossover analysis reads nothing but the test weeks. *)
Definition in_test_weeks (p : params) (start : Z) (o : obs) : bool :=
  match washout p with
  | None => false
  | Some w =>
      let h := runtime p / 2 in
      let between a b := (start + a * week_ns <=? o_date o) && (o_date o <? start + b * week_ns) in
      between w h || between (h + w) (runtime p)
  end.
Theorem c91_a_crossover_reads_only_its_test_weeks :
  forall T argsort as_list1 as_list2 wanted perf1 perf2 assigned d1 d2 metrics alo start skip1 skip2 out1 out2,
    concluded perf1 assigned d1 metrics alo start skip1 out1 -> concluded perf2 assigned d2 metrics alo start skip2 out2 ->
    lists_a_set as_list1 -> lists_a_set as_list2 -> wanted <> [] ->
    (forall c, In c (metric_columns_of wanted) -> In c (metrics ++ map snd alo)) ->
    crossover (par d1) = true -> analysed_alike (par d1) (par d2) ->
    Permutation (filter (in_test_weeks (par d1) start) perf1) (filter (in_test_weeks (par d1) start) perf2) ->
    results T argsort as_list1 out1 wanted (par d1) = results T argsort as_list2 out2 wanted (par d2).
Proof.
  intros T argsort as1 as2 wanted perf1 perf2 assigned d1 d2 metrics alo start skip1 skip2 out1 out2 C1 C2 L1 L2 NW HW CR AA PF.
  apply (c91_same_totals_same_results T argsort as1 as2 wanted _ _ _ _ _ _ _ _ _ _ _ _ _ _ _ _ C1 C2 L1 L2 NW (fun c Hc => conj (HW c Hc) (HW c Hc))); [auto|apply Permutation_refl|].
  intros c s a n i arm Ic Ns SP Ia. unfold period_span in SP. rewrite CR in SP. destruct SP as (w & W & -> & SP).
  assert (D := cd_design _ _ _ _ _ _ _ _ C1). apply mk_design_iff in D as [D _]. destruct (ok_crossover _ D CR) as (w' & W' & EV).
  assert (EH : runtime (par d1) / 2 + (runtime (par d1) / 2) = runtime (par d1)).
  { destruct EV as (_ & _ & (k & ->)). rewrite Z.mul_comm, Z.div_mul by lia. lia. }
  assert (X : forall perf, raw_total perf (raw_value metrics alo c) i (start + a * week_ns) (start + (a + (runtime (par d1) / 2 - w)) * week_ns) =
    raw_total (filter (in_test_weeks (par d1) start) perf) (raw_value metrics alo c) i (start + a * week_ns) (start + (a + (runtime (par d1) / 2 - w)) * week_ns)).
  { intros perf. unfold raw_total, total. induction perf as [|o l IH]; cbn [filter fold_right]; [reflexivity|].
    destruct (in_test_weeks (par d1) start o) eqn:IT; cbn [fold_right]; rewrite IH; [reflexivity|].
    destruct ((o_item o =? i)%string && (start + a * week_ns <=? o_date o) && (o_date o <? start + (a + (runtime (par d1) / 2 - w)) * week_ns)) eqn:E; [|now rewrite nadd_0_l].
    exfalso. apply andb_true_iff in E as [E E3]. apply andb_true_iff in E as [_ E2]. unfold in_test_weeks in IT. rewrite W in IT.
    apply orb_false_iff in IT as [T1 T2].
    destruct SP as [[_ ->] | [_ ->]].
    - replace (w + (runtime (par d1) / 2 - w)) with (runtime (par d1) / 2) in E3 by lia. rewrite E2, E3 in T1. discriminate.
    - replace (runtime (par d1) / 2 + w + (runtime (par d1) / 2 - w)) with (runtime (par d1)) in E3 by lia. rewrite E2, E3 in T2. discriminate. }
  rewrite (X perf1), (X perf2). unfold raw_total. now apply total_perm.
Qed.

(** Cases that meet the hypotheses are in Totals_Props3.v. *)
Print Assumptions c91_same_totals_same_results.
Print Assumptions c91_the_order_of_the_rows_does_not_matter.
Print Assumptions c91_same_weekly_totals_same_results.
Print Assumptions c91_a_crossover_reads_only_its_test_weeks.
