(** C103: a ratio metric without any numerator in one arm, from the raw rows. *)
From Coq Require Import ZArith Reals Lra Lia List String Bool Permutation Sorting.Sorted.
From Flocq Require Import Core BinarySingleNaN.
Require Import Verif.Base Verif.Num Verif.NumOrd Verif.F64 Verif.Frame Verif.ListLib Verif.Design_Model Verif.Design_Spec Verif.Design_Proofs
  Verif.Design_Yaml_Proofs Verif.Design_Props Verif.Trimmed_Model Verif.Trimmed_Spec Verif.Moments Verif.Trimmed_Proofs Verif.Trimmed_Real Verif.Trimmed_Props
  Verif.Cuped_Model Verif.Cuped_Props Verif.Stats_Model Verif.Stats_Num Verif.Stats_Props Verif.Tests_Proofs
  Verif.Tests_Props Verif.Tests_Props2 Verif.Periods_Model Verif.Periods_Proofs Verif.Periods_Props
  Verif.Text_Model Verif.Text_Spec Verif.Text_Props Verif.Text_Props2 Verif.Text_Props3
  Verif.Rows_Model Verif.Rows_Spec Verif.Rows_Proofs Verif.Rows_Props
  Verif.Checks_Model Verif.Checks_Spec Verif.Checks_Proofs Verif.Checks_Props
  Verif.Pivot_Model Verif.Pivot_Spec Verif.Pivot_Proofs Verif.Pivot_Props
  Verif.Analysis_Spec Verif.Analysis_Model Verif.Analysis_Props Verif.Effect_Props Verif.Analysis_Props2 Verif.Size_Props
  Verif.Pipeline_Model Verif.Pipeline_Spec Verif.Pipeline_Proofs Verif.Experiment_Props Verif.Assign_Proofs Verif.Assign_Props Verif.Journey_Model Verif.Journey_Proofs
  Verif.Journey_Props Verif.Sim_Estimate_Props Verif.Design_Text_Proofs Verif.Text_Proofs Verif.Totals_Props Verif.Totals_Props2 Verif.Totals_Props3
  Verif.Standard_Model Verif.Standard_Props Verif.Entry_Model Verif.Entry_Proofs Verif.Analyzer_Model Verif.Analyzer_Props Verif.Analyzer_Props2 Verif.Analyzer_Props3
  Verif.Regular_Props Verif.Regular_Props3 Verif.Ratios_Props Verif.Ratios_Props2.
Import ListNotations.
Open Scope string_scope.
Open Scope list_scope.
Open Scope Z_scope.

(** no raw row of these items in these weeks has a value other than zero *)
Definition nothing_of (perf : list obs) (value : obs -> num) (items : list string) (start a b : Z) : Prop :=
  forall o, In o perf -> In (o_item o) items -> start + a * week_ns <= o_date o < start + b * week_ns -> value o = Fin 0.

Lemma nothing_item perf value i lo hi : (forall o, In o perf -> o_item o = i -> lo <= o_date o < hi -> value o = Fin 0) -> raw_total perf value i lo hi = Fin 0.
Proof.
  intros H. unfold raw_total, total. induction perf as [|o perf IH]; [reflexivity|]. cbn [fold_right]. rewrite IH by (intros; apply H; auto; now right).
  destruct (String.eqb_spec (o_item o) i) as [E|E]; cbn [andb]; [|unfold nadd; f_equal; ring].
  destruct (Z.leb_spec lo (o_date o)); cbn [andb]; [|unfold nadd; f_equal; ring].
  destruct (Z.ltb_spec (o_date o) hi); [|unfold nadd; f_equal; ring].
  rewrite (H o (or_introl eq_refl) E) by lia. unfold nadd; f_equal; ring.
Qed.
Lemma nothing_total perf value items start a b : nothing_of perf value items start a b -> weeks_total perf value items start a b = Fin 0.
Proof.
  intros H. unfold weeks_total. assert (G : forall l, (forall i, In i l -> In i items) -> nsum (map (fun i => raw_total perf value i (start + a * week_ns) (start + b * week_ns)) l) = Fin 0).
  { induction l as [|i l IH]; intros S; [reflexivity|]. unfold nsum in *. cbn [map fold_right]. rewrite IH by (intros; apply S; now right).
    rewrite nothing_item; [unfold nadd; f_equal; ring|]. intros o Ho E D. apply H; auto. rewrite E. apply S. now left. }
  apply G. auto.
Qed.

(** *** Regular experiments *)
Theorem c103_a_regular_ratio_without_numerators_has_no_test :
  forall T argsort as_list perf assigned d metrics alo start skip out wanted res j m c name r arm,
    concluded perf assigned d metrics alo start skip out -> lists_a_set as_list -> sorts argsort ->
    (forall c, In c (metric_columns_of wanted) -> In c (metrics ++ map snd alo)) ->
    Z.of_nat (List.length assigned) <= 2 ^ 53 -> crossover (par d) = false -> pretest (par d) = 0 ->
    results T argsort as_list out wanted (par d) = Ok res ->
    nth_error wanted j = Some m -> nth_error res j = Some (name, r) -> ms_denominator m = Some c -> untrimmed (quantile_of (par d) m) ->
    arm = 0 \/ arm = 1 ->
    nothing_of perf (raw_value metrics alo (ms_column m)) (items_in_arm assigned arm) start 0 (runtime (par d)) ->
    r_standard_error r = NaN /\ r_statistic r = NaN /\ r_p_value r = NaN /\ r_significant r = false.
Proof.
  intros T argsort as_list perf assigned d metrics alo start skip out wanted res j m c name r arm CO HL SO HW NB C PT OK NM NR EM UQ HA HN.
  destruct (regular_data T argsort as_list perf assigned d metrics alo start skip out wanted CO HL SO HW NB C PT res j m name r OK NM NR UQ)
    as (SU & W & S1 & S0 & _ & X & AV & SA & TE). rewrite EM in TE.
  assert (Im : In m wanted) by (eapply nth_error_In; eauto).
  assert (Hm := wanted_column wanted m _ Im (or_introl eq_refl)). assert (Hc := wanted_column wanted m _ Im (or_intror EM)).
  destruct (SA _ Hm) as [Sx Sy].
  apply nothing_total in HN. rewrite (SU _ arm Hm) in HN. injection HN as HN.
  assert (Z : avg (X (ms_column m) arm) = 0%R) by (rewrite (proj1 (AV _ arm Hm)), HN; unfold Rdiv; ring).
  destruct (Effect_Props.sorted_exists (X (ms_column m) 1)) as (s1 & G1). destruct (Effect_Props.sorted_exists (X (ms_column m) 0)) as (s0 & G0).
  refine (Denominator_Props.c101_zero_numerators_have_no_test T argsort SO _ _ _ _ _ _ _ _ r s1 s0 0%nat 0%nat Sx Sy _ _ G1 G0 _ _ TE _).
  - rewrite (proj2 (AV c 1 Hc)), (proj2 (AV _ 1 Hm)). reflexivity.
  - rewrite (proj2 (AV c 0 Hc)), (proj2 (AV _ 0 Hm)). reflexivity.
  - rewrite no_trimming by apply UQ. reflexivity.
  - rewrite no_trimming by apply UQ. reflexivity.
  - rewrite (tmean_0 _ _ G1), (tmean_0 _ _ G0). destruct HA as [-> | ->]; auto.
Qed.

(** *** Crossover experiments *)
Lemma paired_zero_ratio T argsort xs ys ds es q alpha r : sorts argsort -> B2R q = 0%R -> sample xs ->
  yuens_t_test_paired T argsort (data xs) (data ys) q (Some (data ds)) (Some (data es)) "two-sided" alpha = Ok r ->
  List.length ys = List.length xs -> List.length ds = List.length xs -> List.length es = List.length xs ->
  avg xs = 0%R \/ avg ys = 0%R -> r_abs_lower r = NaN /\ r_abs_upper r = NaN.
Proof.
  intros HS Q Sx H L1 L2 L3 Z. unfold yuens_t_test_paired in H. apply bind_ok in H as ([] & _ & H). cbn [ratio_arguments bind] in H.
  apply bind_ok in H as (st & N1 & H). apply Tests_Props.stack_ok in N1 as [-> _]. apply bind_ok in H as (t & B & H).
  assert (DF : differences (data xs) (data ys) = data (minus xs ys)).
  { unfold differences, minus, data. clear. revert ys. induction xs as [|x xs IH]; intros [|y ys]; cbn [map combine]; auto. cbn [fst snd]. rewrite nsub_fin. f_equal. apply IH. }
  rewrite DF in B. change [data (minus xs ys); data xs; data ds; data ys; data es] with (map data [minus xs ys; xs; ds; ys; es]) in B.
  assert (LM : List.length (minus xs ys) = List.length xs) by (unfold minus; rewrite map_length, combine_length; lia).
  assert (B' := B). apply (means_untrimmed argsort _ xs) in B; auto; [|discriminate|intros r0 [<-|[<-|[<-|[<-|[<-|[]]]]]]; auto].
  rewrite B in H. cbn [map tl] in H. unfold difference_of_ratios in H. cbn [vec nth] in H. cbv zeta in H. unfold vec in H. cbn [nth] in H.
  set (cov := map (@tl num) (tl (t_cov argsort t 1))) in *.
  set (V1 := snd (ratio_mean_and_variance (Fin (avg xs)) (Fin (avg ds)) (mat cov 0 0) (mat cov 1 1) (mat cov 0 1))) in *.
  set (V2 := snd (ratio_mean_and_variance (Fin (avg ys)) (Fin (avg es)) (mat cov 2 2) (mat cov 3 3) (mat cov 2 3))) in *.
  set (QF := quadratic_form _ _) in *. set (n := t_len argsort t) in *.
  apply finish_test_ok in H. destruct H.
  assert (MN : forall x, nmul x NaN = NaN) by (destruct x; reflexivity).
  assert (SN : forall x, nsub x NaN = NaN) by (destruct x; reflexivity).
  assert (AN : forall x, nadd x NaN = NaN) by (destruct x; reflexivity).
  assert (VN : V1 = NaN \/ V2 = NaN).
  { destruct Z as [Z|Z]; [left; unfold V1|right; unfold V2]; rewrite Z; apply Denominator_Props.zero_ratio. }
  assert (EN : nsqrt (nsub (nadd (nsq (one_sample_standard_error (nsqrt V1) (nnat n))) (nsq (one_sample_standard_error (nsqrt V2) (nnat n))))
     (nmul (Fin 2) (nmul (nmul (one_sample_standard_error (nsqrt V1) (nnat n)) (one_sample_standard_error (nsqrt V2) (nnat n)))
        (ndiv (nsub (nadd V1 V2) QF) (nmul (Fin 2) (nsqrt (nmul V1 V2))))))) = NaN).
  { destruct VN as [-> | ->]; unfold one_sample_standard_error, nsq; cbn [nsqrt ndiv nmul nadd]; rewrite ?MN, ?AN; reflexivity. }
  unfold absolute_difference_confidence_interval in fi_ci. rewrite EN in fi_ci. cbn [String.eqb Ascii.eqb Bool.eqb] in fi_ci.
  rewrite !MN, !SN, !AN in fi_ci. split; congruence.
Qed.

(** nothing in the control periods; or nothing in the treated periods, with equally large groups *)
Theorem c103_a_crossover_ratio_without_numerators_has_no_interval :
  forall T argsort as_list perf assigned d metrics alo start skip out wanted w res j m c name r,
    concluded perf assigned d metrics alo start skip out -> lists_a_set as_list -> sorts argsort ->
    (forall c, In c (metric_columns_of wanted) -> In c (metrics ++ map snd alo)) ->
    Z.of_nat (List.length assigned) <= 2 ^ 53 -> crossover (par d) = true -> washout (par d) = Some w ->
    results T argsort as_list out wanted (par d) = Ok res ->
    nth_error wanted j = Some m -> nth_error res j = Some (name, r) -> ms_denominator m = Some c -> untrimmed (quantile_of (par d) m) ->
    let h := runtime (par d) / 2 in let first := items_in_arm assigned 1 in let second := items_outside_arm assigned 1 in
    let none l a b := nothing_of perf (raw_value metrics alo (ms_column m)) l start a b in
    (none first (h + w) (2 * h) /\ none second w h) \/
    (none first w h /\ none second (h + w) (2 * h) /\ List.length first = List.length second) ->
    r_abs_lower r = NaN /\ r_abs_upper r = NaN.
Proof.
  intros T argsort as_list perf assigned d metrics alo start skip out wanted w res j m c name r CO HL SO HW NB C WO OK NM NR EM UQ h first second none HN.
  destruct (crossed_data T argsort as_list perf assigned d metrics alo start skip out wanted CO HL HW NB C w WO res j m name r OK NM NR UQ)
    as (SU & W & S & TR & CN & AV & TE). specialize (TE c EM).
  assert (Im : In m wanted) by (eapply nth_error_In; eauto).
  assert (Hm := wanted_column wanted m _ Im (or_introl eq_refl)). assert (Hc := wanted_column wanted m _ Im (or_intror EM)).
  destruct (AV _ Hm) as (L1 & L2 & A2 & A1). destruct (AV _ Hc) as (L3 & L4 & _ & _).
  assert (Sx : sample (TR (ms_column m))).
  { split; [|rewrite L1; exact NB]. intros X. rewrite X in L1. apply S. rewrite <- L1. reflexivity. }
  apply (paired_zero_ratio T argsort _ _ _ _ _ _ _ SO (proj2 UQ) Sx TE); [congruence..|].
  destruct (SU _ _ Hm (or_introl eq_refl)) as [F1 F2]. destruct (SU _ _ Hm (or_intror eq_refl)) as [G1 G2].
  destruct HN as [[N1 N2]|(N1 & N2 & EL)]; apply nothing_total in N1; apply nothing_total in N2; unfold first, second, h in *.
  - right. rewrite F2 in N1. rewrite G1 in N2. apply (f_equal (fun z => match z with Fin y => y | _ => 0%R end)) in N1; cbn beta iota in N1; apply (f_equal (fun z => match z with Fin y => y | _ => 0%R end)) in N2; cbn beta iota in N2. rewrite A2, N1, N2. unfold Rdiv. ring.
  - left. rewrite F1 in N1. rewrite G2 in N2. apply (f_equal (fun z => match z with Fin y => y | _ => 0%R end)) in N1; cbn beta iota in N1; apply (f_equal (fun z => match z with Fin y => y | _ => 0%R end)) in N2; cbn beta iota in N2. rewrite A1, N1, N2.
    unfold aligned, surplus. rewrite EL. unfold Rdiv. ring.
Qed.

(** *** Cases *)
Lemma ctr_results d (HC : crossover (par d) = true) perf assigned skip out : Z.of_nat (List.length assigned) <= 2 ^ 53 ->
  concluded perf assigned d pair_columns [] 0 skip out -> exists r, results cauchy argsort_ref once out ctr_wanted (par d) = Ok [("CTR", r)].
Proof.
  intros NB [H1 H2 H3 H4 (time & H5) H6 (by_date & binom & outer & neg & H7 & H8)].
  destruct (c93_crossover_results_with_ratios cauchy argsort_ref once by_date binom outer _ _ d pair_columns 0 neg [] skip _ time ctr_wanted
    H7 once_lists_a_set argsort_ref_sorts H1 H2 H3 H4 H5 H6 ltac:(discriminate) ctr_known ltac:(intros m q [<-|[]] X; discriminate X) HC NB H8) as (res & R0 & N).
  destruct res as [|[name r] [|? ?]]; try discriminate N. cbn in N. injection N as ->. exists r. unfold results. rewrite R0. reflexivity.
Qed.

Definition four_items : list string := ["a"; "c"; "m"; "x"].
Lemma four_arms : grid_assigned four_items = [("a", 1); ("c", 1); ("m", 0); ("x", 0)].
Proof. vm_compute. reflexivity. Qed.
Lemma four_items_once : NoDup four_items.
Proof. repeat constructor; cbn; intuition discriminate. Qed.

(** no clicks in the treatment arm *)
Definition no_treated (i : string) (t : Z) : Z * Z :=
  if String.eqb i "a" || String.eqb i "c" then (0, 10) else if String.eqb i "m" then (1, 5) else (3, 6).
Lemma no_treated_concluded :
  concluded (pair_perf four_items weekly_dates no_treated) (grid_assigned four_items) plain_design pair_columns [] 0 ex_skip
    (pair_data four_items weekly_dates no_treated plain_lab).
Proof.
  apply pair_concluded; [apply mk_design_check; vm_compute; reflexivity|reflexivity|exact four_items_once|discriminate|discriminate| | | |exact skips_allowed|].
  - intros t Ht. cbn in Ht. repeat (destruct Ht as [<-|Ht]; [reflexivity|]). destruct Ht.
  - vm_compute. reflexivity.
  - reflexivity.
  - checks_pass.
Qed.
(** the click-through rate falls from a third to zero, which is not reported as significant *)
Example c103_regular_example : exists r,
  results cauchy argsort_ref once (pair_data four_items weekly_dates no_treated plain_lab) ctr_wanted (par plain_design) = Ok [("CTR", r)] /\
  r_abs r = Fin (0 / 40 - 8 / 22) /\ r_p_value r = NaN /\ r_significant r = false.
Proof.
  assert (NB : Z.of_nat (List.length (grid_assigned four_items)) <= 2 ^ 53) by (vm_compute; discriminate).
  assert (F : items_in_arm (grid_assigned four_items) 1 = ["a"; "c"] /\ items_in_arm (grid_assigned four_items) 0 = ["m"; "x"]) by (rewrite four_arms; split; reflexivity).
  assert (UQ : untrimmed (post (par plain_design))) by (split; reflexivity).
  destruct (proj1 (c97_what_stops_a_regular_experiment cauchy argsort_ref once _ _ plain_design pair_columns [] 0 ex_skip _ ctr_wanted no_treated_concluded once_lists_a_set
      argsort_ref_sorts ltac:(discriminate) ctr_known ltac:(intros m q [<-|[]] X; discriminate X) eq_refl NB)) as [(_ & m & [<-|[]] & X)|(res & RS & N)];
    [exists "a"; rewrite four_arms; cbn; tauto|exists "m"; rewrite four_arms; cbn; tauto|discriminate X|].
  destruct res as [|[n1 r] [|? ?]]; try discriminate N. cbn in N. injection N as ->. exists r. split; [exact RS|].
  destruct (c102_regular_ratios_are_of_totals cauchy argsort_ref once _ _ _ _ _ _ _ _ ctr_wanted _ 0%nat _ "impressions" "CTR" r no_treated_concluded
      once_lists_a_set argsort_ref_sorts ctr_known NB eq_refl eq_refl RS eq_refl eq_refl eq_refl UQ) as (a & a' & b & b' & E1 & E2 & E3 & E4 & EA & _).
  rewrite (proj1 F), (proj2 F) in *. rewrite pair_weeks in E1, E2, E3, E4 by (cbn; auto).
  repeat match goal with E : Fin (IZR (pair_sum ?i ?d ?v ?c ?l ?f ?t)) = Fin ?x |- _ =>
      let z := eval vm_compute in (pair_sum i d v c l f t) in replace (pair_sum i d v c l f t) with z in E by (vm_compute; reflexivity); injection E as <- end.
  split; [apply EA; lra|].
  destruct (c103_a_regular_ratio_without_numerators_has_no_test cauchy argsort_ref once _ _ _ _ _ _ _ _ ctr_wanted _ 0%nat _ "impressions" "CTR" r 1 no_treated_concluded
      once_lists_a_set argsort_ref_sorts ctr_known NB eq_refl eq_refl RS eq_refl eq_refl eq_refl UQ (or_intror eq_refl)) as (_ & _ & P & S); [|auto].
  rewrite (proj1 F). intros o Ho Hi _. unfold pair_perf in Ho. apply in_map_iff in Ho as ([i t] & <- & _). cbn [pair_row o_item fst] in Hi.
  destruct Hi as [<-|[<-|[]]]; reflexivity.
Qed.

(** no clicks in the treated weeks of a crossover *)
Definition no_treated_weeks (i : string) (t : Z) : Z * Z :=
  if String.eqb i "a" || String.eqb i "c" then (if t =? 0 then (0, 10) else (2, 11)) else (if t =? 0 then (3, 5) else (0, 6)).
Lemma no_treated_weeks_concluded :
  concluded (pair_perf four_items weekly_dates no_treated_weeks) (grid_assigned four_items) ex_cross_design pair_columns [] 0 ex_skip
    (pair_data four_items weekly_dates no_treated_weeks cross_lab).
Proof.
  apply pair_concluded; [exact cross_design_ok|reflexivity|exact four_items_once|discriminate|discriminate| | | |exact skips_allowed|].
  - intros t Ht. cbn in Ht. repeat (destruct Ht as [<-|Ht]; [reflexivity|]). destruct Ht.
  - vm_compute. reflexivity.
  - reflexivity.
  - checks_pass.
Qed.
Example c103_crossover_example : exists r,
  results cauchy argsort_ref once (pair_data four_items weekly_dates no_treated_weeks cross_lab) ctr_wanted (par ex_cross_design) = Ok [("CTR", r)] /\
  r_abs_lower r = NaN /\ r_abs_upper r = NaN.
Proof.
  assert (NB : Z.of_nat (List.length (grid_assigned four_items)) <= 2 ^ 53) by (vm_compute; discriminate).
  assert (F : items_in_arm (grid_assigned four_items) 1 = ["a"; "c"] /\ items_outside_arm (grid_assigned four_items) 1 = ["m"; "x"]) by (rewrite four_arms; split; reflexivity).
  assert (UQ : untrimmed (post (par ex_cross_design))) by (split; reflexivity).
  destruct (ctr_results ex_cross_design eq_refl _ _ _ _ NB no_treated_weeks_concluded) as (r & RS). exists r. split; [exact RS|].
  apply (c103_a_crossover_ratio_without_numerators_has_no_interval cauchy argsort_ref once _ _ _ _ _ _ _ _ ctr_wanted 0 _ 0%nat _ "impressions" "CTR" r no_treated_weeks_concluded
      once_lists_a_set argsort_ref_sorts ctr_known NB eq_refl eq_refl RS eq_refl eq_refl eq_refl UQ).
  right. rewrite (proj1 F), (proj2 F). change (runtime (par ex_cross_design) / 2) with 1.
  split; [|split; [|reflexivity]]; intros o Ho Hi D; unfold pair_perf in Ho; apply in_map_iff in Ho as ([i t] & <- & Ho); cbn [pair_row o_item o_date fst snd] in Hi, D;
    apply in_prod_iff in Ho as [_ Ht]; unfold weekly_dates in Ht; unfold week_ns in *; destruct Ht as [<-|[<-|[]]]; try lia; destruct Hi as [<-|[<-|[]]]; reflexivity.
Qed.

Print Assumptions c103_a_regular_ratio_without_numerators_has_no_test.
Print Assumptions c103_a_crossover_ratio_without_numerators_has_no_interval.
