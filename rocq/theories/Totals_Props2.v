(** C91: the sample sizes of the results of a concluded experiment, from the raw data on. *)
From Coq Require Import ZArith Reals Lra Lia List String Bool Permutation Sorting.Sorted.
From Flocq Require Import Core BinarySingleNaN.
Require Import Verif.Base Verif.Num Verif.NumOrd Verif.F64 Verif.Frame Verif.ListLib Verif.Design_Model Verif.Design_Spec Verif.Design_Proofs
  Verif.Design_Yaml_Proofs Verif.Design_Props Verif.Trimmed_Model Verif.Trimmed_Spec Verif.Moments Verif.Trimmed_Proofs Verif.Trimmed_Real Verif.Trimmed_Props
  Verif.Cuped_Model Verif.Cuped_Props Verif.Stats_Model Verif.Stats_Num Verif.Stats_Props Verif.Tests_Proofs
  Verif.Tests_Props Verif.Tests_Props2 Verif.Periods_Model Verif.Periods_Proofs Verif.Periods_Props
  Verif.Text_Model Verif.Text_Spec Verif.Text_Props Verif.Text_Props2 Verif.Text_Props3
  Verif.Rows_Model Verif.Rows_Spec Verif.Rows_Proofs Verif.Rows_Props
  Verif.Checks_Model Verif.Checks_Spec Verif.Checks_Proofs Verif.Checks_Props
  Verif.Pivot_Model Verif.Pivot_Spec Verif.Pivot_Proofs Verif.Pivot_Props
  Verif.Analysis_Spec Verif.Analysis_Model Verif.Analysis_Props Verif.Effect_Props Verif.Analysis_Props2 Verif.Size_Props
  Verif.Pipeline_Model Verif.Pipeline_Spec Verif.Pipeline_Proofs Verif.Experiment_Props Verif.Assign_Proofs Verif.Assign_Props Verif.Journey_Model Verif.Journey_Proofs
  Verif.Journey_Props Verif.Totals_Props.
Import ListNotations.
Open Scope string_scope.
Open Scope list_scope.
Open Scope Z_scope.

Definition keys_in_arm (keys : list akey) (a : Z) : nat := List.length (filter (fun k => arm_is a (recorded_arm k)) keys).

Lemma select_arm {A} (f : akey -> bool) (keys : list akey) (l : list A) : List.length l = List.length keys ->
  List.length (select (map f keys) l) = List.length (filter f keys).
Proof.
  unfold select. revert l. induction keys as [|k keys IH]; intros [|x l] L; cbn in *; try lia. destruct (f k); cbn; rewrite IH; lia.
Qed.
Lemma tested_crossover_size T argsort p keys V m r : crossover p = true -> tested T argsort p keys V m = Ok r ->
  let n := Z.of_nat (List.length keys) in
  exists k, floor_mul (match ms_override m with Some q => q | None => post p end) n = Ok k /\ Z.of_nat (r_sample_size r) = n - 2 * k.
Proof.
  intros C H n. unfold tested in H. rewrite C in H. cbv zeta in H.
  destruct (ms_denominator m); apply paired_size in H; rewrite (prepare_crossover_length _ _ _ _ (List.length keys)) in H by apply map_length; exact H.
Qed.
Lemma tested_regular_size T argsort p keys V m r : crossover p = false -> tested T argsort p keys V m = Ok r ->
  let n a := Z.of_nat (keys_in_arm keys a) in let q := match ms_override m with Some q => q | None => post p end in
  exists k1 k0, floor_mul q (n 1) = Ok k1 /\ floor_mul q (n 0) = Ok k0 /\
    Z.of_nat (r_sample_size r) = (n 1 - 2 * k1) + (n 0 - 2 * k0).
Proof.
  intros C H n q. unfold tested in H. rewrite C in H. cbv zeta in H. fold q in H. apply bind_ok in H as (y & Y & H).
  assert (LY : List.length y = List.length keys).
  { destruct (0 <? pretest p); [apply cuped_keeps_length in Y; rewrite Y|inversion Y]; apply map_length. }
  assert (LA : forall a, List.length (select (map (arm_is a) (map recorded_arm keys)) y) = keys_in_arm keys a).
  { intros a. rewrite map_map. now apply (select_arm (fun k => arm_is a (recorded_arm k))). }
  destruct (ms_denominator m); [apply bind_ok in H as (d & _ & H)|]; apply ind_size in H; rewrite !LA in H; exact H.
Qed.

Lemma NoDup_map_eq {A B} (f : A -> B) l x y : NoDup (map f l) -> In x l -> In y l -> f x = f y -> x = y.
Proof.
  induction l as [|z l IH]; intros N Hx Hy E; [destruct Hx|]. cbn in N. inversion N as [|? ? N1 N2]; subst.
  destruct Hx as [<-|Hx], Hy as [<-|Hy]; auto.
  - exfalso. apply N1. rewrite E. now apply in_map.
  - exfalso. apply N1. rewrite <- E. now apply in_map.
Qed.
Lemma NoDup_fst {A B} (l : list (A * B)) : NoDup l -> (forall i a b, In (i, a) l -> In (i, b) l -> a = b) -> NoDup (map fst l).
Proof.
  induction l as [|[i a] l IH]; intros N U; [constructor|]. inversion N as [|? ? N1 N2]; subst. cbn [map fst]. constructor.
  - intros I. apply in_map_iff in I as ([j b] & E & I). cbn in E. subst j. apply N1. now rewrite (U i a b (or_introl eq_refl) (or_intror I)).
  - apply IH; auto. intros j x y Hx Hy. apply (U j); now right.
Qed.

(** every assigned item is assigned once, and their number is the number that the design announces *)
Lemma assigned_once perf assigned d metrics alo start skip out : concluded perf assigned d metrics alo start skip out ->
  forall i a b, In (i, a) assigned -> In (i, b) assigned -> a = b.
Proof.
  intros [H1 H2 H3 H4 (time & H5) H6 (by_date & binom & outer & neg & H7 & H8)] i a b Ha Hb.
  assert (ND := proj2 (c35_one_row_per_assigned_item_and_date _ _ _ _ _ _ _ _ _ _ _ _ _ H7 (H6 "no_duplicate_items_per_date" ltac:(cbn; auto)) H8)).
  destruct (prepare_experiment_ok _ _ _ _ _ _ _ _ _ _ _ _ _ H7 H8) as (_ & NP & _ & lab & L & HI).
  assert (ROW : forall x, In (i, x) assigned -> exists r, In r out /\ e_item r = i /\ e_arm r = x /\ e_date r = match perf with o :: _ => o_date o | [] => 0 end).
  { intros x Hx. destruct perf as [|o perf]; [congruence|].
    destruct (prepare_experiment_covers _ _ _ _ _ _ _ _ _ _ _ _ _ H7 H8 i (o_date o)) as (r & Hr & E1 & E2); [eauto|exists o; split; [now left|auto]|].
    exists (mkE i (e_date r) (e_cols r) (e_week r) (e_start r) (e_period r) x). split; [|cbn; auto]. apply HI. cbn [e_item e_arm e_date e_cols e_week e_start e_period].
    apply HI in Hr as (_ & Hr). rewrite E1 in Hr. split; auto. }
  destruct (ROW a Ha) as (ra & Ia & Ja & <- & Da), (ROW b Hb) as (rb & Ib & Jb & <- & Db).
  assert (ra = rb) as ->; auto. apply (NoDup_map_eq _ _ _ _ ND); auto. congruence.
Qed.

Lemma announced_items perf assigned d metrics alo start skip out : concluded perf assigned d metrics alo start skip out ->
  NoDup assigned -> ~ In "number_of_items_matches_design" skip -> Z.of_nat (List.length assigned) = n_pre d.
Proof.
  intros C ND NS. assert (U := assigned_once _ _ _ _ _ _ _ _ C).
  destruct C as [H1 H2 H3 H4 (time & H5) H6 (by_date & binom & outer & neg & H7 & H8)].
  destruct (prepare_experiment_ok _ _ _ _ _ _ _ _ _ _ _ _ _ H7 H8) as (_ & NP & HV & lab & L & HI).
  assert (CK := experiment_check_passed _ _ _ _ _ _ _ _ _ "number_of_items_matches_design" _ HV ltac:(cbn; tauto) NS).
  apply (c30_number_of_items_iff _ _ (List.length assigned)) in CK; auto.
  exists (map fst assigned). split; [now apply NoDup_fst|]. split; [apply map_length|]. intros i. cbn [experiment_view v_items]. split.
  - intros I. apply in_map_iff in I as ([j a] & <- & I). cbn [fst]. destruct perf as [|o perf]; [congruence|].
    destruct (prepare_experiment_covers _ _ _ _ _ _ _ _ _ _ _ _ _ H7 H8 j (o_date o)) as (r & Hr & E1 & E2); [eauto|exists o; split; [now left|auto]|].
    apply in_map_iff. eauto.
  - intros I. apply in_map_iff in I as (r & <- & I). apply HI in I as (I & _). apply in_map_iff. now exists (e_item r, e_arm r).
Qed.
Lemma sorted_nodup (keys : list akey) : StronglySorted (fun a b => akleb a b = true /\ a <> b) keys -> NoDup keys.
Proof.
  induction 1 as [|k l S IH F]; constructor; auto. intros I. rewrite Forall_forall in F. now apply (F k I).
Qed.

(** the sizes of the results of a concluded experiment *)
Theorem c91_reported_sizes :
  forall T argsort as_list wanted perf assigned d metrics alo start skip out res name r,
    concluded perf assigned d metrics alo start skip out -> ~ In "number_of_items_matches_design" skip ->
    lists_a_set as_list -> wanted <> [] -> (forall c, In c (metric_columns_of wanted) -> In c (metrics ++ map snd alo)) ->
    (forall m, In m wanted -> ms_override m = None) ->
    results T argsort as_list out wanted (par d) = Ok res -> In (name, r) res ->
    (crossover (par d) = true -> Z.of_nat (r_sample_size r) = n_post d) /\
    (crossover (par d) = false -> n_pre d <= 2 ^ 50 -> (forall i a, In (i, a) assigned -> a = 0 \/ a = 1) ->
       n_post d - 2 <= Z.of_nat (r_sample_size r) <= n_post d + 4 /\ Z.Even (Z.of_nat (r_sample_size r) - n_post d)).
Proof.
  intros T argsort as_list wanted perf assigned d metrics alo start skip out res name r C NS HL NW HW NO R I.
  destruct (results_from_totals T argsort as_list wanted _ _ _ _ _ _ _ _ C HL NW HW) as (keys & V & S & PK & _ & E). rewrite R in E.
  symmetry in E. apply mapM_ok in E. destruct (Forall2_In_r _ _ _ _ E I) as (m & Im & Em). apply bind_ok in Em as (r' & Em & X).
  assert (r' = r) by congruence. subst r'. clear X.
  assert (NK : NoDup keys) by now apply sorted_nodup.
  assert (NA : NoDup assigned).
  { apply (Permutation_NoDup PK) in NK. clear - NK. induction assigned as [|[i a] l IH]; [constructor|]. cbn in NK. inversion NK as [|? ? N1 N2]; subst.
    constructor; auto. intros I. apply N1. apply in_map_iff. now exists (i, a). }
  assert (LK : Z.of_nat (List.length keys) = n_pre d).
  { rewrite <- (announced_items _ _ _ _ _ _ _ _ C NA NS). f_equal. rewrite (Permutation_length PK). apply map_length. }
  assert (D := cd_design _ _ _ _ _ _ _ _ C).
  split; intros CR.
  - destruct (tested_crossover_size T argsort (par d) keys V m r CR Em) as (k & F & ->). rewrite (NO m Im) in F. rewrite LK in *.
    destruct (design_post_count _ _ D) as (k' & F' & ->). assert (k = k') by congruence. lia.
  - intros B AR. destruct (tested_regular_size T argsort (par d) keys V m r CR Em) as (k1 & k0 & F1 & F0 & ->). rewrite (NO m Im) in F1, F0.
    apply (arm_trimming (par d) d); auto; try lia.
    rewrite <- LK, <- Nat2Z.inj_add. f_equal. unfold keys_in_arm.
    assert (AK : forall k, In k keys -> recorded_arm k = Some 0 \/ recorded_arm k = Some 1).
    { intros k Ik. apply (Permutation_in k PK) in Ik. apply in_map_iff in Ik as ([i a] & <- & Ik). unfold recorded_arm. cbn [snd fst]. destruct (AR i a Ik) as [-> | ->]; auto. }
    clear - AK. induction keys as [|x l IH]; [reflexivity|].
    cbn [filter List.length]. assert (J := IH (fun r Hr => AK r (or_intror Hr))). destruct (AK x (or_introl eq_refl)) as [-> | ->]; cbn [arm_is Z.eqb Pos.eqb List.length]; lia.
Qed.

(** the printed number of items for the analysis is the sample size of every result of a crossover *)
Theorem c91_the_printed_number_is_the_reported_one :
  forall T argsort as_list wanted perf assigned d metrics alo start skip out res name r frepr text z,
    concluded perf assigned d metrics alo start skip out -> ~ In "number_of_items_matches_design" skip ->
    lists_a_set as_list -> wanted <> [] -> (forall c, In c (metric_columns_of wanted) -> In c (metrics ++ map snd alo)) ->
    (forall m, In m wanted -> ms_override m = None) ->
    results T argsort as_list out wanted (par d) = Ok res -> In (name, r) res -> crossover (par d) = true ->
    0 <= n_before (par d) <= 2 ^ 53 -> readable frepr (par d) -> design_text frepr d = Ok text ->
    shows text "Number of items remaining after trimming for the analysis: " z -> Z.of_nat (r_sample_size r) = z.
Proof.
  intros T argsort as_list wanted perf assigned d metrics alo start skip out res name r frepr text z C NS HL NW HW NO R I CR B RD TX SH.
  destruct (c90_item_lines frepr (par d) d text (cd_design _ _ _ _ _ _ _ _ C) B RD TX) as (_ & _ & _ & _ & E).
  apply E in SH as [_ ->].
  exact (proj1 (c91_reported_sizes T argsort as_list wanted perf assigned d metrics alo start skip out res name r C NS HL NW HW NO R I) CR).
Qed.

(** A case that meets the hypotheses is in Totals_Props3.v. *)
Print Assumptions c91_reported_sizes.
Print Assumptions c91_the_printed_number_is_the_reported_one.
