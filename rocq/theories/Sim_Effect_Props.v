(** C85: every simulated A/B result is the A/A result of the same simulated data with the effect added. *)
From Coq Require Import ZArith Reals Lra Lia List String Bool Permutation Sorting.Sorted Classical.
From Flocq Require Import Core BinarySingleNaN.
Require Import Verif.Base Verif.Num Verif.NumOrd Verif.F64 Verif.Frame Verif.ListLib Verif.Design_Model Verif.Design_Spec Verif.Design_Proofs Verif.Design_Yaml_Proofs Verif.Design_Props
  Verif.Trimmed_Model Verif.Trimmed_Spec Verif.Moments Verif.Trimmed_Proofs Verif.Trimmed_Real Verif.Trimmed_Props
  Verif.Cuped_Model Verif.Cuped_Props Verif.Stats_Model Verif.Stats_Num Verif.Stats_Props Verif.Tests_Proofs
  Verif.Tests_Props Verif.Periods_Model Verif.Periods_Proofs Verif.Periods_Props Verif.Rows_Model Verif.Rows_Spec Verif.Pivot_Spec Verif.Assign_Spec Verif.Assign_Model Verif.Assign_Proofs Verif.Assign_Props
  Verif.Pivot_Model Verif.Pivot_Proofs Verif.Pivot_Props Verif.Analysis_Spec Verif.Analysis_Model Verif.Analysis_Props Verif.Analysis_Props2 Verif.Effect_Props
  Verif.Simulation_Model Verif.Sim_Names_Props Verif.Sim_Boot_Props Verif.Sim_State_Props Verif.Sim_Stats_Props Verif.Sim_Estimate_Props.
Import ListNotations.
Open Scope string_scope.
Open Scope list_scope.
Open Scope R_scope.

(** what the A/B result [rb] of a simulation must be, next to its A/A result [ra]: the estimate moves by
    the effect [e], exactly or by a share of it, depending on the design *)
Definition moved_exactly (e : R) (ra rb : tresult) : Prop :=
  exists x, r_abs ra = Fin x /\ r_abs rb = Fin (x + e) /\
    r_standard_error rb = r_standard_error ra /\ r_df rb = r_df ra /\ r_sample_size rb = r_sample_size ra.
Definition moved_by_a_share (e : R) (ra rb : tresult) : Prop :=
  exists x c, 0 <= c <= 1 /\ r_abs ra = Fin x /\ r_abs rb = Fin (x + c * e).
Definition adds_the_effect (p : params) (e : R) (ra rb : tresult) : Prop :=
  (crossover p = true -> B2R (post p) <> 0 -> moved_exactly e ra rb) /\
  (crossover p = true -> B2R (post p) = 0 -> moved_by_a_share e ra rb) /\
  (crossover p = false -> pretest p = 0%Z -> moved_exactly e ra rb) /\
  (crossover p = false -> (0 < pretest p)%Z -> B2R (post p) = 0 ->
     moved_by_a_share e ra rb \/ (r_abs ra = NaN /\ r_abs rb = NaN)).

(** *** Items of a table *)
Lemma cross_items (arms : list (option Z)) : forall xs ys, List.length xs = List.length arms -> List.length ys = List.length arms ->
  exists l : list (cross R), map x_arm l = arms /\ map x_one l = xs /\ map x_two l = ys.
Proof.
  induction arms as [|a arms IH]; intros [|x xs] [|y ys] L1 L2; try discriminate; [now exists []|].
  destruct (IH xs ys) as (l & E1 & E2 & E3); [simpl in *; lia..|]. exists (mkX a x y :: l). cbn. now rewrite E1, E2, E3.
Qed.
Lemma plain_items (arms : list (option Z)) : forall xs : list R, List.length xs = List.length arms ->
  exists l, map fst l = arms /\ map snd l = xs.
Proof.
  induction arms as [|a arms IH]; intros [|x xs] L1; try discriminate; [now exists []|].
  destruct (IH xs) as (l & E1 & E2); [simpl in *; lia|]. exists ((a, x) :: l). cbn. now rewrite E1, E2.
Qed.
Lemma pre_items (arms : list (option Z)) : forall xs ys, List.length xs = List.length arms -> List.length ys = List.length arms ->
  exists l : list item, map i_arm l = arms /\ map i_pre l = xs /\ map i_test l = ys.
Proof.
  induction arms as [|a arms IH]; intros [|x xs] [|y ys] L1 L2; try discriminate; [now exists []|].
  destruct (IH xs ys) as (l & E1 & E2 & E3); [simpl in *; lia..|]. exists (mkI a x y :: l). cbn. now rewrite E1, E2, E3.
Qed.

(** *** A constant pretest period *)
Lemma nsum_nan n : nsum (repeat NaN n) = match n with O => Fin 0 | _ => NaN end.
Proof. destruct n; reflexivity. Qed.
Lemma take_nan idx n : Trimmed_Model.take idx (repeat NaN n) = repeat NaN (List.length idx).
Proof.
  unfold Trimmed_Model.take. induction idx as [|i idx IH]; cbn [map List.length repeat]; auto. f_equal; [|exact IH].
  destruct (nth_in_or_default i (repeat NaN n) NaN) as [I|E]; auto. now apply repeat_spec in I.
Qed.
Lemma mean_nan argsort n q t : mk_trimmed argsort [repeat NaN n] q = Ok t -> vec (t_mean argsort t) 0 = NaN.
Proof.
  intros H. assert (ER : Trimmed_Model.t_rows t = [repeat NaN n]).
  { unfold mk_trimmed in H. apply bind_ok in H as (u & _ & H). apply bind_ok in H as (k & _ & H). apply bind_ok in H as (u2 & _ & H).
    apply bind_ok in H as (c & _ & H). destruct c; [|apply bind_ok in H as (c' & _ & H)]; inversion H; reflexivity. }
  unfold t_mean, values_trimmed, values_trimmed_of. rewrite ER. cbn [map]. rewrite take_nan, nsum_nan, repeat_length. unfold vec. cbn [nth].
  destruct (List.length _); [|reflexivity]. cbn [INR]. unfold ndiv. rewrite Req_bool_true by reflexivity. apply ninf_of_0.
Qed.
Lemma select_nan mask : forall n, exists j, select mask (repeat NaN n) = repeat NaN j.
Proof.
  induction mask as [|b mask IH]; intros [|n]; try (now exists 0%nat). destruct (IH n) as (j & E). unfold select in *. cbn.
  destruct b; cbn; rewrite E; [now exists (S j)|now exists j].
Qed.

Section Sim.
Context (T : tdist) (argsort : list num -> list nat) (HS : sorts argsort).
Context (p : params) (d : design) (HD : mk_design p = Ok d).

Lemma nan_analysis {K} (arm : K -> option Z) (t : table K) m l r : NoDup (t_cols t) -> crossover p = false ->
  usable (List.length l) (post p) -> B2R (post p) = 0 -> sqdev (map i_pre l) = 0 -> pretest_items arm t m l ->
  analyze_single_metric T argsort arm t true p m None None = Ok r -> r_abs r = NaN.
Proof.
  intros ND C U Q SQ (IA & HP & HT) H. revert H. unfold analyze_single_metric.
  destruct (metric_subset_spec arm t m _ _ ND HP) as (s & -> & EA & G & _). cbn [bind].
  destruct (negb _); [discriminate|]. cbn [raise_if bind]. rewrite C. unfold analyze_regular, prepare_regular, period_values, arm_values.
  rewrite (G _ _ HT), (G _ _ HP), EA. unfold data.
  rewrite (c48_constant_covariate_gives_nan argsort _ _ (post p) (List.length l) HS U).
  2:{ unfold trim_each. rewrite Q, Rmult_0_l, rnd_0. apply (Zfloor_IZR 0). }
  2,3: apply map_length. 2: now right.
  cbn [bind fst snd]. destruct (select_nan (map (arm_is 1) (map (fun r0 => arm (fst r0)) (t_rows t))) (List.length l)) as (j & ->).
  unfold yuens_t_test_ind. cbn [ratio_arguments bind]. intros H. apply bind_ok in H as (t1 & H1 & H). apply bind_ok in H as (t2 & _ & H).
  apply finish_ind_ok in H as (se & e1 & e2 & _ & F). apply mean_nan in H1. rewrite H1 in F. destruct F. assumption.
Qed.

Lemma effect_keeps_pretest {K} (arm : K -> option Z) (t t' : table K) m e l : NoDup (t_cols t) -> crossover p = false -> pretest_items arm t m l ->
  apply_synthetic_treatment_effect arm t true p m (Fin e) = Ok t' ->
  exists l', t_cols t' = t_cols t /\ map i_pre l' = map i_pre l /\ pretest_items arm t' m l'.
Proof.
  intros ND C (IA & HP & HT) HE.
  destruct (c70_effect_in_a_regular_experiment arm t t' p m (Fin e) (map (fun x => (i_arm x, Fin (i_test x))) l) ND C) as (CC & _ & [IA' HT'] & OT); auto.
  { split; rewrite map_map; cbn [fst snd]; auto. unfold data in HT. now rewrite map_map in HT. }
  assert (HP' := OT _ _ HP ltac:(congruence)).
  exists (map (with_effect e) l).
  assert (EP : map i_pre (map (with_effect e) l) = map i_pre l).
  { rewrite map_map. apply map_ext. intros x. unfold with_effect. now destruct (in_treatment_arm (i_arm x)). }
  split; auto. split; auto. split; [|split].
  - unfold in_arms in *. rewrite IA', !map_map. apply map_ext. intros x.
    unfold affected_regular, with_effect. cbn [fst]. now destruct (in_treatment_arm (i_arm x)).
  - now rewrite EP.
  - refine (eq_ind _ (holds _ _) HT' _ _). unfold data. rewrite !map_map. apply map_ext. intros x.
    unfold affected_regular, with_effect. cbn [fst snd]. now destruct (in_treatment_arm (i_arm x)).
Qed.

(** *** One simulated table *)
Lemma table_moves (aa ab : table (ikey * Z)) m e ra rb :
  finite_table aa -> (Z.of_nat (List.length (t_rows aa)) <= 2 ^ 53)%Z ->
  (forall r, In r (t_rows aa) -> snd (fst r) = 0%Z \/ snd (fst r) = 1%Z) ->
  (crossover p = false -> pretest p = 0%Z -> ~ In (m, "pretest") (t_cols aa)) ->
  analyze_single_metric T argsort sim_arm aa true p m None None = Ok ra ->
  apply_synthetic_treatment_effect sim_arm aa true p m (Fin e) = Ok ab ->
  analyze_single_metric T argsort sim_arm ab true p m None None = Ok rb ->
  adds_the_effect p e ra rb.
Proof.
  intros FT LB AR NP HA HE HB. assert (ND := proj1 FT).
  destruct (proj1 (c70_effect_can_be_applied_iff _ sim_arm aa true p m (Fin e)) (ex_intro _ ab HE)) as [_ COLS].
  set (arms := map (fun r : ikey * Z * list num => sim_arm (fst r)) (t_rows aa)).
  assert (LA : List.length arms = List.length (t_rows aa)) by apply map_length.
  unfold adds_the_effect. destruct (crossover p) eqn:C.
  - destruct (finite_holds aa (m, "test_1") FT) as (xs & H1 & L1); [apply COLS; now left|].
    destruct (finite_holds aa (m, "test_2") FT) as (ys & H2 & L2); [apply COLS; right; now left|].
    destruct (cross_items arms xs ys) as (l & E0 & E1 & E2); [congruence..|].
    assert (IT : crossover_items sim_arm aa m (map finite l)).
    { unfold crossover_items, in_arms. rewrite !map_map. cbn [finite x_arm x_one x_two]. fold arms. rewrite <- E0. split; auto.
      unfold data in H1, H2. rewrite <- E1 in H1. rewrite <- E2 in H2. rewrite map_map in H1, H2. auto. }
    assert (LL : List.length l = List.length (t_rows aa)) by (rewrite <- LA, <- E0; now rewrite map_length).
    assert (L0 : (0 < List.length l)%nat).
    { destruct l as [|c l']; [exfalso|cbn; lia]. rewrite (analysis_crossover sim_arm T argsort aa p m _ None ND C IT) in HA. cbn in HA.
      unfold prepare_crossover in HA. revert HA. destruct (is_zero _); cbn [map replace_where fst snd shift unshift combine];
        unfold yuens_t_test_paired; cbn [List.length Nat.eqb negb raise_if bind ratio_arguments]; intros HA;
        apply bind_ok in HA as (st & HST & HA); apply bind_ok in HA as (tr & HTR & _); apply stack_ok in HST as [-> _];
        (eapply c43_empty_arrays_are_rejected; [|exact HTR]); cbn; auto. }
    assert (U : usable (List.length l) (chosen p None)) by (apply (usable_design_post p d); auto; now rewrite LL).
    split; [|split; [|split; discriminate]]; intros _ Q.
    + destruct (c63_recovered_exactly_without_demeaning sim_arm T argsort aa ab p m e l None HS ND C U Q IT HE) as (r & r' & x & R1 & R2 & R3).
      exists x. assert (r = ra) by congruence. assert (r' = rb) by congruence. now subst.
    + destruct (c63_recovered_share_with_demeaning sim_arm T argsort aa ab p m e l None HS ND C U Q IT HE) as (r & r' & x & R1 & R2 & R3 & R4 & _).
      assert (r = ra) by congruence. assert (r' = rb) by congruence. subst r r'.
      exists x, (4 * share_first l * (1 - share_first l)). split; auto.
      set (g := share_first l).
      assert (G : 0 <= g <= 1).
      { unfold g, share_first. assert (LF := Rank.filter_length_le (fun c : cross R => in_treatment_arm (x_arm c)) l).
        apply le_INR in LF. apply lt_INR in L0. cbn [INR] in L0.
        assert (P0 := pos_INR (List.length (filter (fun c : cross R => in_treatment_arm (x_arm c)) l))).
        split; [apply Rmult_le_pos; auto; left; now apply Rinv_0_lt_compat|]. apply (Rmult_le_reg_r (INR (List.length l))); auto.
        unfold Rdiv. rewrite Rmult_assoc, Rinv_l by lra. lra. }
      assert (SQ := Rle_0_sqr (2 * g - 1)). unfold Rsqr in SQ. nra.
  - split; [discriminate|]. split; [discriminate|].
    destruct (finite_holds aa (m, "test") FT) as (ys & H2 & L2); [apply COLS; now left|].
    split.
    + intros _ P0. destruct (plain_items arms ys) as (l & E0 & E1); [congruence|].
      assert (LL : List.length l = List.length (t_rows aa)) by (rewrite <- LA, <- E0; now rewrite map_length).
      assert (IT : regular_items sim_arm aa m (map finite_pair l)).
      { unfold regular_items, in_arms. rewrite !map_map. unfold finite_pair. cbn [fst snd]. fold arms. rewrite <- E0. split; auto.
        unfold data in H2. rewrite <- E1, map_map in H2. exact H2. }
      destruct (c64_recovered_exactly_without_pretest sim_arm T argsort aa ab p m e l None ra rb HS ND C P0 (NP eq_refl P0) ltac:(now rewrite LL) IT HE HA HB)
        as (x & R1 & R2 & R3 & R4 & R5 & _). exists x. auto.
    + intros _ PP Q.
      assert (HP : In (m, "pretest") (t_cols aa)).
      { destruct (in_dec col_dec (m, "pretest") (t_cols aa)) as [I|N]; auto. exfalso. revert HA. unfold analyze_single_metric.
        destruct (metric_subset_spec sim_arm aa m _ _ ND H2) as (s & -> & EA & _ & G). cbn [bind]. unfold complete, required_periods.
        rewrite C, (proj2 (Z.ltb_lt 0 (pretest p)) PP). cbn [forallb]. rewrite (G _ N), !andb_false_r. discriminate. }
      destruct (finite_holds aa (m, "pretest") FT HP) as (xs & H1 & L1).
      destruct (pre_items arms xs ys) as (l & E0 & E1 & E2); [congruence..|].
      assert (LL : List.length l = List.length (t_rows aa)) by (rewrite <- LA, <- E0; now rewrite map_length).
      assert (IT : pretest_items sim_arm aa m l).
      { unfold pretest_items, in_arms. fold arms. rewrite E0, E1, E2. auto. }
      assert (L0 : (0 < List.length l)%nat).
      { destruct l as [|c l']; [exfalso|cbn; lia]. revert HA. unfold analyze_single_metric.
        destruct (metric_subset_spec sim_arm aa m _ _ ND H2) as (s & -> & EA & G & _). cbn [bind].
        destruct (negb _); [discriminate|]. cbn [raise_if bind]. rewrite C. unfold analyze_regular, prepare_regular, period_values, arm_values.
        rewrite (G _ _ H2), (G _ _ H1), EA. fold arms. rewrite <- E0. cbn [map]. intros HA. apply bind_ok in HA as (y & HY & HA).
        apply bind_ok in HY as (y0 & _ & HY). assert (EY : y = ([], [])) by (cbn in HY; congruence). subst y. cbn [fst snd] in HA.
        unfold yuens_t_test_ind in HA. cbn [ratio_arguments bind] in HA. apply bind_ok in HA as (t1 & HT1 & _).
        revert HT1. apply c43_empty_arrays_are_rejected. now left. }
      assert (U : usable (List.length l) (chosen p None)) by (apply (usable_design_post p d); auto; now rewrite LL).
      destruct (Req_EM_T (sqdev (map i_pre l)) 0) as [SQ|SQ].
      * right. split.
        { apply (nan_analysis sim_arm aa m l ra); auto. }
        destruct (effect_keeps_pretest sim_arm aa ab m e l ND C IT HE) as (l' & CC & EP & IT').
        apply (nan_analysis sim_arm ab m l' rb); auto; [now rewrite CC| |now rewrite EP].
        assert (X := f_equal (@List.length R) EP). rewrite !map_length in X. now rewrite X.
      * left. assert (AL : forall x, In x l -> i_arm x = Some 0%Z \/ i_arm x = Some 1%Z).
        { intros x Hx. apply (in_map i_arm) in Hx. rewrite E0 in Hx. unfold arms in Hx. apply in_map_iff in Hx as (r & <- & Hr).
          unfold sim_arm. destruct (AR r Hr) as [-> | ->]; auto. }
        destruct (c64_share_recovered_with_pretest sim_arm T argsort aa ab p m e l None ra rb HS ND C U Q SQ AL IT HE HA HB) as (x & R1 & R2 & R3 & _).
        eexists x, _. split; [|split; [exact R1|rewrite R2; f_equal; f_equal; apply Rmult_comm]]. lra.
Qed.

(** *** One simulation *)
Context {G : Type} (shuffle_of sample_of : G -> nat -> list nat * G) (arms_of : G -> nat -> list Z * G) (choice_of : G -> list Z -> Z * G).
Context (HSP : samples_positions sample_of) (HAR : draws_arms arms_of).

Lemma label_exists start : exists lab, label_fun p start = Ok lab.
Proof.
  destruct (proj1 (mk_design_iff p d) HD) as [D _]. unfold label_fun. destruct (crossover p) eqn:CR; [|eauto].
  destruct (ok_crossover _ D CR) as (wa & E & _). rewrite E. eauto.
Qed.
Lemma no_pretest_label start lab s : label_fun p start = Ok lab -> crossover p = false -> pretest p = 0%Z -> forall w, lab w = Some s -> s <> "pretest".
Proof.
  intros L C P0 w E ->. destruct (proj1 (mk_design_iff p d) HD) as [D _].
  destruct (c12_regular_periods p d start w lab HD C L) as (X & _). apply X in E as (i & Hi & _). lia.
Qed.

Lemma pivoted_frame s start f g f' g' t : get_pivoted_and_trimmed shuffle_of sample_of s start true (f, g) = ((f', g'), Ok t) ->
  exists t0, pivot_time_assignment f (par (sm_design s)) start [metric (par (sm_design s))] (sm_item s) (sm_week s) None (sm_period s) = (f', Ok t0).
Proof.
  intros H. unfold get_pivoted_and_trimmed, sbind, on_frame, on_rng, sret in H. cbn [fst snd] in H.
  destruct (pivot_time_assignment f _ _ _ _ _ _ _) as [f1 [t0|e]]; [|discriminate]. exists t0. cbn [fst snd] in H. f_equal.
  destruct (bootstrap_sample_data _ _ _ _) as [g4 [x1|]]; [|discriminate]; cbn [bind fst snd negb andb raise_if] in H.
  destruct (0 <? pretest _)%Z; [destruct (trim_pivoted _ _ _ _) as [g5 [t5|]]; [|discriminate]|]; cbn [fst snd] in H; congruence.
Qed.

(** the table that is analysed in a simulation *)
Lemma simulated_table s start f g f' g' t g1 g2 a aa lab :
  sm_design s = d -> plain_name (metric p) -> label_fun p start = Ok lab -> calm (frame_rows f [metric p] (sm_item s) (sm_week s) None) ->
  get_pivoted_and_trimmed shuffle_of sample_of s start true (f, g) = ((f', g'), Ok t) ->
  apply_random_treatment_assignment arms_of t g1 (sm_item s) (sm_treatment s) = (g2, Ok a) ->
  as_table (metric p) a = Ok aa ->
  f' = f /\ finite_table aa /\
  (exists n, n_items p f lab (sm_item s) (sm_week s) n /\ (List.length (t_rows aa) <= n)%nat) /\
  (forall q, In (metric p, q) (t_cols aa) <-> observed p f lab (sm_item s) (sm_week s) q) /\
  (forall r, In r (t_rows aa) -> snd (fst r) = 0%Z \/ snd (fst r) = 1%Z).
Proof.
  intros ES PN HL HC EG EA ET.
  assert (EP : par (sm_design s) = p) by (rewrite ES; now rewrite (par_design p d HD)).
  destruct (pivoted_frame _ _ _ _ _ _ _ EG) as (t0 & PV). rewrite EP in PV.
  destruct (sim_pivot_inv p f start lab HL (sm_item s) (sm_week s) (sm_period s) f' t0 PV) as (_ & EF & PR). 
  destruct (sim_table p d HD f start lab HL (sm_item s) (sm_week s) HC t0 PR) as (FT & _ & NI & OB & _).
  assert (PC := pivot_columns p start (metric p) _ t0 PR).
  destruct (c68_simulated_rows_have_distinct_ids G shuffle_of sample_of s start f g f' g' t HSP EG) as (_ & t0' & PV' & CC & LL & RW).
  rewrite EP, PV in PV'. cbn [snd] in PV'. assert (t0' = t0) by congruence. subst t0'. clear PV'.
  destruct (c69_every_item_gets_one_arm arms_of t g1 (sm_item s) (sm_treatment s) g2 a HAR EA) as (AR & AV & _).
  assert (TA : aa = mkT (t_cols t) (a_rows a)).
  { assert (AC : a_cols a = map unflat_name (map flat_name (t_cols t))).
    { unfold apply_random_treatment_assignment in EA. destruct (orb _ _); [discriminate|]. destruct (negb _); [discriminate|].
      destruct (arms_of _ _) as [arms g4]. destruct (existsb (String.eqb (sm_item s)) _); [discriminate|]. destruct (existsb (String.eqb (sm_treatment s)) _); [discriminate|].
      assert (AC := f_equal (fun r => match snd r with Ok x => a_cols x | Err _ => [] end) EA). cbn [snd a_cols] in AC. now rewrite <- AC. }
    unfold as_table in ET. rewrite AC, map_map in ET. rewrite (mapM_total _ (fun c => (hd "" c, hd "" (tl c)))) in ET.
    - cbn [bind] in ET. assert (X : t_cols t = map (fun c => (hd "" c, hd "" (tl c))) (map (fun x => unflat_name (flat_name x)) (t_cols t))).
      { rewrite map_map. rewrite <- (map_id (t_cols t)) at 1. apply map_ext_in. intros [m' sx] Hc. rewrite CC in Hc. destruct (PC _ Hc) as [E Hs]. cbn [fst snd] in *. subst m'.
        rewrite (proj2 (c69_name_round_trip (metric p) sx Hs) PN). reflexivity. }
      rewrite X. congruence.
    - intros c Hc. apply in_map_iff in Hc as ([m' sx] & <- & Hc). rewrite CC in Hc. destruct (PC _ Hc) as [E Hs]. cbn [fst snd] in *. subst m'.
      rewrite (proj2 (c69_name_round_trip (metric p) sx Hs) PN). reflexivity. }
  split; auto. subst aa. cbn [t_cols t_rows]. split; [|split; [|split]].
  - split; cbn [t_cols t_rows]; [rewrite CC; apply FT|]. intros r Hr.
    assert (I : In (fst (fst r), snd r) (t_rows t)) by (rewrite <- AR; apply in_map_iff; now exists r).
    destruct (RW _ I) as (n & r0 & _ & _ & H0 & E). cbn [snd] in E. rewrite E, CC. apply FT. exact H0.
  - exists (List.length (t_rows t0)). split; auto. rewrite <- AR, map_length in LL. exact LL.
  - intros q. rewrite CC. apply OB.
  - exact AV.
Qed.

Lemma simulation_moves s f g f' g' e ra rb :
  sm_design s = d -> plain_name (metric p) -> calm (frame_rows f [metric p] (sm_item s) (sm_week s) None) ->
  (Z.of_nat (List.length (frame_rows f [metric p] (sm_item s) (sm_week s) None)) <= 2 ^ 53)%Z ->
  simulate_once T argsort shuffle_of sample_of arms_of choice_of s (Fin e) (f, g) = ((f', g'), Ok (ra, rb)) ->
  f' = f /\ adds_the_effect p e ra rb.
Proof.
  intros ES PN HC LB H.
  assert (EP : par (sm_design s) = p) by (rewrite ES; now rewrite (par_design p d HD)).
  unfold simulate_once in H. rewrite EP in H. unfold sbind at 1 in H. unfold sret at 1 in H.
  destruct (valid_start_week_ids s) as [starts|]; [|discriminate]. unfold sbind at 1 in H.
  destruct starts as [|w starts]; [discriminate|]. unfold on_rng at 1 in H.
  destruct (choice_of _ _) as [start g1]. unfold sbind at 1 in H. cbn [fst snd] in H.
  destruct (get_pivoted_and_trimmed shuffle_of sample_of s start true (f, g1)) as [[f2 g2] [t|]] eqn:EG; [|discriminate].
  unfold sbind at 1 in H. unfold on_rng in H. cbn [fst snd] in H.
  destruct (apply_random_treatment_assignment arms_of t g2 (sm_item s) (sm_treatment s)) as [g3 [a|]] eqn:EA; [|discriminate].
  unfold sret in H.
  destruct (as_table (metric p) a) as [aa|] eqn:ET; [|discriminate]. cbn [bind] in H.
  destruct (analyze_single_metric T argsort sim_arm aa true p (metric p) None None) as [ra'|] eqn:HA; [|discriminate]. cbn [bind] in H.
  destruct (apply_synthetic_treatment_effect sim_arm aa true p (metric p) (Fin e)) as [ab|] eqn:HE; [|discriminate]. cbn [bind] in H.
  destruct (analyze_single_metric T argsort sim_arm ab true p (metric p) None None) as [rb'|] eqn:HB; [|discriminate]. cbn [bind] in H.
  assert (ra' = ra) by congruence. assert (rb' = rb) by congruence. assert (f' = f2) by congruence. subst ra' rb' f'. clear H.
  destruct (label_exists start) as (lab & HL).
  destruct (simulated_table s start f g1 f2 g2 t g2 g3 a aa lab ES PN HL HC EG EA ET) as (EF & FT & (n & (keys & N1 & N2 & N3) & LN) & OB & AV).
  split; auto. apply (table_moves aa ab (metric p)); auto.
  - enough (n <= List.length (frame_rows f [metric p] (sm_item s) (sm_week s) None))%nat by lia.
    rewrite <- N2, <- (map_length p_key (frame_rows f [metric p] (sm_item s) (sm_week s) None)). apply NoDup_incl_length; auto.
    intros k Hk. apply N3 in Hk as (r & q & Hr & <- & _). now apply in_map.
  - intros C P0 I. apply OB in I as (r & _ & wk & _ & EL). exact (no_pretest_label start lab "pretest" HL C P0 wk EL eq_refl).
Qed.
End Sim.

(** *** A validated design *)
Theorem c85_simulated_effects_are_found :
  forall T argsort G (shuffle_of sample_of : G -> nat -> list nat * G) arms_of choice_of s n f g s' x' e,
    sorts argsort -> samples_positions sample_of -> draws_arms arms_of ->
    let p := par (sm_design s) in let rows := frame_rows f [metric p] (sm_item s) (sm_week s) None in
    mk_design p = Ok (sm_design s) -> calm rows -> (Z.of_nat (List.length rows) <= 2 ^ 53)%Z -> sm_mde s = Some (Fin e) ->
    run_validate_design T argsort shuffle_of sample_of arms_of choice_of s n (f, g) = ((s', x'), Ok tt) ->
    fst x' = f /\
    exists aa ab, sm_aa s' = Some aa /\ sm_ab s' = Some ab /\ List.length aa = n /\ Forall2 (adds_the_effect p e) aa ab.
Proof.
  intros T argsort G shuffle_of sample_of arms_of choice_of s n f g s' x' e HS HSP HAR p rows HD HC LB EM H.
  assert (PN : n = 0%nat \/ plain_name (metric p)).
  { destruct n as [|n]; [now left|right]. apply NNPP. intros NP.
    exact (c69_other_metric_names_cannot_be_validated T argsort G shuffle_of sample_of arms_of choice_of s n (f, g) s' x' NP H). }
  unfold run_validate_design in H. rewrite EM in H.
  destruct (smap (fun _ : nat => simulate_once T argsort shuffle_of sample_of arms_of choice_of s (Fin e)) (seq 0 n) (f, g)) as [y [results|]] eqn:ER; [|discriminate].
  assert (ES : sm_aa s' = Some (map fst results) /\ sm_ab s' = Some (map snd results) /\ x' = y).
  { assert (X := f_equal (fun r => (sm_aa (fst (fst r)), sm_ab (fst (fst r)), snd (fst r))) H). cbn in X. split; [|split]; congruence. }
  destruct ES as (-> & -> & ->). clear H.
  assert (IND : forall l g y results, calm (frame_rows f [metric p] (sm_item s) (sm_week s) None) ->
    (Z.of_nat (List.length (frame_rows f [metric p] (sm_item s) (sm_week s) None)) <= 2 ^ 53)%Z -> (l = [] \/ plain_name (metric p)) ->
    smap (fun _ : nat => simulate_once T argsort shuffle_of sample_of arms_of choice_of s (Fin e)) l (f, g) = (y, Ok results) ->
    fst y = f /\ List.length results = List.length l /\ Forall2 (adds_the_effect p e) (map fst results) (map snd results)).
  { clear PN ER y results. intros l. induction l as [|i l IH]; intros g0 y results HC' LB' PN H.
    - cbn [smap] in H. unfold sret in H. assert (results = []) by congruence. assert (y = (f, g0)) by congruence. subst. repeat split; constructor.
    - destruct PN as [PN|PN]; [discriminate|]. cbn [smap] in H. unfold sbind at 1 in H.
      destruct (simulate_once T argsort shuffle_of sample_of arms_of choice_of s (Fin e) (f, g0)) as [[f1 g1] [[ra rb]|]] eqn:E1; [|discriminate].
      destruct (simulation_moves T argsort HS p (sm_design s) HD shuffle_of sample_of arms_of choice_of HSP HAR s f g0 f1 g1 e ra rb eq_refl PN HC LB E1) as (-> & M).
      unfold sbind in H. destruct (smap _ l (f, g1)) as [y2 [rs|]] eqn:E2; [|discriminate]. unfold sret in H.
      destruct (IH g1 y2 rs HC LB (or_intror PN) E2) as (A & B & C).
      assert (results = (ra, rb) :: rs) by congruence. assert (y = y2) by congruence. subst. cbn [map fst snd List.length]. auto. }
  destruct (IND (seq 0 n) g y results HC LB) as (A & B & C); auto.
  { destruct PN as [-> | PN]; auto. }
  rewrite seq_length in B. split; auto. exists (map fst results), (map snd results). rewrite map_length. auto.
Qed.

(** *** A crossover design whose effect could be estimated can be validated *)
Section Runs.
Context (T : tdist) (argsort : list num -> list nat) (HS : sorts argsort).
Context (p : params) (d : design) (HD : mk_design p = Ok d) (HB : (n_before p < 2 ^ 53)%Z).
Context {G : Type} (shuffle_of sample_of : G -> nat -> list nat * G) (arms_of : G -> nat -> list Z * G) (choice_of : G -> list Z -> Z * G).
Context (HSH : forall g, shuffles (fun k => fst (shuffle_of g k))) (HSP : samples_positions sample_of) (HAR : draws_arms arms_of).

Lemma trim_none q : trim_count q 0 = 0%Z.
Proof. unfold trim_count. rewrite rnd_0, Rmult_0_r, rnd_0. apply (Zfloor_IZR 0). Qed.
Lemma items_not_zero : n_pre d <> 0%Z /\ n_before p <> 0%Z.
Proof.
  assert (P50 := post_items p d HD). destruct (proj1 (mk_design_iff p d) HD) as [D E].
  rewrite E in P50 |- *. cbn [n_post n_pre] in *. unfold spec_n_post in P50.
  assert (N : spec_n_pre p <> 0%Z) by (intros X; rewrite X, trim_none in P50; lia). split; auto.
  intros X. apply N. unfold spec_n_pre. rewrite X, !trim_none. reflexivity.
Qed.

(** the bootstrapped table *)
Lemma simulated_table_exists s start f g lab : sm_design s = d -> label_fun p start = Ok lab ->
  calm (frame_rows f [metric p] (sm_item s) (sm_week s) None) ->
  readable p f (sm_item s) (sm_week s) (sm_period s) ->
  (exists n, n_items p f lab (sm_item s) (sm_week s) n /\ Z.of_nat n = n_before p) ->
  (pretrims p -> observed p f lab (sm_item s) (sm_week s) "pretest") ->
  (crossover p = false -> observed p f lab (sm_item s) (sm_week s) "test") ->
  exists g' t, get_pivoted_and_trimmed shuffle_of sample_of s start true (f, g) = ((f, g'), Ok t) /\ Z.of_nat (List.length (t_rows t)) = n_pre d /\
    (forall c, In c (t_cols t) -> fst c = metric p /\ In (snd c) period_names).
Proof.
  intros ES HL HC RD (n & NI & EN) PT TE.
  assert (EP : par (sm_design s) = p) by (rewrite ES; now rewrite (par_design p d HD)).
  destruct (sim_pivot_exists p d HD f start lab HL (sm_item s) (sm_week s) HC TE) as (t0 & PR).
  destruct (sim_table p d HD f start lab HL (sm_item s) (sm_week s) HC t0 PR) as (FT & _ & NI' & OB & _).
  assert (E0 := has_card_unique _ _ _ NI' NI).
  assert (PC := pivot_columns p start (metric p) _ t0 PR).
  unfold get_pivoted_and_trimmed, sbind, on_frame, on_rng, sret. rewrite EP. cbn [fst snd].
  rewrite (sim_pivot_ok p f start lab HL _ _ _ t0 RD PR). cbn [fst snd].
  set (t1 := mkT (t_cols t0) (map (fun r => (IStr (fst (fst r)), snd r)) (t_rows t0))) in *.
  destruct (c68_reserved_names_are_never_seen_in_a_simulation G sample_of t1 g (sm_item s)) as (x & EX).
  destruct (bootstrap_sample_data sample_of (as_indexed (sm_item s) t1) g (sm_item s)) as [g1 r] eqn:EB. cbn [snd] in EX. subst r.
  apply c68_copies_of_rows_with_fresh_ids in EB as (_ & BL & _ & _ & BR & _); auto; [|cbn; discriminate].
  change (x_multi (as_indexed (sm_item s) t1)) with false in BR. cbv iota in BR.
  cbn [as_indexed x_rows] in BL, BR. rewrite map_length in BL. unfold t1 in BL at 1. cbn [t_rows] in BL. rewrite map_length in BL. change (string * list Z)%type with akey in BL.
  cbn [bind fst snd negb andb raise_if].
  set (t2 := of_indexed (t_cols t1) x) in *.
  assert (F2 : finite_table t2).
  { split; [apply FT|]. intros r Hr. cbn in Hr. apply in_map_iff in Hr as (r1 & <- & H1). cbn [snd].
    apply In_nth_error in H1 as (i & Hi). destruct (BR _ _ Hi) as (r0 & H0 & E1 & _). rewrite E1.
    apply in_map_iff in H0 as (r2 & <- & H2). unfold t1 in H2. cbn [t_rows] in H2. apply in_map_iff in H2 as (r3 & <- & H3). cbn [snd]. apply FT. exact H3. }
  assert (L2 : Z.of_nat (List.length (t_rows t2)) = n_before p) by (cbn; rewrite map_length, BL, E0; exact EN).
  destruct items_not_zero as [NP NB].
  destruct (0 <? pretest p)%Z eqn:EPT.
  - destruct (proj1 (trim_pivoted_cases p d HD shuffle_of HSH t2 g1 F2 L2 HB)) as (g2 & t3 & E & EC & _ & EL).
    { destruct (in_dec col_dec (metric p, "pretest") (t_cols t2)) as [Y|N]; [now right|left].
      intros X. apply N. apply OB. now apply PT. }
    cbn [fst snd]. rewrite E. cbn [fst snd]. exists g2, t3. split; auto. split; [lia|]. rewrite EC. exact PC.
  - exists g1, t2. split; auto. split; [|exact PC]. rewrite L2, (n_pre_design p d HD).
    destruct (proj1 (mk_design_iff p d) HD) as [D _]. assert (P0 : pretest p = 0%Z) by (apply Z.ltb_ge in EPT; pose proof (ok_pretest _ D); lia).
    assert (NT := no_pretest_no_trimming p d HD P0). unfold pretrims in NT. lia.
Qed.

Context (CR : crossover p = true).
Lemma simulation_runs s f g e starts :
  sm_design s = d -> calm (frame_rows f [metric p] (sm_item s) (sm_week s) None) ->
  (Z.of_nat (List.length (frame_rows f [metric p] (sm_item s) (sm_week s) None)) <= 2 ^ 53)%Z ->
  plain_name (metric p) -> plain_name (sm_item s) -> ~ has_double_underscore (sm_treatment s) ->
  metric p <> sm_treatment s -> sm_item s <> sm_treatment s ->
  valid_start_week_ids s = Ok starts -> starts <> [] -> (forall g l, l <> [] -> In (fst (choice_of g l)) l) ->
  (forall w lab, In w starts -> label_fun p w = Ok lab ->
     readable p f (sm_item s) (sm_week s) (sm_period s) /\
     (forall q, In q (test_periods p) -> observed p f lab (sm_item s) (sm_week s) q) /\
     (exists n, n_items p f lab (sm_item s) (sm_week s) n /\ Z.of_nat n = n_before p) /\
     (pretrims p -> observed p f lab (sm_item s) (sm_week s) "pretest")) ->
  exists g' r, simulate_once T argsort shuffle_of sample_of arms_of choice_of s (Fin e) (f, g) = ((f, g'), Ok r).
Proof.
  intros ES HC LB PM PI NU N1 N2 EV NE HCH HW.
  assert (EP : par (sm_design s) = p) by (rewrite ES; now rewrite (par_design p d HD)).
  unfold simulate_once. rewrite EP, EV. unfold sbind at 1. unfold sret at 1. unfold sbind at 1.
  destruct starts as [|w0 starts]; [congruence|]. unfold on_rng at 1. cbn [fst snd].
  assert (IW := HCH g (w0 :: starts) NE). destruct (choice_of g (w0 :: starts)) as [w g1]. cbn [fst] in IW.
  destruct (label_exists p d HD w) as (lab & HL). destruct (HW w lab IW HL) as (RD & OBS & NI & PT).
  destruct (simulated_table_exists s w f g1 lab ES HL HC RD NI PT ltac:(congruence)) as (g2 & t & EG & LP & PC).
  assert (L0 : (0 < List.length (t_rows t))%nat) by (destruct items_not_zero; lia).
  unfold sbind at 1. rewrite EG. unfold sbind at 1. unfold on_rng. cbn [fst snd].
  destruct (c69_plain_names_come_back arms_of (metric p) (sm_item s) (sm_treatment s) t g2 PM PI NU N1 N2 PC) as (a & EA & ET).
  destruct (apply_random_treatment_assignment arms_of t g2 (sm_item s) (sm_treatment s)) as [g3 ra] eqn:EA'. cbn [snd] in EA. subst ra.
  unfold sret. rewrite ET. cbn [bind].
  set (aa := mkT (t_cols t) (a_rows a)) in *.
  destruct (simulated_table p d HD shuffle_of sample_of arms_of HSP HAR s w f g1 f g2 t g2 g3 a aa lab ES PM HL HC EG EA' ET) as (_ & FT & (n & (keys & K1 & K2 & K3) & LN) & OB & AV).
  assert (AR := proj1 (c69_every_item_gets_one_arm arms_of t g2 (sm_item s) (sm_treatment s) g3 a HAR EA')).
  assert (LA : (0 < List.length (t_rows aa))%nat) by (rewrite <- AR, map_length in L0; exact L0).
  assert (LB' : (Z.of_nat (List.length (t_rows aa)) <= 2 ^ 53)%Z).
  { enough (n <= List.length (frame_rows f [metric p] (sm_item s) (sm_week s) None))%nat by lia.
    rewrite <- K2, <- (map_length p_key (frame_rows f [metric p] (sm_item s) (sm_week s) None)). apply NoDup_incl_length; auto.
    intros k Hk. apply K3 in Hk as (r & q & Hr & <- & _). now apply in_map. }
  assert (ND := proj1 FT). unfold test_periods in OBS. rewrite CR in OBS.
  assert (C1 : In (metric p, "test_1") (t_cols aa)) by (apply OB, OBS; now left).
  assert (C2 : In (metric p, "test_2") (t_cols aa)) by (apply OB, OBS; right; now left).
  destruct (finite_holds aa (metric p, "test_1") FT C1) as (xs & H1 & L1).
  destruct (finite_holds aa (metric p, "test_2") FT C2) as (ys & H2 & L2).
  set (arms := map (fun r : ikey * Z * list num => sim_arm (fst r)) (t_rows aa)).
  assert (LAr : List.length arms = List.length (t_rows aa)) by apply map_length.
  destruct (cross_items arms xs ys) as (l & E0 & E1 & E2); [congruence..|].
  assert (IT : crossover_items sim_arm aa (metric p) (map finite l)).
  { unfold crossover_items, in_arms. rewrite !map_map. cbn [finite x_arm x_one x_two]. fold arms. rewrite <- E0. split; auto.
    unfold data in H1, H2. rewrite <- E1 in H1. rewrite <- E2 in H2. rewrite map_map in H1, H2. auto. }
  assert (LL : List.length l = List.length (t_rows aa)) by (rewrite <- LAr, <- E0; now rewrite map_length).
  assert (U : usable (List.length l) (chosen p None)) by (apply (usable_design_post p d); auto; rewrite LL; auto).
  destruct (proj2 (c70_effect_can_be_applied_iff _ sim_arm aa true p (metric p) (Fin e))) as (ab & HE).
  { split; auto. rewrite CR. intros q [<-|[<-|[]]]; auto. }
  assert (X : exists r r', analyze_single_metric T argsort sim_arm aa true p (metric p) None None = Ok r /\
                           analyze_single_metric T argsort sim_arm ab true p (metric p) None None = Ok r').
  { destruct (Req_EM_T (B2R (chosen p None)) 0) as [Q|Q].
    - destruct (c63_recovered_share_with_demeaning sim_arm T argsort aa ab p (metric p) e l None HS ND CR U Q IT HE) as (r & r' & x & R1 & R2 & _). eauto.
    - destruct (c63_recovered_exactly_without_demeaning sim_arm T argsort aa ab p (metric p) e l None HS ND CR U Q IT HE) as (r & r' & x & R1 & R2 & _). eauto. }
  destruct X as (r & r' & R1 & R2). rewrite R1. cbn [bind]. rewrite HE. cbn [bind]. rewrite R2. cbn [bind]. eauto.
Qed.
End Runs.

(** *** A crossover design always gets a finite minimum detectable effect *)
Section Finite.
Context (argsort : list num -> list nat) (HS : sorts argsort) (p : params) (d : design) (HD : mk_design p = Ok d) (CR : crossover p = true) (HB : (n_before p < 2 ^ 53)%Z).
Context {G : Type} (shuffle_of sample_of : G -> nat -> list nat * G) (HSH : forall g, shuffles (fun k => fst (shuffle_of g k))).

Lemma crossover_stats_finite (t : table ikey) st : finite_table t -> Z.of_nat (List.length (t_rows t)) = n_pre d -> (n_pre d <= 2 ^ 53)%Z ->
  primary_metric_stats argsort d t = Ok st -> exists a v, fst st = (Fin a, Fin v) /\ 0 <= v.
Proof.
  intros FT EN LB H. assert (ND := proj1 FT). assert (HT := stats_need_columns argsort p d HD t st H).
  unfold test_periods in HT. rewrite CR in HT.
  destruct (finite_holds t _ FT (HT "test_1" (or_introl eq_refl))) as (xs & H1 & L1).
  destruct (finite_holds t _ FT (HT "test_2" (or_intror (or_introl eq_refl)))) as (ys & H2 & _).
  destruct (sorted_exists (minus xs ys)) as (sd & SS).
  assert (NE : xs <> []). { intros ->. simpl in L1. destruct (items_not_zero p d HD) as [N _]. lia. }
  destruct (c73_crossover_statistics argsort HS p d HD t xs ys sd CR ND H1 H2) as (k & kept & _ & E & _ & _ & _ & _ & R); auto; [congruence|].
  rewrite R in H. assert (st = (Fin ((avg (rtake kept xs) + avg (rtake kept ys)) / 2),
     Fin (tdev k (minus xs ys) sd / (INR (List.length xs - 2 * k) - 1) + mean_gap_term p k sd), (List.length xs - 2 * k)%nat)) by congruence.
  subst st. cbn [fst]. eexists _, _. split; [reflexivity|].
  assert (P50 := post_items p d HD). assert (X : 1 < INR (List.length xs - 2 * k)) by (apply (lt_INR 1); lia).
  apply Rplus_le_le_0_compat.
  - apply Rmult_le_pos; [apply sqdev_nonneg|]. left. apply Rinv_0_lt_compat. lra.
  - unfold mean_gap_term. destruct (Rlt_dec _ _); [|lra]. assert (Y := pow2_ge_0 (tmean k sd)). lra.
Qed.

Lemma crossover_week_finite s w f g y st : sm_design s = d -> calm (frame_rows f [metric p] (sm_item s) (sm_week s) None) ->
  estimate_primary_metric_stats argsort shuffle_of sample_of s w (f, g) = (y, Ok st) -> exists a v, fst st = (Fin a, Fin v) /\ 0 <= v.
Proof.
  intros HM HC H. destruct (label_exists p d HD w) as (lab & HL).
  unfold estimate_primary_metric_stats, get_pivoted_and_trimmed, sbind, on_frame, on_rng, sret in H. rewrite HM, (par_design p d HD) in H. cbn [fst snd] in H.
  destruct (proj1 (mk_design_iff p d) HD) as [D _].
  destruct (pivot_time_assignment f p w _ _ _ _ _) as [f' [t0|e]] eqn:EP; [|discriminate]. cbn [fst snd] in H.
  apply (sim_pivot_inv p f w lab HL) in EP as (RD & -> & HP).
  destruct (sim_table p d HD f w lab HL _ _ HC t0 HP) as (FT & _ & NI & CO & _).
  set (t1 := mkT (t_cols t0) (map (fun r => (IStr (fst (fst r)), snd r)) (t_rows t0))) in *.
  assert (F1 : finite_table t1). { split; [apply FT|]. intros r Hr. unfold t1 in Hr. cbn [t_rows] in Hr. apply in_map_iff in Hr as (r0 & <- & H0). cbn [snd t_cols t1]. now apply FT. }
  cbn [negb andb] in H. destruct (Z.eqb (Z.of_nat (List.length (t_rows t1))) (n_before p)) eqn:EN; [|discriminate]. apply Z.eqb_eq in EN. cbn [negb raise_if] in H.
  assert (LP : forall t3 : table ikey, subseq (t_rows t3) (t_rows t1) -> Z.of_nat (List.length (t_rows t3)) = n_pre d -> (n_pre d <= 2 ^ 53)%Z).
  { intros t3 SQ EL. apply subseq_length in SQ. lia. }
  destruct (0 <? pretest p)%Z eqn:EPT.
  - destruct (trim_pivoted_cases p d HD shuffle_of HSH t1 g F1 EN HB) as [CA CB].
    assert (PD : ~ pretrims p \/ In (metric p, "pretest") (t_cols t1)).
    { destruct (in_dec col_dec (metric p, "pretest") (t_cols t1)) as [Y|N]; [now right|left].
      intros X. destruct (CB X N) as (g' & e & E). cbn [fst snd] in H. rewrite E in H. discriminate. }
    destruct (CA PD) as (g' & t3 & E & EC & SQ & EL). cbn [fst snd] in H. rewrite E in H. cbn [fst snd] in H. rewrite EL, Z.eqb_refl in H. cbn [negb raise_if] in H.
    destruct (primary_metric_stats argsort d t3) as [st'|e] eqn:ES; [|discriminate].
    assert (st' = st) by congruence. subst st'. apply (crossover_stats_finite t3); eauto. exact (finite_subseq t1 t3 F1 EC SQ).
  - cbn [fst snd] in H. destruct (Z.eqb _ _) eqn:EQ; [|discriminate]. apply Z.eqb_eq in EQ. cbn [negb raise_if] in H.
    destruct (primary_metric_stats argsort d t1) as [st'|e] eqn:ES; [|discriminate].
    assert (st' = st) by congruence. subst st'. apply (crossover_stats_finite t1); auto. apply (LP t1); auto. apply subseq_refl.
Qed.
End Finite.

(** the minimum detectable effect of a crossover design is a number (for a regular design it can be
    undefined, see c73_constant_pretest_gives_nan) *)
Theorem c85_crossover_effects_are_finite :
  forall T argsort G (shuffle_of sample_of : G -> nat -> list nat * G) s f g s1 x1,
    sorts argsort -> (forall g, shuffles (fun k => fst (shuffle_of g k))) ->
    let p := par (sm_design s) in
    mk_design p = Ok (sm_design s) -> crossover p = true -> (n_before p < 2 ^ 53)%Z ->
    0 < B2R (power p) < 1 -> 0 < B2R (alpha p) < 2 ->
    calm (frame_rows f [metric p] (sm_item s) (sm_week s) None) ->
    estimate_minimum_detectable_effect T argsort shuffle_of sample_of s (f, g) = ((s1, x1), Ok tt) ->
    exists a sd e, sm_avg s1 = Some (Fin a) /\ sm_sd s1 = Some (Fin sd) /\ 0 <= sd /\ sm_mde s1 = Some (Fin e).
Proof.
  intros T argsort G shuffle_of sample_of s f g s1 x1 HS HSH p HD CR HB HPW HAL HC H.
  destruct (estimate_average_primary_metric_stats argsort shuffle_of sample_of s (f, g)) as [x [[[a sd] k]|er]] eqn:EA.
  2:{ unfold estimate_minimum_detectable_effect in H. rewrite EA in H. discriminate. }
  destruct (c73_effect_never_fails T argsort G shuffle_of sample_of s _ _ _ _ _ EA) as (s' & mde & rel & H' & EM & A1 & A2 & A3 & _).
  rewrite H in H'. assert (s' = s1) by congruence. subst s'. clear H H'.
  destruct (c73_averages_over_the_start_weeks argsort shuffle_of sample_of (sm_design s) s eq_refl f g x a sd k EA) as (_ & EK & starts & stats & _ & NE & F2 & VA & VS & _).
  assert (X : exists avs vs, map (fun st => fst (fst st)) stats = data avs /\ map (fun st => snd (fst st)) stats = data vs /\ (forall v, In v vs -> 0 <= v)).
  { clear - F2 HS HSH HD CR HB HC. induction F2 as [|w st l l' (g1 & g2 & E & _) _ (avs & vs & I1 & I2 & I3)].
    - exists [], []. repeat split. intros v [].
    - destruct (crossover_week_finite argsort HS p (sm_design s) HD CR HB shuffle_of sample_of HSH s w f g1 _ st eq_refl HC E) as (a & v & E1 & V).
      exists (a :: avs), (v :: vs). unfold data in *. cbn [map]. rewrite E1, I1, I2. repeat split. intros v' [<-|I]; auto. }
  destruct X as (avs & vs & E1 & E2 & V). rewrite (VA avs E1) in *. rewrite (VS vs E2 V) in *. clear VA VS.
  exists (avg avs), (sqrt (avg vs)). assert (N0 := sqrt_pos (avg vs)).
  assert (P50 := post_items p (sm_design s) HD).
  destruct (c73_minimum_detectable_effect T p (avg avs) (sqrt (avg vs)) k N0 ltac:(lia) HPW HAL) as [M _].
  fold p in EM. rewrite M in EM.
  assert (E0 := f_equal (fun r => match r with Ok (m, _) => m | Err _ => NaN end) EM). cbv beta iota in E0.
  eexists. split; [exact A1|]. split; [exact A2|]. split; [exact N0|]. rewrite A3, <- E0. reflexivity.
Qed.

Theorem c85_estimated_crossover_designs_can_be_validated :
  forall T argsort G (shuffle_of sample_of : G -> nat -> list nat * G) arms_of choice_of s f g s1 x1,
    sorts argsort -> (forall g, shuffles (fun k => fst (shuffle_of g k))) -> samples_positions sample_of -> draws_arms arms_of ->
    (forall g l, l <> [] -> In (fst (choice_of g l)) l) ->
    let p := par (sm_design s) in let rows := frame_rows f [metric p] (sm_item s) (sm_week s) None in
    mk_design p = Ok (sm_design s) -> crossover p = true -> (n_before p < 2 ^ 53)%Z ->
    0 < B2R (power p) < 1 -> 0 < B2R (alpha p) < 2 ->
    calm rows -> (Z.of_nat (List.length rows) <= 2 ^ 53)%Z ->
    plain_name (metric p) -> plain_name (sm_item s) -> ~ has_double_underscore (sm_treatment s) ->
    metric p <> sm_treatment s -> sm_item s <> sm_treatment s ->
    estimate_minimum_detectable_effect T argsort shuffle_of sample_of s (f, g) = ((s1, x1), Ok tt) ->
    fst x1 = f /\
    forall n g', exists s2 x2, run_validate_design T argsort shuffle_of sample_of arms_of choice_of s1 n (f, g') = ((s2, x2), Ok tt).
Proof.
  intros T argsort G shuffle_of sample_of arms_of choice_of s f g s1 x1 HS HSH HSP HAR HCH p rows HD CR HB HPW HAL HC LB PM PI NU N1 N2 H.
  destruct (c85_crossover_effects_are_finite T argsort G shuffle_of sample_of s f g s1 x1 HS HSH HD CR HB HPW HAL HC H) as (a0 & sd0 & e & _ & _ & _ & EM).
  assert (PE := par_design p (sm_design s) HD).
  unfold estimate_minimum_detectable_effect in H.
  destruct (estimate_average_primary_metric_stats argsort shuffle_of sample_of s (f, g)) as [x [[[a sd] k]|]] eqn:EA; [|discriminate].
  destruct (minimum_detectable_effect_of _ _ _ _ _) as [[mde rel]|]; [|discriminate].
  assert (ES : s1 = mkSim (sm_design s) (sm_item s) (sm_week s) (sm_min s) (sm_max s) (sm_period s) (sm_treatment s) (sm_threshold s)
              (Some mde) (Some rel) (Some a) (Some sd) (sm_aa s) (sm_ab s)) by congruence.
  assert (x1 = x) by congruence. subst x1. clear H.
  unfold estimate_average_primary_metric_stats in EA. unfold sbind at 1 in EA. unfold sret at 1 in EA.
  destruct (valid_start_week_ids s) as [starts|] eqn:EV; [|discriminate]. unfold sbind at 1 in EA.
  destruct (smap (estimate_primary_metric_stats argsort shuffle_of sample_of s) starts (f, g)) as [y [stats|]] eqn:EM2; [|discriminate].
  unfold sret in EA. assert (y = x) by congruence. subst y.
  apply (smap_inv argsort shuffle_of sample_of (sm_design s) s eq_refl) in EM2 as [EF F2].
  assert (NE : starts <> []). { intros ->. inversion F2; subst. discriminate. }
  destruct x as [f1 g1]. cbn [fst] in EF. subst f1. split; [reflexivity|]. intros n g'.
  assert (HW : forall w lab, In w starts -> label_fun p w = Ok lab ->
     readable p f (sm_item s) (sm_week s) (sm_period s) /\
     (forall q, In q (test_periods p) -> observed p f lab (sm_item s) (sm_week s) q) /\
     (exists n, n_items p f lab (sm_item s) (sm_week s) n /\ Z.of_nat n = n_before p) /\
     (pretrims p -> observed p f lab (sm_item s) (sm_week s) "pretest")).
  { intros w lab Iw HL.
    assert (X : exists g1 y st, estimate_primary_metric_stats argsort shuffle_of sample_of s w (f, g1) = (y, Ok st)).
    { clear - F2 Iw. induction F2 as [|w' st l l' (ga & gb & E) _ IH]; [destruct Iw|destruct Iw as [->|Iw]; eauto]. }
    destruct X as (ga & y & st & E).
    apply (c73_estimation_succeeds_iff argsort HS shuffle_of sample_of HSH p (sm_design s) HD HB s eq_refl w lab f ga HL HC). eauto. }
  assert (V1 : valid_start_week_ids s1 = Ok starts) by (rewrite <- EV, ES; reflexivity).
  unfold run_validate_design. rewrite EM.
  assert (ONE : forall g0, exists g' r, simulate_once T argsort shuffle_of sample_of arms_of choice_of s1 (Fin e) (f, g0) = ((f, g'), Ok r)).
  { intros g0. subst s1.
    apply (simulation_runs T argsort HS p (sm_design s) HD HB shuffle_of sample_of arms_of choice_of HSH HSP HAR CR _ f g0 e starts); auto. }
  assert (ALL : forall l g0, exists y rs, smap (fun _ : nat => simulate_once T argsort shuffle_of sample_of arms_of choice_of s1 (Fin e)) l (f, g0) = (y, Ok rs)).
  { induction l as [|i l IH]; intros g0; cbn [smap]; [unfold sret; eauto|]. unfold sbind.
    destruct (ONE g0) as (g2 & r & ->). destruct (IH g2) as (y & rs & ->). unfold sret. eauto. }
  destruct (ALL (seq 0 n) g') as (y & rs & ->). eauto.
Qed.

(** *** What is drawn in a simulation *)
(** the numbers drawn from the generator, in this order: the start week, the positions of the bootstrap
    sample, the order before trimming (only if something is trimmed) and the arms *)
Definition sampled_row {K} (rows : list (K * list num)) (i position : nat) (r : ikey * list num) : Prop :=
  exists r0, nth_error rows position = Some r0 /\ r = (IInt (Z.of_nat i), snd r0).

Lemma plain_table {G} (arms_of : G -> nat -> list Z * G) p m t g1 item treat g2 a aa :
  plain_name m -> (forall c, In c (t_cols t) -> fst c = m /\ In (snd c) period_names) ->
  apply_random_treatment_assignment arms_of t g1 item treat = (g2, Ok a) -> as_table p a = Ok aa -> aa = mkT (t_cols t) (a_rows a).
Proof.
  intros PN PC EA ET.
  assert (AC : a_cols a = map unflat_name (map flat_name (t_cols t))).
  { unfold apply_random_treatment_assignment in EA. destruct (orb _ _); [discriminate|]. destruct (negb _); [discriminate|].
    destruct (arms_of _ _) as [arms g4]. destruct (existsb (String.eqb item) _); [discriminate|]. destruct (existsb (String.eqb treat) _); [discriminate|].
    assert (AC := f_equal (fun r => match snd r with Ok x => a_cols x | Err _ => [] end) EA). cbn [snd a_cols] in AC. now rewrite <- AC. }
  unfold as_table in ET. rewrite AC, map_map in ET. rewrite (mapM_total _ (fun c => (hd "" c, hd "" (tl c)))) in ET.
  - cbn [bind] in ET. assert (X : t_cols t = map (fun c => (hd "" c, hd "" (tl c))) (map (fun x => unflat_name (flat_name x)) (t_cols t))).
    { rewrite map_map. rewrite <- (map_id (t_cols t)) at 1. apply map_ext_in. intros [m' sx] Hc. destruct (PC _ Hc) as [E Hs]. cbn [fst snd] in *. subst m'.
      rewrite (proj2 (c69_name_round_trip m sx Hs) PN). reflexivity. }
    rewrite X. congruence.
  - intros c Hc. apply in_map_iff in Hc as ([m' sx] & <- & Hc). destruct (PC _ Hc) as [E Hs]. cbn [fst snd] in *. subst m'.
    rewrite (proj2 (c69_name_round_trip m sx Hs) PN). reflexivity.
Qed.

Lemma first_position_id (items : list ikey) (arms : list Z) : NoDup items -> List.length arms = List.length items ->
  map (fun k => nth (first_position k items) arms 0%Z) items = arms.
Proof.
  revert arms. induction items as [|k items IH]; intros [|a arms] ND L; try discriminate; [reflexivity|].
  inversion ND as [|? ? NI ND']; subst. cbn [map first_position]. rewrite (proj2 (ikeqb_eq k k) eq_refl). cbn [nth]. f_equal.
  transitivity (map (fun k => nth (first_position k items) arms 0%Z) items); [|apply (IH arms ND'); cbn in L; lia]. apply map_ext_in. intros x Hx.
  assert (NE : ikeqb x k = false) by (apply not_true_iff_false; rewrite ikeqb_eq; intros ->; contradiction). rewrite NE. reflexivity.
Qed.

Theorem c85_what_a_simulation_draws :
  forall T argsort G (shuffle_of sample_of : G -> nat -> list nat * G) arms_of choice_of s mde f g f' g' ra rb,
    samples_positions sample_of -> draws_arms arms_of ->
    simulate_once T argsort shuffle_of sample_of arms_of choice_of s mde (f, g) = ((f', g'), Ok (ra, rb)) ->
    let p := par (sm_design s) in
    plain_name (metric p) /\
    exists starts t0 sample kept g2 aa,
      valid_start_week_ids s = Ok starts /\ starts <> [] /\
      pivot_time_assignment f p (fst (choice_of g starts)) [metric p] (sm_item s) (sm_week s) None (sm_period s) = (f', Ok t0) /\
      let draw := sample_of (snd (choice_of g starts)) (List.length (t_rows t0)) in
      List.length sample = List.length (t_rows t0) /\
      (forall i r, nth_error sample i = Some r -> exists position, nth_error (fst draw) i = Some position /\ sampled_row (t_rows t0) i position r) /\
      (if (0 <? pretest p)%Z then trim_pivoted shuffle_of p (mkT (t_cols t0) sample) (snd draw) = (g2, Ok (mkT (t_cols t0) kept))
       else kept = sample /\ g2 = snd draw) /\
      g' = snd (arms_of g2 (List.length kept)) /\
      t_cols aa = t_cols t0 /\
      map (fun r => (fst (fst r), snd r)) (t_rows aa) = kept /\
      map (fun r => snd (fst r)) (t_rows aa) = fst (arms_of g2 (List.length kept)) /\
      analyze_single_metric T argsort sim_arm aa true p (metric p) None None = Ok ra.
Proof.
  intros T argsort G shuffle_of sample_of arms_of choice_of s mde f g f' g' ra rb HSP HAR H p.
  assert (PN : plain_name (metric p)).
  { apply NNPP. intros NP.
    set (s0 := mkSim (sm_design s) (sm_item s) (sm_week s) (sm_min s) (sm_max s) (sm_period s) (sm_treatment s) (sm_threshold s) (Some mde) (sm_rel s) (sm_avg s) (sm_sd s) (sm_aa s) (sm_ab s)).
    assert (H0 : simulate_once T argsort shuffle_of sample_of arms_of choice_of s0 mde (f, g) = ((f', g'), Ok (ra, rb))) by exact H.
    assert (X : exists s1 x1, run_validate_design T argsort shuffle_of sample_of arms_of choice_of s0 1 (f, g) = ((s1, x1), Ok tt)).
    { unfold run_validate_design. cbn [sm_mde s0]. change (sm_mde s0) with (Some mde). cbv iota. cbn [seq smap]. unfold sbind. rewrite H0. unfold sret. eauto. }
    destruct X as (s1 & x1 & X). exact (c69_other_metric_names_cannot_be_validated T argsort G shuffle_of sample_of arms_of choice_of s0 0 (f, g) s1 x1 NP X). }
  split; auto.
  unfold simulate_once in H. fold p in H. unfold sbind at 1 in H. unfold sret at 1 in H.
  destruct (valid_start_week_ids s) as [starts|]; [|discriminate]. unfold sbind at 1 in H.
  destruct starts as [|w starts]; [discriminate|]. unfold on_rng at 1 in H. cbn [fst snd] in H.
  destruct (choice_of g (w :: starts)) as [start g1] eqn:EC. unfold sbind at 1 in H. cbn [fst snd] in H.
  destruct (get_pivoted_and_trimmed shuffle_of sample_of s start true (f, g1)) as [[f2 g2] [t|]] eqn:EG; [|discriminate].
  unfold sbind at 1 in H. unfold on_rng in H. cbn [fst snd] in H.
  destruct (apply_random_treatment_assignment arms_of t g2 (sm_item s) (sm_treatment s)) as [g3 [a|]] eqn:EA; [|discriminate].
  unfold sret in H.
  destruct (as_table (metric p) a) as [aa|] eqn:ET; [|discriminate]. cbn [bind] in H.
  destruct (analyze_single_metric T argsort sim_arm aa true p (metric p) None None) as [ra'|] eqn:HA; [|discriminate]. cbn [bind] in H.
  assert (ra' = ra /\ f' = f2 /\ g' = g3) as (-> & -> & ->).
  { destruct (bind _ _) as [z|] eqn:EZ; [|discriminate]. apply bind_ok in EZ as (ab & _ & EZ). apply bind_ok in EZ as (rb' & _ & EZ). repeat split; congruence. }
  clear H.
  destruct (c68_simulated_rows_have_distinct_ids G shuffle_of sample_of s start f g1 f2 g2 t HSP EG) as (NDI & _).
  exists (w :: starts). rewrite EC. cbn [fst snd].
  unfold get_pivoted_and_trimmed, sbind, on_frame, on_rng, sret in EG. fold p in EG. cbn [fst snd] in EG.
  destruct (pivot_time_assignment f p start _ _ _ _ _) as [f1 [t0|e]] eqn:EP; [|discriminate]. cbn [fst snd] in EG.
  set (t1 := mkT (t_cols t0) (map (fun r => (IStr (fst (fst r)), snd r)) (t_rows t0))) in *.
  destruct (bootstrap_sample_data sample_of (as_indexed (sm_item s) t1) g1 (sm_item s)) as [g4 [x|e]] eqn:EB; [|discriminate].
  cbn [bind fst snd negb andb raise_if] in EG.
  assert (DR := EB). apply c68_the_drawn_rows in DR as [E4 DR]; auto.
  apply c68_copies_of_rows_with_fresh_ids in EB as (_ & BL & _ & _ & BR & _); auto; [|cbn; discriminate].
  change (x_multi (as_indexed (sm_item s) t1)) with false in BR. cbv iota in BR.
  assert (LX : List.length (x_rows (as_indexed (sm_item s) t1)) = List.length (t_rows t0)) by (cbn; now rewrite !map_length).
  rewrite LX in BL, E4, DR.
  set (t2 := of_indexed (t_cols t1) x) in *.
  exists t0, (t_rows t2), (t_rows t), g2, aa. split; auto. split; [discriminate|].
  assert (EF : f1 = f2 /\ (if (0 <? pretest p)%Z then trim_pivoted shuffle_of p t2 g4 = (g2, Ok t) else t2 = t /\ g4 = g2)).
  { destruct (0 <? pretest p)%Z.
    - cbn [fst snd] in EG. destruct (trim_pivoted shuffle_of p t2 g4) as [g5 [t5|e]] eqn:ETP; [|discriminate]. cbn [fst snd] in EG. split; [congruence|].
      assert (g5 = g2) by congruence. assert (t5 = t) by congruence. now subst.
    - cbn [fst snd] in EG. repeat split; congruence. }
  destruct EF as [-> TP]. split; auto. cbv zeta.
  assert (CT : t_cols t = t_cols t0).
  { destruct (0 <? pretest p)%Z.
    - unfold trim_pivoted in TP. destruct (trim_outliers _ _ _ _ _) as [out|]; [|discriminate]. destruct (andb _ _); [discriminate|].
      assert (X := f_equal (fun r => match snd r with Ok z => t_cols z | Err _ => [] end) TP). cbn [snd t_cols] in X. now rewrite <- X.
    - destruct TP as [<- _]. reflexivity. }
  split; [cbn [t2 of_indexed t_rows]; unfold t2; cbn; now rewrite map_length|].
  split.
  { intros i r Hr. unfold t2, of_indexed in Hr. cbn [t_rows] in Hr. rewrite nth_error_map in Hr.
    destruct (nth_error (x_rows x) i) as [r'|] eqn:E1; [|discriminate]. cbn [option_map] in Hr.
    assert (Y : exists position, nth_error (fst (sample_of g1 (List.length (t_rows t0)))) i = Some position /\
       exists r0, nth_error (x_rows (as_indexed (sm_item s) t1)) position = Some r0 /\ snd r' = snd r0).
    { clear - DR E1. revert i E1. induction DR as [|position y l l' Hy _ IH]; intros [|i] E1; cbn in E1; try discriminate; [|cbn; exact (IH i E1)].
      assert (y = r') by congruence. subst y. exists position. split; [reflexivity|exact Hy]. }
    destruct Y as (position & EPs & r0 & E0 & ES). exists position. split; auto.
    destruct (BR _ _ E1) as (_ & _ & _ & EI). unfold as_indexed, t1 in E0. cbn [x_rows t_rows] in E0. rewrite !nth_error_map in E0.
    change (string * list Z)%type with akey in E0. destruct (nth_error (t_rows t0) position) as [q|] eqn:EQ; [|cbn in E0; discriminate]. cbn [option_map] in E0.
    exists q. split; auto. assert (r = (hd (IStr "") (fst r'), snd r')) by congruence. subst r. rewrite EI. cbn [hd]. f_equal. rewrite ES.
    assert (Z := f_equal (fun o => match o with Some z => snd z | None => [] end) E0). cbn [snd fst] in Z. now rewrite <- Z. }
  split.
  { subst g4. destruct (0 <? pretest p)%Z.
    - change (mkT (t_cols t0) (t_rows t2)) with t2. rewrite TP. f_equal. f_equal. destruct t; cbn in CT |- *. now rewrite CT.
    - destruct TP as [<- <-]. split; reflexivity. }
  destruct (c69_every_item_gets_one_arm arms_of t g2 (sm_item s) (sm_treatment s) g3 a HAR EA) as (AR & _).
  assert (DI : dedup ikeqb (map fst (t_rows t)) = map fst (t_rows t)) by (apply dedup_id; auto; apply ikeqb_eq).
  assert (PC : forall c, In c (t_cols t) -> fst c = metric p /\ In (snd c) period_names).
  { rewrite CT. assert (EP' := EP). unfold pivot_time_assignment in EP'. destruct (has_col _ f); [discriminate|]. destruct (existsb _ _); [discriminate|].
    destruct (label_fun _ _); [|discriminate]. destruct (pivot_rows _ _ _ _ _ _) as [t3|] eqn:E3; [|discriminate].
    assert (t3 = t0) by congruence. subst t3. eapply pivot_columns. exact E3. }
  rewrite (plain_table arms_of (metric p) (metric p) t g2 _ _ g3 a aa PN PC EA ET) in *. cbn [t_cols t_rows].
  assert (X : g3 = snd (arms_of g2 (List.length (t_rows t))) /\ map (fun r => snd (fst r)) (a_rows a) = fst (arms_of g2 (List.length (t_rows t)))).
  { unfold apply_random_treatment_assignment in EA. destruct (orb _ _); [discriminate|]. destruct (negb _); [discriminate|].
    rewrite DI, map_length in EA. destruct (HAR g2 (List.length (t_rows t))) as [LA _].
    destruct (arms_of g2 (List.length (t_rows t))) as [arms g5] eqn:EAR. destruct (existsb (String.eqb (sm_item s)) _); [discriminate|]. destruct (existsb (String.eqb (sm_treatment s)) _); [discriminate|].
    split; [cbn [snd]; congruence|].
    assert (AC := f_equal (fun r => match snd r with Ok x => a_rows x | Err _ => [] end) EA). cbn [snd a_rows] in AC. rewrite <- AC, map_map. cbn [fst snd].
    cbn [fst] in LA. assert (Q := first_position_id (map fst (t_rows t)) arms NDI ltac:(now rewrite map_length)). rewrite map_map in Q. exact Q. }
  destruct X as [X1 X2]. repeat (split; auto).
Qed.

(** every simulation goes on with the generator where the one before has left it *)
Theorem c85_simulations_follow_each_other :
  forall T argsort G (shuffle_of sample_of : G -> nat -> list nat * G) arms_of choice_of s n x s' x' mde, sm_mde s = Some mde ->
    run_validate_design T argsort shuffle_of sample_of arms_of choice_of s n x = ((s', x'), Ok tt) ->
    exists (states : nat -> frame * G) results, states 0%nat = x /\ states n = x' /\ List.length results = n /\
      sm_aa s' = Some (map fst results) /\ sm_ab s' = Some (map snd results) /\
      forall i r, nth_error results i = Some r ->
        simulate_once T argsort shuffle_of sample_of arms_of choice_of s mde (states i) = (states (S i), Ok r).
Proof.
  intros T argsort G shuffle_of sample_of arms_of choice_of s n x s' x' mde EM H. unfold run_validate_design in H. rewrite EM in H.
  destruct (smap (fun _ : nat => simulate_once T argsort shuffle_of sample_of arms_of choice_of s mde) (seq 0 n) x) as [y [results|]] eqn:ER; [|discriminate].
  assert (ES : sm_aa s' = Some (map fst results) /\ sm_ab s' = Some (map snd results) /\ y = x').
  { assert (X := f_equal (fun r => (sm_aa (fst (fst r)), sm_ab (fst (fst r)), snd (fst r))) H). cbn in X. split; [|split]; congruence. }
  destruct ES as (E1 & E2 & ->). clear H.
  enough (X : forall l x results, smap (fun _ : nat => simulate_once T argsort shuffle_of sample_of arms_of choice_of s mde) l x = (x', Ok results) ->
    exists states : nat -> frame * G, states 0%nat = x /\ states (List.length l) = x' /\ List.length results = List.length l /\
      forall i r, nth_error results i = Some r -> simulate_once T argsort shuffle_of sample_of arms_of choice_of s mde (states i) = (states (S i), Ok r)).
  { destruct (X _ _ _ ER) as (states & A & B & C & D). rewrite seq_length in B, C. exists states, results. auto 10. }
  clear. induction l as [|j l IH]; intros x results H; cbn [smap] in H.
  - unfold sret in H. assert (x = x') by congruence. assert (results = []) by congruence. subst. exists (fun _ => x'). repeat split.
    intros [|i] r E; discriminate.
  - unfold sbind in H. destruct (simulate_once T argsort shuffle_of sample_of arms_of choice_of s mde x) as [x1 [r1|]] eqn:E1; [|discriminate].
    destruct (smap _ l x1) as [x2 [rs|]] eqn:E2; [|discriminate]. unfold sret in H.
    assert (x2 = x') by congruence. assert (results = r1 :: rs) by congruence. subst x2 results.
    destruct (IH _ _ E2) as (states & A & B & C & D).
    exists (fun i => match i with O => x | S k => states k end). cbn [List.length]. repeat split; auto.
    intros [|i] r E; cbn in E; [|auto]. assert (r = r1) by congruence. subst r. rewrite A. exact E1.
Qed.

(** *** A case: sixty items in four weeks, the crossover design of c73_example *)
Lemma default_power : 0 < B2R (flit 8 10) < 1.
Proof.
  replace (B2R (flit 8 10)) with (SF2R radix2 (B2SF (flit 8 10))) by apply SF2R_B2SF.
  replace (B2SF (flit 8 10)) with (SpecFloat.S754_finite false 7205759403792794 (-53)) by (vm_compute; reflexivity).
  unfold SF2R, F2R. cbn [cond_Zopp Fnum Fexp]. simpl bpow. lra.
Qed.
Lemma default_level : 0 < B2R (flit 5 100) < 2.
Proof.
  replace (B2R (flit 5 100)) with (SF2R radix2 (B2SF (flit 5 100))) by apply SF2R_B2SF.
  replace (B2SF (flit 5 100)) with (SpecFloat.S754_finite false 7205759403792794 (-57)) by (vm_compute; reflexivity).
  unfold SF2R, F2R. cbn [cond_Zopp Fnum Fexp]. simpl bpow. lra.
Qed.

Example c85_example : exists s s1 x1 s2 x2 e aa ab,
  mk_sim (panel_design true) panel_frame "item" "week" 1 "period" "arm" (1 / 20) = Ok s /\
  estimate_minimum_detectable_effect cauchy argsort_ref (fun (g : unit) n => (seq 0 n, g)) same_row s (panel_frame, tt) = ((s1, x1), Ok tt) /\
  sm_mde s1 = Some (Fin e) /\
  run_validate_design cauchy argsort_ref (fun (g : unit) n => (seq 0 n, g)) same_row alternate (fun g l => (hd 0%Z l, g)) s1 5 x1 = ((s2, x2), Ok tt) /\
  sm_aa s2 = Some aa /\ sm_ab s2 = Some ab /\ List.length aa = 5%nat /\ Forall2 (moved_by_a_share e) aa ab.
Proof.
  destruct (c73_example true) as (s & s1 & x1 & ES & _ & H & _).
  destruct panel_rows as (rows & ER & HC & _).
  assert (SD : sm_design s = panel_design true /\ sm_item s = "item" /\ sm_week s = "week" /\ sm_treatment s = "arm").
  { assert (X := f_equal (fun r => match r with Ok x => Some (sm_design x, sm_item x, sm_week x, sm_treatment x) | Err _ => None end) ES).
    assert (Y : Some (panel_design true, "item", "week", "arm") = Some (sm_design s, sm_item s, sm_week s, sm_treatment s)) by exact X.
    repeat split; congruence. }
  destruct SD as (D1 & D2 & D3 & D4).
  assert (HC' : calm (frame_rows panel_frame [metric (par (sm_design s))] (sm_item s) (sm_week s) None)).
  { rewrite D1, D2, D3. cbn [par panel_design]. change (metric (panel_params true)) with "clicks". now rewrite ER. }
  assert (HL : (Z.of_nat (List.length (frame_rows panel_frame [metric (par (sm_design s))] (sm_item s) (sm_week s) None)) <= 2 ^ 53)%Z).
  { rewrite D1, D2, D3. vm_compute. discriminate. }
  assert (HD : mk_design (par (sm_design s)) = Ok (sm_design s)) by (rewrite D1; apply panel_design_ok).
  assert (CR : crossover (par (sm_design s)) = true) by (now rewrite D1).
  assert (HN : (n_before (par (sm_design s)) < 2 ^ 53)%Z) by (rewrite D1; reflexivity).
  assert (HP : 0 < B2R (power (par (sm_design s))) < 1) by (rewrite D1; apply default_power).
  assert (HA : 0 < B2R (alpha (par (sm_design s))) < 2) by (rewrite D1; apply default_level).
  assert (HSH : forall g : unit, shuffles (fun k => fst (seq 0 k, g))) by (intros g k; apply Permutation_refl).
  destruct (c85_crossover_effects_are_finite cauchy argsort_ref unit (fun g n => (seq 0 n, g)) same_row s panel_frame tt s1 x1 argsort_ref_sorts HSH HD CR HN HP HA HC' H)
    as (a & sd & e & _ & _ & _ & EM).
  assert (PL : forall n, unflat_name (flat_name (n, "test")) = [n; "test"] -> plain_name n) by (intros n E; apply (c69_name_round_trip n "test"); [simpl; auto|exact E]).
  destruct (c85_estimated_crossover_designs_can_be_validated cauchy argsort_ref unit (fun g n => (seq 0 n, g)) same_row alternate (fun g l => (hd 0%Z l, g))
    s panel_frame tt s1 x1 argsort_ref_sorts HSH same_row_samples alternate_draws) as (EX & HV); auto.
  - intros g [|w l] NE; [congruence|now left].
  - rewrite D1. now apply PL.
  - rewrite D2. now apply PL.
  - rewrite D4. now apply PL.
  - rewrite D1, D4. discriminate.
  - rewrite D2, D4. discriminate.
  - destruct (HV 5%nat tt) as (s2 & x2 & HV5). clear HV. rename HV5 into HV.
    assert (X : sm_design s1 = sm_design s /\ sm_item s1 = sm_item s /\ sm_week s1 = sm_week s /\ fst x1 = panel_frame).
    { unfold estimate_minimum_detectable_effect in H.
      destruct (estimate_average_primary_metric_stats argsort_ref (fun (g : unit) n => (seq 0 n, g)) same_row s (panel_frame, tt)) as [x [[[a1 sd1] k]|]] eqn:EA; [|discriminate].
      destruct (minimum_detectable_effect_of _ _ _ _ _) as [[mde rel]|]; [|discriminate].
      apply c73_averages_over_the_start_weeks with (d := sm_design s) in EA as (EF & _); auto.
      assert (Y := f_equal (fun r => (sm_design (fst (fst r)), sm_item (fst (fst r)), sm_week (fst (fst r)), snd (fst r))) H). cbn in Y. repeat split; congruence. }
    destruct X as (S1 & S2 & S3 & S4). destruct x1 as [f1 []]. cbn [fst] in S4. subst f1.
    destruct (c85_simulated_effects_are_found cauchy argsort_ref unit (fun g n => (seq 0 n, g)) same_row alternate (fun g l => (hd 0%Z l, g)) s1 5 panel_frame tt s2 x2 e
      argsort_ref_sorts same_row_samples alternate_draws) as (_ & aa & ab & A1 & A2 & A3 & A4); rewrite ?S1, ?S2, ?S3; auto.
    exists s, s1, (panel_frame, tt), s2, x2, e, aa, ab. repeat (split; auto).
    clear - A4 D1 S1. induction A4 as [|ra rb l l' (_ & M & _) _ IH]; constructor; auto.
    apply M; rewrite S1, D1; [reflexivity|apply f0_val].
Qed.

Print Assumptions c85_simulated_effects_are_found.
Print Assumptions c85_what_a_simulation_draws.
Print Assumptions c85_simulations_follow_each_other.
Print Assumptions c85_crossover_effects_are_finite.
Print Assumptions c85_estimated_crossover_designs_can_be_validated.
