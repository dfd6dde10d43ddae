(** C92, continued: which validated designs have a deep dive. *)
From Coq Require Import ZArith Reals Lra Lia List String Bool Permutation Sorting.Sorted.
From Flocq Require Import Core BinarySingleNaN.
Require Import Verif.Base Verif.Num Verif.NumOrd Verif.F64 Verif.Frame Verif.ListLib Verif.Design_Model Verif.Design_Spec Verif.Design_Proofs Verif.Design_Yaml_Proofs Verif.Design_Props
  Verif.Trimmed_Model Verif.Trimmed_Spec Verif.Moments Verif.Trimmed_Proofs Verif.Trimmed_Real Verif.Trimmed_Props
  Verif.Cuped_Model Verif.Cuped_Props Verif.Stats_Model Verif.Stats_Num Verif.Stats_Props Verif.Tests_Proofs
  Verif.Tests_Props Verif.Periods_Model Verif.Periods_Proofs Verif.Periods_Props Verif.Rows_Model Verif.Rows_Spec Verif.Pivot_Spec Verif.Assign_Spec Verif.Assign_Model Verif.Assign_Proofs Verif.Assign_Props
  Verif.Pivot_Model Verif.Pivot_Proofs Verif.Pivot_Props Verif.Analysis_Spec Verif.Analysis_Model Verif.Analysis_Props Verif.Analysis_Props2 Verif.Effect_Props
  Verif.Simulation_Model Verif.Sim_Names_Props Verif.Sim_Boot_Props Verif.Sim_State_Props Verif.Sim_Stats_Props Verif.Sim_Estimate_Props Verif.Sim_Effect_Props
  Verif.Deepdive_Model Verif.Deepdive_Props.
Import ListNotations.
Open Scope string_scope.
Open Scope list_scope.
Open Scope R_scope.

(** *** p-values *)
Definition probability_or_nan (x : num) : Prop := x = NaN \/ exists r, x = Fin r /\ 0 <= r <= 1.
Lemma two_sided_p T d se df st p : ttest_from_stats T d se df "two-sided" = Ok (st, p) -> probability_or_nan p.
Proof.
  unfold ttest_from_stats. cbn [String.eqb Ascii.eqb Bool.eqb]. intros H. assert (E : p = nmul (Fin 2) (t_cdf T df (nmul (Fin (-1)) (nabs (ndiv d se))))) by congruence.
  rewrite E. unfold t_cdf. destruct (valid_df df) eqn:V; [|now left]. assert (C0 := cdf_0 T df V).
  destruct (ndiv d se) as [x| | |]; cbn [nabs]; rewrite nmul_neg1; cbn [nneg].
  - right. eexists. split; [reflexivity|]. assert (X := td_range T df (- Rabs x) V). assert (A := Rabs_pos x).
    assert (td_cdf T df (- Rabs x) <= 1 / 2); [|lra]. rewrite <- C0. destruct (Rle_lt_or_eq_dec _ _ A) as [L|L]; [left; apply td_incr; auto; lra|rewrite <- L, Ropp_0; lra].
  - right. eexists. split; [reflexivity|]. lra.
  - right. eexists. split; [reflexivity|]. lra.
  - now left.
Qed.
Lemma finished_p T div a se m1 m2 e1 e2 corr df n alpha r : finish_test T div a se m1 m2 e1 e2 corr df n "two-sided" alpha = Ok r -> probability_or_nan (r_p_value r).
Proof. intros H. apply finish_test_ok in H. eapply two_sided_p. apply (fi_test _ _ _ _ _ _ _ _ _ _ _ _ _ _ H). Qed.

Lemma paired_p T argsort xs ys q d1 d2 alpha r : yuens_t_test_paired T argsort xs ys q d1 d2 "two-sided" alpha = Ok r -> probability_or_nan (r_p_value r).
Proof.
  unfold yuens_t_test_paired. intros H. apply bind_ok in H as (u & _ & H). apply bind_ok in H as (ra & _ & H). destruct ra as [[e1 e2]|].
  - apply bind_ok in H as (st & _ & H). apply bind_ok in H as (t & _ & H). destruct (difference_of_ratios _ _) as [[[[[[? ?] ?] ?] ?] ?] ?]. now apply finished_p in H.
  - apply bind_ok in H as (st & _ & H). apply bind_ok in H as (t & _ & H). now apply finished_p in H.
Qed.
Lemma ind_p T argsort xs ys q d1 d2 ev alpha r : yuens_t_test_ind T argsort xs ys q d1 d2 ev "two-sided" alpha = Ok r -> probability_or_nan (r_p_value r).
Proof.
  assert (FI : forall div m1 m2 v1 v2 n1 n2, finish_ind T div m1 m2 v1 v2 n1 n2 ev "two-sided" alpha = Ok r -> probability_or_nan (r_p_value r)).
  { intros div m1 m2 v1 v2 n1 n2 H. unfold finish_ind in H. destruct (two_sample_standard_errors _ _ _ _ _) as [[? ?] ?]. now apply finished_p in H. }
  unfold yuens_t_test_ind. intros H. apply bind_ok in H as (ra & _ & H). destruct ra as [[e1 e2]|].
  - do 4 (apply bind_ok in H as (? & _ & H)). now apply FI in H.
  - do 2 (apply bind_ok in H as (? & _ & H)). now apply FI in H.
Qed.

(** the p-value of every result is a number between 0 and 1, or missing *)
Theorem c92_p_values_are_probabilities :
  forall T argsort K (arm : K -> option Z) t b p m den override r,
    analyze_single_metric T argsort arm t b p m den override = Ok r -> probability_or_nan (r_p_value r).
Proof.
  intros T argsort K arm t b p m den override r H. unfold analyze_single_metric in H.
  apply bind_ok in H as (sub & _ & H). apply bind_ok in H as (dn & _ & H). apply bind_ok in H as (u & _ & H).
  destruct (crossover p).
  - unfold analyze_crossover in H. destruct dn; now apply paired_p in H.
  - unfold analyze_regular in H. repeat match type of H with
      | bind _ _ = Ok _ => apply bind_ok in H as (? & _ & H)
      | match ?x with _ => _ end = Ok _ => destruct x
      end; now apply ind_p in H.
Qed.

(** *** A validated design *)
Section Validated.
Context (T : tdist) (argsort : list num -> list nat) {G : Type} (shuffle_of sample_of : G -> nat -> list nat * G)
  (arms_of : G -> nat -> list Z * G) (choice_of : G -> list Z -> Z * G).

Lemma simulation_p s mde f g y ra rb : simulate_once T argsort shuffle_of sample_of arms_of choice_of s mde (f, g) = (y, Ok (ra, rb)) ->
  probability_or_nan (r_p_value ra) /\ probability_or_nan (r_p_value rb).
Proof.
  intros H. unfold simulate_once in H. unfold sbind at 1 in H. unfold sret at 1 in H.
  destruct (valid_start_week_ids s) as [starts|]; [|discriminate]. unfold sbind at 1 in H.
  destruct starts as [|w starts]; [discriminate|]. unfold on_rng at 1 in H.
  destruct (choice_of _ _) as [start g1]. unfold sbind at 1 in H. cbn [fst snd] in H.
  destruct (get_pivoted_and_trimmed shuffle_of sample_of s start true (f, g1)) as [[f2 g2] [t|]]; [|discriminate].
  unfold sbind at 1 in H. unfold on_rng in H. cbn [fst snd] in H.
  destruct (apply_random_treatment_assignment arms_of t g2 (sm_item s) (sm_treatment s)) as [g3 [a|]]; [|discriminate].
  unfold sret in H. apply (f_equal snd) in H. cbn [snd] in H. apply bind_ok in H as (aa & _ & H). apply bind_ok in H as (r1 & H1 & H).
  apply bind_ok in H as (ab & _ & H). apply bind_ok in H as (r2 & H2 & H). assert (r1 = ra) by congruence. assert (r2 = rb) by congruence. subst.
  split; eapply c92_p_values_are_probabilities; eauto.
Qed.

Lemma validated_p s n x s' x' : run_validate_design T argsort shuffle_of sample_of arms_of choice_of s n x = ((s', x'), Ok tt) ->
  exists aa ab, sm_aa s' = Some aa /\ sm_ab s' = Some ab /\ sm_mde s' = sm_mde s /\ List.length aa = n /\ List.length ab = n /\
    Forall (fun r => probability_or_nan (r_p_value r)) aa /\ Forall (fun r => probability_or_nan (r_p_value r)) ab.
Proof.
  intros H. assert (P := perform_attributes T argsort shuffle_of sample_of arms_of choice_of (Validate n) (s, x) (s', x') H).
  cbn [fst] in P. destruct P as (_ & M0 & M1 & _). destruct (sm_mde s) as [mde|] eqn:EM; [|congruence].
  destruct (c85_simulations_follow_each_other T argsort G shuffle_of sample_of arms_of choice_of s n x s' x' mde EM H) as (st & rs & _ & _ & LR & E1 & E2 & RS).
  exists (map fst rs), (map snd rs). rewrite !map_length. split; [auto|]. split; [auto|]. split; [auto|]. split; [auto|]. split; [auto|].
  assert (Q : forall r, In r rs -> probability_or_nan (r_p_value (fst r)) /\ probability_or_nan (r_p_value (snd r))).
  { intros [ra rb] Hr. apply In_nth_error in Hr as (i & Hi). apply RS in Hi. destruct (st i) as [f g]. eapply simulation_p. exact Hi. }
  split; apply Forall_forall; intros r Hr; apply in_map_iff in Hr as (x0 & <- & Hx); now apply Q.
Qed.

(** effects of designs without a pretest, and of all crossover designs, are numbers; so there is a figure unless
    every A/A p-value or every A/B p-value is missing *)
Theorem c92_plotted_unless_all_p_values_are_missing :
  forall edges_of s n f g s' x' e,
    sorts argsort -> samples_positions sample_of -> draws_arms arms_of ->
    let p := par (sm_design s) in let rows := frame_rows f [metric p] (sm_item s) (sm_week s) None in
    mk_design p = Ok (sm_design s) -> calm rows -> (Z.of_nat (List.length rows) <= 2 ^ 53)%Z -> sm_mde s = Some (Fin e) ->
    crossover p = true \/ pretest p = 0%Z -> (0 < n)%nat ->
    run_validate_design T argsort shuffle_of sample_of arms_of choice_of s n (f, g) = ((s', x'), Ok tt) ->
    exists aa ab, sm_aa s' = Some aa /\ sm_ab s' = Some ab /\
      (is_ok (plot_deep_dive edges_of s') <-> ~ (Forall (fun r => r_p_value r = NaN) aa) /\ ~ (Forall (fun r => r_p_value r = NaN) ab)).
Proof.
  intros edges_of s n f g s' x' e HS HSP HAR p rows HD HC LB EM CP Ln H.
  destruct (validated_p _ _ _ _ _ H) as (aa & ab & EA & EB & EM' & LA & LAB & PA & PB).
  destruct (c85_simulated_effects_are_found T argsort G shuffle_of sample_of arms_of choice_of s n f g s' x' e HS HSP HAR HD HC LB EM H) as (_ & aa' & ab' & EA' & EB' & _ & F2).
  assert (aa' = aa) by congruence. assert (ab' = ab) by congruence. subst aa' ab'. rewrite EM in EM'.
  exists aa, ab. split; [exact EA|]. split; [exact EB|].
  assert (NA : aa <> []) by (intros ->; cbn in LA; lia). assert (NB : ab <> []) by (intros ->; cbn in LAB; lia).
  rewrite (proj1 (plot_cases edges_of s' aa ab (Fin e) EA EB EM' NA)).
  assert (FIN : forall ra rb, adds_the_effect p e ra rb -> exists u v, r_abs ra = Fin u /\ r_abs rb = Fin v).
  { intros ra rb (A1 & A2 & A3 & _). destruct (crossover p) eqn:C.
    - destruct (Req_dec (B2R (post p)) 0) as [Q|Q]; [destruct (A2 eq_refl Q) as (u & c & _ & E1 & E2)|destruct (A1 eq_refl Q) as (u & E1 & E2 & _)]; eauto.
    - destruct CP as [CP|CP]; [discriminate|]. destruct (A3 eq_refl CP) as (u & E1 & E2 & _). eauto. }
  assert (FA : Forall (fun r => exists u, r_abs r = Fin u) aa).
  { clear - F2 FIN. induction F2 as [|ra rb l l' A _ IH]; constructor; auto. destruct (FIN _ _ A) as (u & v & -> & _). eauto. }
  assert (FB : Forall (fun r => exists u, r_abs r = Fin u) ab).
  { clear - F2 FIN. induction F2 as [|ra rb l l' A _ IH]; constructor; auto. destruct (FIN _ _ A) as (u & v & _ & ->). eauto. }
  assert (DE : forall l : list tresult, l <> [] -> Forall (fun r => exists u, r_abs r = Fin u) l -> drawable (map r_abs l)).
  { intros l NL F. rewrite Forall_forall in F. split; [|split].
    - intros X. apply in_map_iff in X as (r & E & Hr). destruct (F r Hr). congruence.
    - intros X. apply in_map_iff in X as (r & E & Hr). destruct (F r Hr). congruence.
    - destruct l as [|r l]; [congruence|]. destruct (F r (or_introl eq_refl)) as (u & E). exists u. rewrite <- E. now left. }
  assert (DP : forall l : list tresult, Forall (fun r => probability_or_nan (r_p_value r)) l -> (drawable (map r_p_value l) <-> ~ Forall (fun r => r_p_value r = NaN) l)).
  { intros l F. rewrite Forall_forall in F. split.
    - intros (_ & _ & u & Hu) X. apply in_map_iff in Hu as (r & E & Hr). rewrite Forall_forall in X. apply X in Hr. congruence.
    - intros X. split; [|split].
      + intros Y. apply in_map_iff in Y as (r & E & Hr). destruct (F r Hr) as [Z|(u & Z & _)]; congruence.
      + intros Y. apply in_map_iff in Y as (r & E & Hr). destruct (F r Hr) as [Z|(u & Z & _)]; congruence.
      + clear - X F. induction l as [|r l IH]; [destruct X; constructor|]. destruct (F r (or_introl eq_refl)) as [Z|(u & Z & _)].
        * destruct IH as (u & Hu); [intros; apply F; now right|intros Y; apply X; now constructor|]. exists u. now right.
        * exists u. now left. }
  rewrite (DP aa PA), (DP ab PB). split; [tauto|]. intros [X Y]. auto.
Qed.

(** *** A metric without any activity *)
Lemma zero_div x : ndiv (Fin 0) x = Fin 0 \/ ndiv (Fin 0) x = NaN.
Proof.
  destruct x as [b| | |]; cbn [ndiv]; auto. destruct (Req_bool_spec b 0); [right; apply ninf_of_0|left]. unfold Rdiv. now rewrite Rmult_0_l.
Qed.
Lemma total_zero l : (forall x, In x l -> x = 0) -> Trimmed_Spec.total l = 0.
Proof. induction l as [|x l IH]; intros H; [reflexivity|]. unfold Trimmed_Spec.total in *. cbn [fold_right]. rewrite IH by (intros; apply H; now right). rewrite (H x (or_introl eq_refl)). ring. Qed.
Lemma avg_zero l : (forall x, In x l -> x = 0) -> avg l = 0.
Proof. intros H. unfold avg. rewrite total_zero by auto. unfold Rdiv. ring. Qed.
Lemma flat_paired xs ys q alpha r : sorts argsort -> sample xs -> (forall x, In x (minus xs ys) -> x = 0) ->
  yuens_t_test_paired T argsort (data xs) (data ys) q None None "two-sided" alpha = Ok r -> r_p_value r = NaN.
Proof.
  intros HS Sx Z H. destruct (paired_plain argsort HS T xs ys q "two-sided" alpha r Sx H) as (L & t & Ht & FT & E1 & _ & F).
  set (rows := [minus xs ys; xs; ys]) in *. cbv zeta in *.
  assert (RT : forall idx x, In x (rtake idx (minus xs ys)) -> x = 0).
  { intros idx x Hx. unfold rtake in Hx. apply in_map_iff in Hx as (i & <- & _). destruct (nth_in_or_default i (minus xs ys) 0) as [I|E]; auto. }
  rewrite <- E1 in F. rewrite (avg_zero _ (RT _)) in F.
  assert (CC : cc argsort t rows (minus xs ys) (minus xs ys) = 0).
  { unfold cc. rewrite codev_self. unfold sqdev. apply total_zero. intros x Hx. apply in_map_iff in Hx as (y & <- & Hy).
    rewrite (RT _ _ Hy), (avg_zero _ (RT _)). ring. }
  rewrite CC in F. assert (TT := fi_test _ _ _ _ _ _ _ _ _ _ _ _ _ _ F).
  unfold ttest_from_stats in TT. cbn [String.eqb Ascii.eqb Bool.eqb] in TT.
  assert (SE : one_sample_standard_error (nsqrt (ndiv (Fin 0) (Fin (IZR (Z.of_nat (t_len argsort t) - 1))))) (nnat (t_len argsort t)) = Fin 0 \/
               one_sample_standard_error (nsqrt (ndiv (Fin 0) (Fin (IZR (Z.of_nat (t_len argsort t) - 1))))) (nnat (t_len argsort t)) = NaN).
  { unfold one_sample_standard_error. destruct (zero_div (Fin (IZR (Z.of_nat (t_len argsort t) - 1)))) as [-> | ->].
    - rewrite nsqrt_fin, sqrt_0 by lra. apply zero_div.
    - right. cbn [nsqrt]. destruct (nsqrt _); reflexivity. }
  assert (ST : forall se, se = Fin 0 \/ se = NaN -> ndiv (Fin 0) se = NaN).
  { intros se [-> | ->]; [cbn [ndiv]; rewrite Req_bool_true by reflexivity; apply ninf_of_0|reflexivity]. }
  rewrite (ST _ SE) in TT. apply (f_equal (fun o => match o with Ok x => snd x | Err _ => Fin 0 end)) in TT. cbn [snd nabs] in TT. rewrite nmul_neg1 in TT. cbn [nneg] in TT.
  rewrite <- TT. unfold t_cdf. destruct (valid_df _); reflexivity.
Qed.

Lemma flat_items {K} (arm : K -> option Z) (t : table K) p m l r : sorts argsort -> NoDup (t_cols t) -> crossover p = true -> l <> [] -> (Z.of_nat (List.length l) <= 2 ^ 53)%Z ->
  crossover_items arm t m (map finite l) -> (forall c, In c l -> x_one c = 0 /\ x_two c = 0) ->
  analyze_single_metric T argsort arm t true p m None None = Ok r -> r_p_value r = NaN.
Proof.
  intros HS ND C NL LB IT Z H. rewrite (analysis_crossover arm T argsort t p m _ None ND C IT) in H. cbv zeta in H. cbn [chosen] in H.
  destruct (is_zero (post p)).
  - destruct (c62_demeaned l NL) as (tr & co & E & L1 & _ & _ & EM). rewrite E in H. cbn [fst snd] in H. eapply flat_paired; [exact HS| |..|exact H].
    + split; [destruct tr; [destruct l; [congruence|discriminate]|discriminate]|]. now rewrite L1.
    + rewrite EM. intros x Hx. apply in_map_iff in Hx as (c & <- & Hc). destruct (Z c Hc) as [-> ->].
      rewrite (avg_zero (ones l)), (avg_zero (twos l)).
      * unfold signed. destruct (in_treatment_arm _); ring.
      * intros y Hy. apply in_map_iff in Hy as (c' & <- & Hc'). now apply Z.
      * intros y Hy. apply in_map_iff in Hy as (c' & <- & Hc'). now apply Z.
  - rewrite c62_pairs_raw_values, treated_finite, control_finite in H. cbn [fst snd] in H. eapply flat_paired; [exact HS| |..|exact H].
    + split; [destruct l; [congruence|discriminate]|]. now rewrite map_length.
    + rewrite minus_map. intros x Hx. apply in_map_iff in Hx as (c & <- & Hc). destruct (Z c Hc) as [E1 E2].
      unfold while_treated, while_control. rewrite E1, E2. destruct (in_treatment_arm _); ring.
Qed.

(** nothing but zeros (or missing values) *)
Definition idle (rows : list (prow akey)) : Prop := forall r x, In r rows -> In x (p_vals r) -> x = Fin 0 \/ x = NaN.

Lemma idle_table p d f start lab item week t : mk_design p = Ok d -> label_fun p start = Ok lab ->
  idle (frame_rows f [metric p] item week None) -> pivot_rows akeqb akleb p start [metric p] (frame_rows f [metric p] item week None) = Ok t ->
  forall r x, In r (t_rows t) -> In x (snd r) -> x = Fin 0 \/ x = NaN.
Proof.
  intros HD HL ID PR r x Hr Hx. set (rows := frame_rows f [metric p] item week None) in *.
  assert (HC : calm rows). { intros r0 Hr0. apply Forall_forall. intros y Hy. destruct (ID r0 y Hr0 Hy) as [-> | ->]; split; discriminate. }
  rewrite (pivot_rows_tab akeqb akleb akey_ord p d start lab [metric p] rows t HD HL HC PR) in Hr. cbn [tab t_rows] in Hr.
  apply in_map_iff in Hr as (k & <- & _). cbn [snd] in Hx. apply in_map_iff in Hx as (c & <- & _).
  assert (T0 : forall cond, Rows_Spec.total cond (metric_value [metric p] (fst c)) rows = Fin 0).
  { intros cond. assert (Z : forall r0, In r0 rows -> metric_value [metric p] (fst c) r0 = Fin 0 \/ metric_value [metric p] (fst c) r0 = NaN).
    { intros r0 Hr0. unfold metric_value. cbn [combine]. specialize (ID r0). destruct (p_vals r0) as [|v vs]; [now right|]. cbn [assoc].
      destruct (String.eqb (fst c) (metric p)); [|now right]. apply ID; [exact Hr0|now left]. }
    clear - Z. induction rows as [|r0 rows IH]; [reflexivity|]. unfold Rows_Spec.total in *. cbn [fold_right]. rewrite IH by (intros; apply Z; now right).
    destruct (Z r0 (or_introl eq_refl)) as [-> | ->]; destruct (cond r0); cbn [nadd]; f_equal; ring. }
  rewrite T0. apply zero_div.
Qed.

Lemma holds_in {K} (t : table K) c v x : holds t c v -> In x v -> exists r, In r (t_rows t) /\ In x (snd r).
Proof.
  intros (i & _ & F) Hx. revert Hx. induction F as [|r y l l' H _ IH]; [intros []|]. intros [<-|Hx].
  - exists r. split; [now left|]. now apply nth_error_In in H.
  - destruct (IH Hx) as (r' & A & B). exists r'. split; [now right|exact B].
Qed.

Lemma idle_simulation s mde f g y ra rb : sorts argsort -> samples_positions sample_of -> draws_arms arms_of ->
  let p := par (sm_design s) in let rows := frame_rows f [metric p] (sm_item s) (sm_week s) None in
  mk_design p = Ok (sm_design s) -> crossover p = true -> idle rows -> (Z.of_nat (List.length rows) <= 2 ^ 53)%Z ->
  simulate_once T argsort shuffle_of sample_of arms_of choice_of s mde (f, g) = (y, Ok (ra, rb)) -> fst y = f /\ r_p_value ra = NaN.
Proof.
  intros HS HSP HAR p rows HD CR ID LB H. destruct y as [f' g'].
  destruct (c85_what_a_simulation_draws T argsort G shuffle_of sample_of arms_of choice_of s mde f g f' g' ra rb HSP HAR H)
    as (PN & starts & t0 & smp & kept & g2 & aa & _ & _ & PV & LS & SR & KP & _ & CC & RW & _ & HA). fold p in PV, KP, HA.
  set (start := fst (choice_of g starts)) in *.
  destruct (label_exists p (sm_design s) HD start) as (lab & HL).
  destruct (sim_pivot_inv p f start lab HL (sm_item s) (sm_week s) (sm_period s) f' t0 PV) as (_ & EF & PR). fold rows in PR.
  split; [exact EF|].
  assert (HC : calm rows). { intros r0 Hr0. apply Forall_forall. intros y Hy. destruct (ID r0 y Hr0 Hy) as [-> | ->]; split; discriminate. }
  destruct (sim_table p (sm_design s) HD f start lab HL (sm_item s) (sm_week s) HC t0 PR) as (FT & _ & NI & _).
  assert (SUB : subseq kept smp).
  { destruct (0 <? pretest p)%Z; [|destruct KP as [-> _]; apply subseq_refl].
    unfold trim_pivoted in KP. cbn [t_rows t_cols] in KP. destruct (trim_outliers _ _ _ _ smp) as [rs|] eqn:ET; [|discriminate]. destruct (andb _ _); [discriminate|].
    assert (kept = rs) by congruence. subst rs. now apply trim_subseq in ET. }
  assert (ORIG : forall r, In r (t_rows aa) -> exists r0, In r0 (t_rows t0) /\ snd r = snd r0).
  { intros r Hr. assert (I : In (fst (fst r), snd r) kept) by (rewrite <- RW; apply in_map_iff; now exists r).
    apply (subseq_In _ _ _ SUB) in I. apply In_nth_error in I as (i & Hi). destruct (SR i _ Hi) as (q & _ & r0 & Hq & E).
    exists r0. split; [now apply nth_error_In in Hq|]. now apply (f_equal snd) in E. }
  assert (FA : finite_table aa). { split; [rewrite CC; apply FT|]. intros r Hr. destruct (ORIG r Hr) as (r0 & H0 & ->). rewrite CC. now apply FT. }
  assert (LA : (List.length (t_rows aa) <= List.length rows)%nat).
  { apply Nat.le_trans with (List.length (t_rows t0)).
    - rewrite <- LS. rewrite <- (map_length (fun r => (fst (fst r), snd r)) (t_rows aa)), RW. now apply subseq_length.
    - destruct NI as (keys & K1 & K2 & K3). rewrite <- K2, <- (map_length p_key rows). apply NoDup_incl_length; auto.
      intros k Hk. apply K3 in Hk as (r & q & Hr & <- & _). now apply in_map. }
  (* the two columns *)
  assert (COLS : In (metric p, "test_1") (t_cols aa) /\ In (metric p, "test_2") (t_cols aa)).
  { unfold analyze_single_metric in HA. apply bind_ok in HA as (sub & HSU & HA). apply bind_ok in HA as (dn & _ & HA). apply bind_ok in HA as (u & HCO & _).
    apply raise_if_ok, negb_false_iff, andb_true_iff in HCO as [HCO _]. unfold complete, required_periods in HCO. rewrite CR in HCO.
    apply andb_true_iff in HCO as [_ HCO]. cbn [forallb] in HCO. apply andb_true_iff in HCO as [C1 C2]. apply andb_true_iff in C2 as [C2 _].
    assert (ABS : forall c, ~ In (metric p, c) (t_cols aa) -> sget c (s_periods sub) = None).
    { intros c N. unfold metric_subset in HSU. destruct (existsb _ _); [|discriminate]. assert (ES : sub = _) by (symmetry; injection HSU as E; exact E).
      rewrite ES. cbn [s_periods]. now apply sget_absent. }
    split.
    - destruct (in_dec col_dec (metric p, "test_1") (t_cols aa)) as [Y|N]; [exact Y|]. rewrite (ABS _ N) in C1. discriminate.
    - destruct (in_dec col_dec (metric p, "test_2") (t_cols aa)) as [Y|N]; [exact Y|]. rewrite (ABS _ N) in C2. discriminate. }
  destruct COLS as [I1 I2].
  destruct (finite_holds aa _ FA I1) as (xs & H1 & L1). destruct (finite_holds aa _ FA I2) as (ys & H2 & L2).
  set (arms := map (fun r : ikey * Z * list num => sim_arm (fst r)) (t_rows aa)).
  assert (LR : List.length arms = List.length (t_rows aa)) by apply map_length.
  destruct (cross_items arms xs ys) as (l & E0 & E1 & E2); [congruence..|].
  assert (IT : crossover_items sim_arm aa (metric p) (map finite l)).
  { unfold crossover_items, in_arms. rewrite !map_map. cbn [finite x_arm x_one x_two]. fold arms. rewrite <- E0. split; auto.
    unfold data in H1, H2. rewrite <- E1 in H1. rewrite <- E2 in H2. rewrite map_map in H1, H2. auto. }
  assert (LL : List.length l = List.length (t_rows aa)) by (rewrite <- LR, <- E0; now rewrite map_length).
  assert (ZC : forall c v x, holds aa (metric p, c) (data v) -> In x v -> x = 0).
  { intros c v x HV Hx. destruct (holds_in aa _ _ (Fin x) HV) as (r & Hr & Hv); [unfold data; now apply in_map|].
    destruct (ORIG r Hr) as (r0 & H0 & E). rewrite E in Hv. destruct (idle_table p (sm_design s) f start lab _ _ t0 HD HL ID PR r0 (Fin x) H0 Hv) as [X|X]; congruence. }
  apply (flat_items sim_arm aa p (metric p) l); auto.
  - apply FA.
  - intros ->. rewrite (analysis_crossover sim_arm T argsort aa p (metric p) _ None (proj1 FA) CR IT) in HA. cbn in HA.
    unfold prepare_crossover in HA. revert HA. destruct (is_zero _); cbn [map replace_where fst snd shift unshift combine];
        unfold yuens_t_test_paired; cbn [List.length Nat.eqb negb raise_if bind ratio_arguments]; intros HA;
        apply bind_ok in HA as (st & HST & HA); apply bind_ok in HA as (tr & HTR & _); apply stack_ok in HST as [-> _];
        (eapply c43_empty_arrays_are_rejected; [|exact HTR]); cbn; auto.
  - rewrite LL. lia.
  - intros c Hc. split; [apply (ZC "test_1" xs); auto; rewrite <- E1|apply (ZC "test_2" ys); auto; rewrite <- E2]; now apply in_map.
Qed.

(** a crossover design validated on a metric that is zero throughout: all A/A p-values are missing, the reported
    false positive rate is zero, and the deep dive cannot be plotted *)
Theorem c92_idle_metrics_cannot_be_plotted :
  forall edges_of s n f g s' x',
    sorts argsort -> samples_positions sample_of -> draws_arms arms_of ->
    let p := par (sm_design s) in let rows := frame_rows f [metric p] (sm_item s) (sm_week s) None in
    mk_design p = Ok (sm_design s) -> crossover p = true -> idle rows -> (Z.of_nat (List.length rows) <= 2 ^ 53)%Z -> (0 < n)%nat ->
    run_validate_design T argsort shuffle_of sample_of arms_of choice_of s n (f, g) = ((s', x'), Ok tt) ->
    ~ is_ok (plot_deep_dive edges_of s') /\ simulated_false_positive_rate s' = Ok (Some (Fin 0)) /\
    exists aa, sm_aa s' = Some aa /\ Forall (fun r => r_p_value r = NaN) aa.
Proof.
  intros edges_of s n f g s' x' HS HSP HAR p rows HD CR ID LB Ln H.
  assert (P := perform_attributes T argsort shuffle_of sample_of arms_of choice_of (Validate n) (s, (f, g)) (s', x') H).
  cbn [fst] in P. destruct P as (SA & M0 & M1 & _). destruct (sm_mde s) as [mde|] eqn:EM; [|congruence].
  destruct (c85_simulations_follow_each_other T argsort G shuffle_of sample_of arms_of choice_of s n (f, g) s' x' mde EM H) as (st & rs & S0 & _ & LR & E1 & E2 & RS).
  assert (FR : forall i, (i <= n)%nat -> fst (st i) = f).
  { induction i as [|i IH]; intros L; [now rewrite S0|]. destruct (nth_error rs i) as [[ra rb]|] eqn:Ei; [|apply nth_error_None in Ei; lia].
    assert (X := RS i _ Ei). assert (FI := IH ltac:(lia)). destruct (st i) as [fi gi]. cbn [fst] in FI. subst fi.
    destruct (idle_simulation s mde f gi (st (S i)) ra rb HS HSP HAR HD CR ID LB X) as [Y _]. exact Y. }
  assert (NANS : Forall (fun r => r_p_value r = NaN) (map fst rs)).
  { apply Forall_forall. intros r Hr. apply in_map_iff in Hr as ([ra rb] & <- & Hr). apply In_nth_error in Hr as (i & Hi). cbn [fst].
    assert (Li : (i < n)%nat) by (rewrite <- LR; apply nth_error_Some; congruence). assert (X := RS i _ Hi).
    assert (FI := FR i ltac:(lia)). destruct (st i) as [fi gi]. cbn [fst] in FI. subst fi.
    destruct (idle_simulation s mde f gi (st (S i)) ra rb HS HSP HAR HD CR ID LB X) as [_ Y]. exact Y. }
  assert (NA : map fst rs <> []) by (intros E; apply map_eq_nil in E; subst rs; cbn in LR; lia).
  split; [|split; [|eauto]].
  - intros OKP. apply (proj1 (proj1 (plot_cases edges_of s' (map fst rs) (map snd rs) mde E1 E2 M1 NA))) in OKP as (_ & _ & (_ & _ & u & Hu) & _).
    apply in_map_iff in Hu as (r & E & Hr). rewrite Forall_forall in NANS. apply NANS in Hr. congruence.
  - destruct (c72_rates_are_fractions_of_significant_simulations (fun _ _ _ _ => Ok NaN) s' (map fst rs) (map snd rs) E1 E2) as (k & j & C1 & _ & R1 & _); [rewrite map_length; lia..|].
    rewrite R1. do 2 f_equal. assert (K0 : k = 0%nat).
    { clear - C1 NANS. induction C1 as [|t l k P C IH|t l k P C IH]; auto.
      - exfalso. inversion NANS as [|? ? E _]; subst. rewrite E in P. destruct P as [X|(x & X & _)]; discriminate.
      - inversion NANS; auto. }
    subst k. cbn [INR]. unfold Rdiv. now rewrite Rmult_0_l.
Qed.
End Validated.

(** *** A case: the panel of sixty items in four weeks, without any clicks *)
Definition idle_frame : frame :=
  [("item", flat_map (fun i => repeat (CStr i) 4) sixty);
   ("week", flat_map (fun _ => map CZ [0; 1; 2; 3]%Z) sixty);
   ("clicks", map (fun _ => CNum (Fin 0)) (seq 0 240))].
Lemma idle_rows : exists rows, frame_rows idle_frame ["clicks"] "item" "week" None = rows /\ idle rows /\ calm rows /\ balanced rows sixty 0 3.
Proof.
  eexists. split; [reflexivity|].
  assert (SHAPE : forall r, In r (frame_rows idle_frame ["clicks"] "item" "week" None) -> exists i, p_vals r = [num_of_cell (nth i (col_or_nil "clicks" idle_frame) CNull)]).
  { intros r Hr. unfold frame_rows in Hr. apply in_flat_map in Hr as (i & _ & Hr). unfold frame_row in Hr.
    destruct (str_of_cell _); [|destruct Hr]. destruct Hr as [<-|[]]. exists i. reflexivity. }
  assert (ID : idle (frame_rows idle_frame ["clicks"] "item" "week" None)).
  { intros r x Hr Hx. destruct (SHAPE r Hr) as (i & E). rewrite E in Hx. destruct Hx as [<-|[]].
    change (col_or_nil "clicks" idle_frame) with (map (fun _ : nat => CNum (Fin 0)) (seq 0 240)).
    destruct (nth_in_or_default i (map (fun _ : nat => CNum (Fin 0)) (seq 0 240)) CNull) as [I|E'].
    - apply in_map_iff in I as (n & E' & _). rewrite <- E'. now left.
    - rewrite E'. now right. }
  split; [exact ID|]. split.
  - intros r Hr. apply Forall_forall. intros x Hx. destruct (ID r x Hr Hx) as [-> | ->]; split; discriminate.
  - set (key := fun r : prow akey => (p_key r, p_week r)).
    assert (KEYS : map key (frame_rows idle_frame ["clicks"] "item" "week" None) =
      flat_map (fun i => map (fun w => ((i, []), Some w)) [0; 1; 2; 3]%Z) sixty) by (vm_compute; reflexivity).
    split.
    + intros r Hr. assert (I := in_map key _ _ Hr). rewrite KEYS in I. apply in_flat_map in I as (i & Hi & I). exists i. split; auto.
      apply in_map_iff in I as (w & E & _). unfold key in E. congruence.
    + intros i w Hi Hw. assert (I : In ((i, []), Some w) (map key (frame_rows idle_frame ["clicks"] "item" "week" None))).
      { rewrite KEYS. apply in_flat_map. exists i. split; auto. apply in_map_iff. exists w. split; auto. simpl. lia. }
      apply in_map_iff in I as (r & E & Hr). unfold key in E. exists r. split; auto. split; congruence.
Qed.

(** a design that was estimated and validated, and still cannot be plotted *)
Theorem c92_validated_designs_can_be_plotted_refuted :
  exists s s1 x1 s2 x2, let shuffle := fun (g : unit) n => (seq 0 n, g) in
    mk_sim (panel_design true) idle_frame "item" "week" 1 "period" "arm" (1 / 20) = Ok s /\
    estimate_minimum_detectable_effect cauchy argsort_ref shuffle same_row s (idle_frame, tt) = ((s1, x1), Ok tt) /\
    run_validate_design cauchy argsort_ref shuffle same_row alternate (fun g l => (hd 0%Z l, g)) s1 5 x1 = ((s2, x2), Ok tt) /\
    forall edges_of, ~ is_ok (plot_deep_dive edges_of s2).
Proof.
  destruct idle_rows as (rows & ER & ID & HC & HBAL).
  destruct (mk_sim (panel_design true) idle_frame "item" "week" 1 "period" "arm" (1 / 20)) as [s|e] eqn:ES; [|discriminate].
  destruct (c73_balanced_data_can_be_estimated cauchy argsort_ref unit (fun g n => (seq 0 n, g)) same_row (panel_params true) _ _ _ _ _ _ _ _ s sixty 0 3 tt
    argsort_ref_sorts (fun g n => Permutation_refl _) (panel_design_ok true) ltac:(reflexivity) ES) as (s1 & x1 & H & EF & N).
  - change (metric (panel_params true)) with "clicks". now rewrite ER.
  - repeat split.
  - change (metric (panel_params true)) with "clicks". now rewrite ER.
  - apply (proj2 (NoDup_count_occ string_dec sixty)). intros x. destruct (in_dec string_dec x sixty) as [I|N0].
    + revert x I. apply Forall_forall. repeat constructor; vm_compute; lia.
    + apply (proj1 (count_occ_not_In string_dec sixty x)) in N0. lia.
  - reflexivity.
  - reflexivity.
  - cbn. lia.
  - assert (SD : sm_design s = panel_design true /\ sm_item s = "item" /\ sm_week s = "week" /\ sm_treatment s = "arm").
    { assert (X := f_equal (fun r => match r with Ok x => Some (sm_design x, sm_item x, sm_week x, sm_treatment x) | Err _ => None end) ES).
      assert (Y : Some (panel_design true, "item", "week", "arm") = Some (sm_design s, sm_item s, sm_week s, sm_treatment s)) by exact X.
      repeat split; congruence. }
    destruct SD as (D1 & D2 & D3 & D4).
    assert (PL : forall n, unflat_name (flat_name (n, "test")) = [n; "test"] -> plain_name n) by (intros n E; apply (c69_name_round_trip n "test"); [simpl; auto|exact E]).
    assert (HSH : forall g : unit, shuffles (fun k => fst (seq 0 k, g))) by (intros g k; apply Permutation_refl).
    assert (ER' : frame_rows idle_frame [metric (par (sm_design s))] (sm_item s) (sm_week s) None = rows).
    { rewrite D1, D2, D3. cbn [par panel_design]. change (metric (panel_params true)) with "clicks". exact ER. }
    assert (LB : (Z.of_nat (List.length rows) <= 2 ^ 53)%Z) by (rewrite <- ER; vm_compute; discriminate).
    assert (HD : mk_design (par (sm_design s)) = Ok (sm_design s)) by (rewrite D1; apply panel_design_ok).
    destruct (c85_estimated_crossover_designs_can_be_validated cauchy argsort_ref unit (fun g n => (seq 0 n, g)) same_row alternate (fun g l => (hd 0%Z l, g))
      s idle_frame tt s1 x1 argsort_ref_sorts HSH same_row_samples alternate_draws) as (EX & HV); auto.
    + intros g [|w l] NE; [congruence|now left].
    + now rewrite D1.
    + rewrite D1; reflexivity.
    + rewrite D1; apply default_power.
    + rewrite D1; apply default_level.
    + now rewrite ER'.
    + now rewrite ER'.
    + rewrite D1. now apply PL.
    + rewrite D2. now apply PL.
    + rewrite D4. now apply PL.
    + rewrite D1, D4. discriminate.
    + rewrite D2, D4. discriminate.
    + destruct (HV 5%nat tt) as (s2 & x2 & HV5). destruct x1 as [f1 []]. cbn [fst] in EX. subst f1.
      exists s, s1, (idle_frame, tt), s2, x2. split; [reflexivity|]. split; [exact H|]. split; [exact HV5|]. intros edges_of.
      assert (X : sm_design s1 = sm_design s /\ sm_item s1 = sm_item s /\ sm_week s1 = sm_week s).
      { assert (P := perform_attributes cauchy argsort_ref (fun (g : unit) n => (seq 0 n, g)) same_row alternate (fun g l => (hd 0%Z l, g)) Estimate (s, (idle_frame, tt)) (s1, (idle_frame, tt)) H).
        destruct P as ((A & B & C & _) & _). cbn [fst] in *. auto. }
      destruct X as (S1 & S2 & S3).
      apply (c92_idle_metrics_cannot_be_plotted cauchy argsort_ref (fun (g : unit) n => (seq 0 n, g)) same_row alternate (fun g l => (hd 0%Z l, g)) edges_of s1 5 idle_frame tt s2 x2
        argsort_ref_sorts same_row_samples alternate_draws); rewrite ?S1, ?S2, ?S3, ?ER'; auto.
      * now rewrite D1.
      * lia.
Qed.

Print Assumptions c92_p_values_are_probabilities.
Print Assumptions c92_plotted_unless_all_p_values_are_missing.
Print Assumptions c92_idle_metrics_cannot_be_plotted.
Print Assumptions c92_validated_designs_can_be_plotted_refuted.
