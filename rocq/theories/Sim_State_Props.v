(** C71 - C72: the states of a simulation analysis and its robustness checks. *)
From Coq Require Import ZArith Reals Lia Lra List String Bool.
From Flocq Require Import Core BinarySingleNaN.
Require Import Verif.Base Verif.Num Verif.Frame Verif.F64 Verif.ListLib Verif.Design_Model Verif.Stats_Model
  Verif.Pivot_Model Verif.Analysis_Model Verif.Simulation_Model Verif.Sim_Boot_Props Verif.Trimmed_Props Verif.Stats_Props Verif.Analysis_Props2.
Import ListNotations.
Open Scope string_scope.
Open Scope list_scope.

(** *** C71 *)
Section State.
Context (T : tdist) (argsort : list num -> list nat) {G : Type} (shuffle_of sample_of : G -> nat -> list nat * G)
  (arms_of : G -> nat -> list Z * G) (choice_of : G -> list Z -> Z * G).

Inductive call := Estimate | Validate (n : nat).
Definition perform (c : call) (y : sim * (frame * G)) : (sim * (frame * G)) * result unit :=
  match c with
  | Estimate => estimate_minimum_detectable_effect T argsort shuffle_of sample_of (fst y) (snd y)
  | Validate n => run_validate_design T argsort shuffle_of sample_of arms_of choice_of (fst y) n (snd y)
  end.
(** a history of calls with their outcomes, latest first, and the states it leads to *)
Inductive history (start : sim * (frame * G)) : list (call * result unit) -> sim * (frame * G) -> Prop :=
| h_start : history start [] start
| h_call c y y' r h : history start h y -> perform c y = (y', r) -> history start ((c, r) :: h) y'.

Definition succeeded (P : call -> Prop) (h : list (call * result unit)) : Prop := exists c, P c /\ In (c, Ok tt) h.
Definition is_estimate (c : call) : Prop := c = Estimate.
Definition is_validate (c : call) : Prop := exists n, c = Validate n.

(** what no call changes *)
Definition same_analysis (a b : sim) : Prop :=
  sm_design a = sm_design b /\ sm_item a = sm_item b /\ sm_week a = sm_week b /\ sm_min a = sm_min b /\ sm_max a = sm_max b /\
  sm_period a = sm_period b /\ sm_treatment a = sm_treatment b /\ sm_threshold a = sm_threshold b.

Theorem c71_validate_first_is_an_error :
  forall n y, sm_mde (fst y) = None ->
    perform (Validate n) y = (y, Err (RuntimeError "Cannot run validate_design() before estimate_minimum_detectable_effect().")).
Proof. intros n [s x] H. cbn [fst] in H. cbn. unfold run_validate_design. now rewrite H. Qed.

Theorem c71_failed_calls_change_no_attribute :
  forall c y y' e, perform c y = (y', Err e) -> fst y' = fst y.
Proof.
  intros [|n] [s x] y' e H; cbn in H.
  - unfold estimate_minimum_detectable_effect in H. destruct (estimate_average_primary_metric_stats _ _ _ _ _) as [x' [[[a sd] k]|e']]; [|now inversion H].
    destruct (minimum_detectable_effect_of _ _ _ _ _) as [[mde rel]|e']; [discriminate|]. now inversion H.
  - unfold run_validate_design in H. destruct (sm_mde s); [|now inversion H].
    destruct (smap _ _ _) as [x' [rs|e']]; [discriminate|]. now inversion H.
Qed.

Lemma perform_attributes c y y' : perform c y = (y', Ok tt) ->
  same_analysis (fst y') (fst y) /\
  match c with
  | Estimate => sm_mde (fst y') <> None /\ sm_rel (fst y') <> None /\ sm_avg (fst y') <> None /\ sm_sd (fst y') <> None /\
                sm_aa (fst y') = sm_aa (fst y) /\ sm_ab (fst y') = sm_ab (fst y)
  | Validate n => sm_mde (fst y) <> None /\ sm_mde (fst y') = sm_mde (fst y) /\ sm_rel (fst y') = sm_rel (fst y) /\
                  sm_avg (fst y') = sm_avg (fst y) /\ sm_sd (fst y') = sm_sd (fst y) /\
                  exists aa ab, sm_aa (fst y') = Some aa /\ sm_ab (fst y') = Some ab /\ List.length aa = n /\ List.length ab = n
  end.
Proof.
  destruct c as [|n], y as [s x]; intros H; cbn in H.
  - unfold estimate_minimum_detectable_effect in H. destruct (estimate_average_primary_metric_stats _ _ _ _ _) as [x' [[[a sd] k]|e']]; [|congruence].
    destruct (minimum_detectable_effect_of _ _ _ _ _) as [[mde rel]|e']; [|discriminate].
    match type of H with (?q, _) = _ => assert (E : y' = q) by congruence end. subst y'. cbn.
    split; [repeat split|]. repeat split; discriminate.
  - unfold run_validate_design in H. destruct (sm_mde s) as [mde|] eqn:EM; [|congruence].
    destruct (smap _ _ _) as [x' [rs|e']] eqn:ES; [|discriminate].
    match type of H with (?q, _) = _ => assert (E : y' = q) by congruence end. subst y'. cbn.
    split; [repeat split|]. split; [now rewrite EM|]. split; [now rewrite EM|]. split; auto. split; auto. split; auto.
    assert (L : forall A B (f : A -> ST B) l z z' bs, smap (G := G) f l z = (z', Ok bs) -> List.length bs = List.length l).
    { clear. induction l as [|a l IH]; intros z z' bs H; cbn in H; [unfold sret in H; inversion H; auto|].
      unfold sbind in H. destruct (f a z) as [z1 [b|]]; [|discriminate]. destruct (smap f l z1) as [z2 [bs'|]] eqn:E; [|discriminate].
      unfold sret in H. apply IH in E. inversion H; subst. simpl. congruence. }
    apply L in ES. rewrite seq_length in ES. exists (map fst rs), (map snd rs). rewrite !map_length. auto.
Qed.

(** after any calls: the estimates are set exactly if an estimation has succeeded, the results exactly if a
    validation has; nothing else has changed *)
Theorem c71_attributes_tell_what_has_succeeded :
  forall d f item week minimum period treat threshold s x h y,
    mk_sim d f item week minimum period treat threshold = Ok s -> history (s, x) h y ->
    same_analysis (fst y) s /\
    (sm_mde (fst y) <> None <-> succeeded is_estimate h) /\ (sm_rel (fst y) <> None <-> succeeded is_estimate h) /\
    (sm_avg (fst y) <> None <-> succeeded is_estimate h) /\ (sm_sd (fst y) <> None <-> succeeded is_estimate h) /\
    (sm_aa (fst y) <> None <-> succeeded is_validate h) /\ (sm_ab (fst y) <> None <-> succeeded is_validate h) /\
    (succeeded is_validate h -> succeeded is_estimate h).
Proof.
  intros d f item week minimum period treat threshold s x h y HS HH.
  assert (S0 : sm_mde s = None /\ sm_rel s = None /\ sm_avg s = None /\ sm_sd s = None /\ sm_aa s = None /\ sm_ab s = None).
  { unfold mk_sim in HS. destruct (has_col week f); [|discriminate]. inversion HS. repeat split. }
  clear HS. destruct S0 as (A1 & A2 & A3 & A4 & A5 & A6).
  induction HH as [|c y y' r h HH IH HP].
  - cbn [fst]. split; [repeat split|]. rewrite A1, A2, A3, A4, A5, A6.
    assert (N : forall P, ~ succeeded P []) by (intros P (c & _ & [])).
    repeat split; try congruence; intros X; now apply N in X.
  - destruct IH as (B0 & B1 & B2 & B3 & B4 & B5 & B6 & B7).
    assert (SC : forall P, succeeded P ((c, r) :: h) <-> (P c /\ r = Ok tt) \/ succeeded P h).
    { intros P. split.
      - intros (c' & HPc & [E|I]); [left; split; congruence|right; exists c'; auto].
      - intros [(HPc & ->)|(c' & HPc & I)]; [exists c; split; auto; now left|exists c'; split; auto; now right]. }
    assert (NE : ~ is_validate Estimate) by (intros (n & E); discriminate).
    assert (NV : forall n, ~ is_estimate (Validate n)) by (intros n E; discriminate).
    destruct r as [[]|e].
    + apply perform_attributes in HP as (SA & HP).
      assert (SB : same_analysis (fst y') s).
      { unfold same_analysis in *. destruct SA as (? & ? & ? & ? & ? & ? & ? & ?), B0 as (? & ? & ? & ? & ? & ? & ? & ?). repeat split; congruence. }
      split; auto. rewrite !SC. destruct c as [|n].
      * destruct HP as (C1 & C2 & C3 & C4 & -> & ->). assert (IE : is_estimate Estimate) by reflexivity.
        assert (E1 : forall A, (A <> None (A := num)) -> (A <> None <-> (is_estimate Estimate /\ Ok tt = Ok tt) \/ succeeded is_estimate h)) by (intros; split; auto).
        assert (V1 : forall P, (P <-> succeeded is_validate h) -> (P <-> (is_validate Estimate /\ Ok tt = Ok tt) \/ succeeded is_validate h)).
        { intros P HP. rewrite HP. split; [auto|]. intros [[X _]|X]; [now apply NE in X|auto]. }
        split; [auto|]. split; [auto|]. split; [auto|]. split; [auto|]. split; [auto|]. split; [auto|]. auto.
      * destruct HP as (C0 & -> & -> & -> & -> & aa & ab & -> & -> & _). specialize (NV n). assert (IV : is_validate (Validate n)) by now exists n.
        assert (E1 : forall P, (P <-> succeeded is_estimate h) -> (P <-> (is_estimate (Validate n) /\ Ok tt = Ok tt) \/ succeeded is_estimate h)).
        { intros P HP. rewrite HP. split; [auto|]. intros [[X _]|X]; [now apply NV in X|auto]. }
        assert (V1 : forall (A : list tresult), Some A <> None <-> (is_validate (Validate n) /\ Ok tt = Ok tt) \/ succeeded is_validate h).
        { intros A. split; [auto|discriminate]. }
        split; [auto|]. split; [auto|]. split; [auto|]. split; [auto|]. split; [auto|]. split; [auto|].
        intros _. right. now apply B1.
    + assert (EQ := c71_failed_calls_change_no_attribute _ _ _ _ HP). rewrite EQ. rewrite !SC.
      assert (NO : forall P : Prop, ~ (P /\ Err e = Ok tt)) by (intros P [_ E]; discriminate).
      assert (SE : forall P Q, (P <-> succeeded Q h) -> (P <-> (Q c /\ Err e = Ok tt) \/ succeeded Q h)).
      { intros P Q HP'. rewrite HP'. split; [auto|]. intros [X|X]; [now apply NO in X|auto]. }
      split; [auto|]. split; [auto|]. split; [auto|]. split; [auto|]. split; [auto|]. split; [auto|]. split; [auto|].
      intros [X|X]; [now apply NO in X|auto].
Qed.

(** estimating again keeps the results of a validation made with the old estimate *)
Theorem c71_estimating_again_keeps_old_results :
  forall y y', perform Estimate y = (y', Ok tt) -> sm_aa (fst y') = sm_aa (fst y) /\ sm_ab (fst y') = sm_ab (fst y).
Proof. intros y y' H. apply perform_attributes in H as (_ & _ & _ & _ & _ & H). exact H. Qed.
(** a validation has one result of each kind per simulation *)
Theorem c71_one_result_per_simulation :
  forall n y y', perform (Validate n) y = (y', Ok tt) ->
    exists aa ab, sm_aa (fst y') = Some aa /\ sm_ab (fst y') = Some ab /\ List.length aa = n /\ List.length ab = n.
Proof. intros n y y' H. apply perform_attributes in H as (_ & _ & _ & _ & _ & _ & H). exact H. Qed.

Section Props.
Context (kstest : list num -> result num) (binomtest : Z -> Z -> f64 -> string -> result num)
        (ttest_1samp : list num -> num -> result num).
(** the values read from an analysis *)
Definition p_values : list (sim -> result (option num)) :=
  [null_p_value_robustness_p_value kstest; power_robustness_p_value binomtest; false_positive_rate_robustness_p_value binomtest;
   aa_point_estimate_robustness_p_value ttest_1samp; ab_point_estimate_robustness_p_value ttest_1samp].
Definition checks : list (sim -> result (option bool)) :=
  [null_p_value_robustness_check_pass kstest; power_robustness_check_pass binomtest;
   false_positive_rate_robustness_check_pass binomtest; aa_point_estimate_robustness_check_pass ttest_1samp;
   ab_point_estimate_robustness_check_pass ttest_1samp].
Definition rates : list (sim -> result (option num)) := [simulated_false_positive_rate; simulated_power].
Definition all_pass := all_robustness_checks_pass kstest binomtest ttest_1samp.

Lemma p_values_none v s : In v (p_values ++ rates) -> (v s = Ok None <-> sm_aa s = None).
Proof.
  intros H. split.
  - intros E. destruct (sm_aa s) as [l|] eqn:EA; auto. exfalso.
    cbn [p_values rates app In] in H. decompose [or] H; subst; try contradiction;
      unfold null_p_value_robustness_p_value, power_robustness_p_value, false_positive_rate_robustness_p_value,
        aa_point_estimate_robustness_p_value, ab_point_estimate_robustness_p_value, simulated_false_positive_rate, simulated_power in E;
      rewrite EA in E; repeat (apply bind_ok in E as (? & _ & E)); try discriminate.
    destruct (sm_mde s); [|discriminate]. apply bind_ok in E as (? & _ & E). discriminate.
  - intros EA. cbn [p_values rates app In] in H. decompose [or] H; subst; try contradiction;
      unfold null_p_value_robustness_p_value, power_robustness_p_value, false_positive_rate_robustness_p_value,
        aa_point_estimate_robustness_p_value, ab_point_estimate_robustness_p_value, simulated_false_positive_rate, simulated_power;
      now rewrite EA.
Qed.
Lemma check_none v s : In v p_values -> (check_pass v s = Ok None <-> sm_aa s = None).
Proof.
  intros H. rewrite <- (p_values_none v s) by (apply in_or_app; now left). unfold check_pass. destruct (v s) as [[p|]|e]; cbn; split; congruence.
Qed.

(** every value is None before a validation has succeeded and never after *)
Theorem c71_values_are_none_until_validated :
  forall d f item week minimum period treat threshold s x h y,
    mk_sim d f item week minimum period treat threshold = Ok s -> history (s, x) h y ->
    (forall v, In v (p_values ++ rates) -> (v (fst y) = Ok None <-> ~ succeeded is_validate h)) /\
    (forall v, In v checks -> (v (fst y) = Ok None <-> ~ succeeded is_validate h)) /\
    (all_pass (fst y) = Ok None <-> ~ succeeded is_validate h).
Proof.
  intros d f item week minimum period treat threshold s x h y HS HH.
  destruct (c71_attributes_tell_what_has_succeeded _ _ _ _ _ _ _ _ _ _ _ _ HS HH) as (_ & _ & _ & _ & _ & HA & _).
  assert (HN : sm_aa (fst y) = None <-> ~ succeeded is_validate h).
  { rewrite <- HA. destruct (sm_aa (fst y)); split; try congruence. intros X. exfalso. apply X. discriminate. }
  clear HA. rewrite <- HN.
  assert (CK : forall v, In v checks -> (v (fst y) = Ok None <-> sm_aa (fst y) = None)).
  { intros v Hv. cbn [checks In] in Hv. decompose [or] Hv; subst; try contradiction; apply check_none; cbn [p_values In]; auto 7. }
  split; [intros v Hv; rewrite <- HN; now apply p_values_none|]. split; [intros v Hv; rewrite <- HN; now apply CK|].
  unfold all_pass, all_robustness_checks_pass.
  change [null_p_value_robustness_check_pass kstest; power_robustness_check_pass binomtest; false_positive_rate_robustness_check_pass binomtest;
          aa_point_estimate_robustness_check_pass ttest_1samp; ab_point_estimate_robustness_check_pass ttest_1samp] with checks.
  split.
  - intros E. apply bind_ok in E as (bs & E1 & E). destruct (existsb _ bs) eqn:EX; [|discriminate].
    apply existsb_exists in EX as (b & Hb & Eb). destruct b; [discriminate|].
    apply mapM_ok in E1. assert (X : exists v, In v checks /\ v (fst y) = Ok None).
    { clear E CK. revert Hb E1. generalize checks. induction bs as [|b bs IH]; intros vs Hb F; [destruct Hb|]. inversion F as [|v ? vs' ? F1 F2]; subst.
      destruct Hb as [->|Hb]; [exists v; split; [now left|auto]|]. destruct (IH _ Hb F2) as (v' & ? & ?). exists v'. split; [now right|auto]. }
    destruct X as (v & Hv & Ev). now apply (CK v Hv).
  - intros EA. assert (X : mapM (fun c => c (fst y)) checks = Ok (repeat None 5)).
    { rewrite (mapM_total _ (fun _ => None)); [reflexivity|]. intros v Hv. now apply CK. }
    rewrite X. reflexivity.
Qed.

(** and all_robustness_checks_pass is the conjunction of the checks *)
Theorem c71_all_pass_is_the_conjunction :
  forall s b, all_pass s = Ok (Some b) ->
    (forall v, In v checks -> exists c, v s = Ok (Some c)) /\ (b = true <-> forall v, In v checks -> v s = Ok (Some true)).
Proof.
  intros s b H. unfold all_pass, all_robustness_checks_pass in H.
  change [null_p_value_robustness_check_pass kstest; power_robustness_check_pass binomtest; false_positive_rate_robustness_check_pass binomtest;
          aa_point_estimate_robustness_check_pass ttest_1samp; ab_point_estimate_robustness_check_pass ttest_1samp] with checks in H.
  apply bind_ok in H as (bs & E & H). destruct (existsb _ bs) eqn:EX; [discriminate|].
  assert (EB : b = forallb (fun c => match c with Some b => b | None => false end) bs) by congruence. clear H.
  apply mapM_ok in E. subst b. revert EX E. generalize checks. induction bs as [|c bs IH]; intros vs EX F; inversion F as [|v ? vs' ? F1 F2]; subst.
  - split; [intros v []|]. simpl. split; auto. intros _ v [].
  - simpl in EX. apply orb_false_iff in EX as [EC EX]. destruct c as [c|]; [|discriminate]. destruct (IH _ EX F2) as [I1 I2]. split.
    + intros w [<-|Hw]; eauto.
    + simpl. rewrite andb_true_iff, I2. split.
      * intros [-> H] w [<-|Hw]; auto.
      * intros H. split; [assert (X := H v (or_introl eq_refl)); congruence|]. intros w Hw. apply H. now right.
Qed.

(** a validation with no simulation succeeds, but afterwards nothing can be read *)
Theorem c71_validation_without_simulations :
  forall y mde, sm_mde (fst y) = Some mde ->
    exists y', perform (Validate 0) y = (y', Ok tt) /\ all_pass (fst y') = Err (KeyError "column") /\
      forall v, In v (p_values ++ rates) -> v (fst y') = Err (KeyError "column").
Proof.
  intros [s x] mde H. cbn [fst] in H. eexists. split; [cbn; unfold run_validate_design; rewrite H; reflexivity|]. split; [reflexivity|].
  intros v Hv. cbn [p_values rates app In] in Hv. decompose [or] Hv; subst; try contradiction; reflexivity.
Qed.

(** *** C72 *)
(** [p] is at least [r] *)
Definition at_least (r : R) (p : num) : Prop := p = PInf \/ exists x, p = Fin x /\ (r <= x)%R.
Lemma check_at_threshold :
  forall v s p, v s = Ok (Some p) -> exists b, check_pass v s = Ok (Some b) /\ (b = true <-> at_least (sm_threshold s) p).
Proof.
  intros v s p H. unfold check_pass. rewrite H. cbn [bind is_above_p_value_threshold]. eexists. split; [reflexivity|]. unfold at_least. destruct p as [x| | |].
  - rewrite nleb_fin. split; [intros L; right; exists x; auto|]. intros [E|(x' & E & L)]; [discriminate|]. congruence.
  - split; auto.
  - split; [discriminate|]. intros [E|(x' & E & L)]; discriminate.
  - split; [discriminate|]. intros [E|(x' & E & L)]; discriminate.
Qed.

(** each check looks at the p-value of its name *)
Theorem c72_check_passes_iff_p_value_at_threshold :
  forall s, Forall2 (fun check v =>
    (forall p, v s = Ok (Some p) -> exists b, check s = Ok (Some b) /\ (b = true <-> at_least (sm_threshold s) p)) /\
    (v s = Ok None -> check s = Ok None) /\ (forall e, v s = Err e -> check s = Err e)) checks p_values.
Proof.
  assert (GG : forall v s, (forall p, v s = Ok (Some p) -> exists b, check_pass v s = Ok (Some b) /\ (b = true <-> at_least (sm_threshold s) p)) /\
    (v s = Ok None -> check_pass v s = Ok None) /\ (forall e, v s = Err e -> check_pass v s = Err e)).
  { intros v s. split; [intros p; apply check_at_threshold|]. unfold check_pass. split; [intros ->|intros e ->]; reflexivity. }
  intros s. unfold checks, p_values. repeat (apply Forall2_cons; [apply GG|]). apply Forall2_nil.
Qed.

(** [k] of the elements have the property *)
Inductive count {A} (P : A -> Prop) : list A -> nat -> Prop :=
| count_nil : count P [] 0
| count_yes a l k : P a -> count P l k -> count P (a :: l) (S k)
| count_no a l k : ~ P a -> count P l k -> count P (a :: l) k.
Definition below (r : R) (p : num) : Prop := p = NInf \/ exists x, p = Fin x /\ (x < r)%R.

Lemma significant_count a l : exists k, count (fun t => below a (r_p_value t)) l k /\ (k <= List.length l)%nat /\
  zsum (map (fun x => if nltb x (Fin a) then 1%Z else 0%Z) (map r_p_value l)) = Z.of_nat k.
Proof.
  induction l as [|t l (k & IH & LE & E)]; [exists 0%nat; split; [constructor|]; auto|].
  assert (X : nltb (r_p_value t) (Fin a) = true <-> below a (r_p_value t)).
  { unfold below. destruct (r_p_value t) as [x| | |].
    - rewrite nltb_fin. split; [intros L; right; exists x; auto|]. intros [F|(x' & F & L)]; [discriminate|]. congruence.
    - split; [discriminate|]. intros [F|(x' & F & L)]; discriminate.
    - split; auto.
    - split; [discriminate|]. intros [F|(x' & F & L)]; discriminate. }
  cbn [map zsum fold_right]. fold (zsum (map (fun x => if nltb x (Fin a) then 1%Z else 0%Z) (map r_p_value l))). rewrite E.
  destruct (nltb (r_p_value t) (Fin a)) eqn:EN.
  - exists (S k). split; [constructor; auto; now apply X|]. split; [simpl; lia|lia].
  - exists k. split; [apply count_no; auto; rewrite <- X; discriminate|]. split; [simpl; lia|lia].
Qed.

Lemma rate_of_count k n : (0 < n)%nat -> (k <= n)%nat ->
  ndiv (Fin (IZR (Z.of_nat k))) (Fin (INR n)) = Fin (INR k / INR n) /\ (0 <= INR k / INR n <= 1)%R.
Proof.
  intros L1 L2. assert (P : (0 < INR n)%R) by (apply lt_0_INR; auto). apply le_INR in L2. assert (Q := pos_INR k). split.
  - rewrite <- INR_IZR_INZ. apply ndiv_fin. lra.
  - unfold Rdiv. split; [apply Rmult_le_pos; auto; left; now apply Rinv_0_lt_compat|].
    apply Rmult_le_reg_r with (INR n); auto. rewrite Rmult_assoc, Rinv_l by lra. lra.
Qed.

(** the rates are the fractions of the simulations significant at the level of the design *)
Theorem c72_rates_are_fractions_of_significant_simulations :
  forall s aa ab, sm_aa s = Some aa -> sm_ab s = Some ab -> (0 < List.length aa)%nat -> (0 < List.length ab)%nat ->
    exists k j,
      count (fun t => below (B2R (alpha (par (sm_design s)))) (r_p_value t)) aa k /\
      count (fun t => below (B2R (alpha (par (sm_design s)))) (r_p_value t)) ab j /\
      simulated_false_positive_rate s = Ok (Some (Fin (INR k / INR (List.length aa)))) /\
      simulated_power s = Ok (Some (Fin (INR j / INR (List.length ab)))) /\
      (0 <= INR k / INR (List.length aa) <= 1)%R /\ (0 <= INR j / INR (List.length ab) <= 1)%R /\
      (* and these are the numbers tested against the design *)
      (forall p, binomtest (Z.of_nat k) (Z.of_nat (List.length aa)) (alpha (par (sm_design s))) "greater" = Ok p ->
         false_positive_rate_robustness_p_value binomtest s = Ok (Some p)) /\
      (forall p, binomtest (Z.of_nat j) (Z.of_nat (List.length ab)) (power (par (sm_design s))) "less" = Ok p ->
         power_robustness_p_value binomtest s = Ok (Some p)).
Proof.
  intros s aa ab EA EB LA LB. set (a := B2R (alpha (par (sm_design s)))).
  destruct (significant_count a aa) as (k & C1 & K1 & E1). destruct (significant_count a ab) as (j & C2 & K2 & E2).
  exists k, j. split; auto. split; auto.
  destruct (rate_of_count k _ LA K1) as [R1 R2]. destruct (rate_of_count j _ LB K2) as [R3 R4].
  assert (CO : forall l, (0 < List.length l)%nat -> is_statistically_significant s l = Ok (map (fun x => if nltb x (Fin a) then 1%Z else 0%Z) (map r_p_value l))).
  { intros [|t l] L; [simpl in L; lia|]. reflexivity. }
  split; [unfold simulated_false_positive_rate; rewrite EA, CO by auto; cbn [bind]; unfold zmean; now rewrite E1, !map_length, R1|].
  split; [unfold simulated_power, ab_results; rewrite EA, EB; cbn [bind]; rewrite CO by auto; cbn [bind]; unfold zmean; now rewrite E2, !map_length, R3|].
  split; [exact R2|]. split; [exact R4|]. split; intros p Hp.
  - unfold false_positive_rate_robustness_p_value. rewrite EA, CO by auto. cbn [bind]. rewrite E1, !map_length, Hp. reflexivity.
  - unfold power_robustness_p_value, ab_results. rewrite EA, EB. cbn [bind]. rewrite CO by auto. cbn [bind]. rewrite E2, !map_length, Hp. reflexivity.
Qed.

(** the hypotheses that are tested: p-values of the A/A tests uniform, the two rates, estimates of the A/A
    tests with mean 0 and of the A/B tests with the estimated minimum detectable effect as mean *)
Theorem c72_what_is_tested :
  forall s aa ab mde p1 p2 p3, sm_aa s = Some aa -> sm_ab s = Some ab -> sm_mde s = Some mde -> aa <> [] -> ab <> [] ->
    kstest (map r_p_value aa) = Ok p1 -> ttest_1samp (map r_abs aa) (Fin 0) = Ok p2 -> ttest_1samp (map r_abs ab) mde = Ok p3 ->
    null_p_value_robustness_p_value kstest s = Ok (Some p1) /\
    aa_point_estimate_robustness_p_value ttest_1samp s = Ok (Some p2) /\
    ab_point_estimate_robustness_p_value ttest_1samp s = Ok (Some p3).
Proof.
  intros s [|x aa] [|y ab] mde p1 p2 p3 EA EB EM NA NB H1 H2 H3; try congruence.
  unfold null_p_value_robustness_p_value, aa_point_estimate_robustness_p_value, ab_point_estimate_robustness_p_value, ab_results.
  rewrite EA, EB, EM. cbn [bind column_of]. rewrite H1, H2, H3. repeat split.
Qed.
End Props.
End State.

(** *** Cases *)
Definition validated_sim (aa ab : list tresult) : sim :=
  mkSim short_design "item" "week" 6 (Some 17%Z) "period" "arm" (1 / 20)%R (Some (Fin 2)) (Some (Fin 1)) (Some (Fin 2)) (Some (Fin 3)) (Some aa) (Some ab).
Definition with_p_value (p est : R) : tresult :=
  mkTR false (1 / 20) (Fin p) (Fin 0) (Fin est) (Fin 0) (Fin 0) None None None (Fin 1) 10 (Fin 8) (Fin 1).
Lemma alpha_small : (3 / 100 < B2R (alpha short_params) < 7 / 100)%R.
Proof.
  cbn [alpha short_params]. destruct (Analysis_Props2.flit_val 5 100) as [_ V]; try lia. rewrite V. unfold rnd.
  assert (H : (Rabs (round radix2 (FLT_exp (-1074) 53) ZnearestE (5 / 100) - 5 / 100) <= bpow radix2 (-10))%R).
  { apply Rle_trans with (ulp radix2 (FLT_exp (-1074) 53) (5 / 100)); [apply error_le_ulp; auto with typeclass_instances|].
    rewrite ulp_neq_0 by lra. apply bpow_le. unfold cexp. rewrite (mag_unique radix2 (5 / 100) (-4)); [vm_compute; discriminate|].
    rewrite Rabs_pos_eq by lra. simpl. lra. }
  change (bpow radix2 (-10)) with (/ 1024)%R in H. apply Rabs_le_inv in H. lra.
Qed.

(** two simulations, one significant A/A test and two significant A/B tests *)
Example c72_example :
  let s := validated_sim [with_p_value (1 / 100) 1; with_p_value (1 / 2) 0] [with_p_value (1 / 100) 3; with_p_value (2 / 100) 2] in
  simulated_false_positive_rate s = Ok (Some (Fin (1 / 2))) /\ simulated_power s = Ok (Some (Fin 1)) /\
  (* with tests that always give 1/20 the checks pass *)
  all_pass (fun _ => Ok (Fin (1 / 20))) (fun _ _ _ _ => Ok (Fin (1 / 20))) (fun _ _ => Ok (Fin (1 / 20))) s = Ok (Some true) /\
  all_pass (fun _ => Ok (Fin (1 / 21))) (fun _ _ _ _ => Ok (Fin (1 / 20))) (fun _ _ => Ok (Fin (1 / 20))) s = Ok (Some false).
Proof.
  intros s. destruct alpha_small as [A1 A2].
  destruct (c72_rates_are_fractions_of_significant_simulations (fun _ _ _ _ => Ok NaN) s _ _ eq_refl eq_refl) as (k & j & C1 & C2 & R1 & R2 & _); [simpl; lia..|].
  assert (L : forall x, (below (B2R (alpha (par (sm_design s)))) (Fin x) <-> (x < B2R (alpha short_params))%R)).
  { intros x. split; [intros [E|(y & E & H)]; [discriminate|]; inversion E; subst; exact H|intros H; right; eauto]. }
  assert (K : k = 1%nat).
  { inversion C1 as [|? ? ? P Q|? ? ? P Q]; subst; cbn [r_p_value with_p_value] in P; rewrite L in P; [|lra].
    inversion Q as [|? ? ? P' Q'|? ? ? P' Q']; subst; cbn [r_p_value with_p_value] in P'; rewrite L in P'; [lra|]. inversion Q'. reflexivity. }
  assert (J : j = 2%nat).
  { inversion C2 as [|? ? ? P Q|? ? ? P Q]; subst; cbn [r_p_value with_p_value] in P; rewrite L in P; [|lra].
    inversion Q as [|? ? ? P' Q'|? ? ? P' Q']; subst; cbn [r_p_value with_p_value] in P'; rewrite L in P'; [|lra]. inversion Q'. reflexivity. }
  subst k j. assert (EF : forall x y : R, x = y -> Fin x = Fin y) by congruence.
  split; [rewrite R1; do 2 f_equal; apply EF; simpl; lra|]. split; [rewrite R2; do 2 f_equal; apply EF; simpl; lra|].
  assert (T1 : nleb (Fin (1 / 20)) (Fin (1 / 20)) = true) by (apply nleb_fin; lra).
  assert (T2 : nleb (Fin (1 / 20)) (Fin (1 / 21)) = false) by (apply not_true_iff_false; rewrite nleb_fin; lra).
  split; cbn [all_pass all_robustness_checks_pass mapM null_p_value_robustness_check_pass power_robustness_check_pass
    false_positive_rate_robustness_check_pass aa_point_estimate_robustness_check_pass ab_point_estimate_robustness_check_pass];
    unfold all_pass, all_robustness_checks_pass; cbn [mapM]; unfold null_p_value_robustness_check_pass, power_robustness_check_pass,
    false_positive_rate_robustness_check_pass, aa_point_estimate_robustness_check_pass, ab_point_estimate_robustness_check_pass, check_pass,
    null_p_value_robustness_p_value, power_robustness_p_value, false_positive_rate_robustness_p_value,
    aa_point_estimate_robustness_p_value, ab_point_estimate_robustness_p_value;
    cbn [s validated_sim sm_aa sm_ab sm_mde sm_threshold bind column_of is_statistically_significant ab_results is_above_p_value_threshold];
    rewrite ?T1, ?T2; reflexivity.
Qed.

(** a history: validating fails, so nothing can be read; Sim_Stats_Props.v has one where the calls succeed *)
Example c71_example :
  exists s, mk_sim short_design weeks_frame "item" "week" 9 "period" "arm" 0%R = Ok s /\
  history cauchy argsort_ref same_row same_row alternate (fun g _ => (0%Z, g)) (s, (weeks_frame, tt))
    [(Validate 3, Err (RuntimeError "Cannot run validate_design() before estimate_minimum_detectable_effect()."))] (s, (weeks_frame, tt)) /\
  all_pass (fun _ => Ok NaN) (fun _ _ _ _ => Ok NaN) (fun _ _ => Ok NaN) s = Ok None /\
  (* a simulation analysis with an estimate can be validated without simulations *)
  exists y', perform cauchy argsort_ref same_row same_row alternate (fun g _ => (0%Z, g)) (Validate 0) (validated_sim [] [], (weeks_frame, tt)) = (y', Ok tt).
Proof.
  eexists. split; [reflexivity|]. split; [eapply h_call; [apply h_start|reflexivity]|]. split; [reflexivity|]. eexists. reflexivity.
Qed.

Print Assumptions c71_validate_first_is_an_error.
Print Assumptions c71_failed_calls_change_no_attribute.
Print Assumptions c71_attributes_tell_what_has_succeeded.
Print Assumptions c71_estimating_again_keeps_old_results.
Print Assumptions c71_one_result_per_simulation.
Print Assumptions c71_values_are_none_until_validated.
Print Assumptions c71_all_pass_is_the_conjunction.
Print Assumptions c71_validation_without_simulations.
Print Assumptions c72_check_passes_iff_p_value_at_threshold.
Print Assumptions c72_rates_are_fractions_of_significant_simulations.
Print Assumptions c72_what_is_tested.
