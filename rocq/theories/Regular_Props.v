(** C89: what can stop the analysis of a regular experiment, and the validation of a regular design. *)
From Coq Require Import ZArith Reals Lra Lia List String Bool Permutation Sorting.Sorted Classical.
From Flocq Require Import Core BinarySingleNaN.
Require Import Verif.Base Verif.Num Verif.NumOrd Verif.F64 Verif.Frame Verif.ListLib Verif.Design_Model Verif.Design_Spec Verif.Design_Proofs Verif.Design_Yaml_Proofs Verif.Design_Props
  Verif.Trimmed_Model Verif.Trimmed_Spec Verif.Moments Verif.Trimmed_Proofs Verif.Trimmed_Real Verif.Trimmed_Props
  Verif.Cuped_Model Verif.Cuped_Props Verif.Stats_Model Verif.Stats_Num Verif.Stats_Props Verif.Tests_Proofs
  Verif.Tests_Props Verif.Tests_Props2 Verif.Periods_Model Verif.Periods_Proofs Verif.Periods_Props Verif.Rows_Model Verif.Rows_Spec Verif.Pivot_Spec Verif.Assign_Spec Verif.Assign_Model Verif.Assign_Proofs Verif.Assign_Props
  Verif.Pivot_Model Verif.Pivot_Proofs Verif.Pivot_Props Verif.Analysis_Spec Verif.Analysis_Model Verif.Analysis_Props Verif.Analysis_Props2 Verif.Effect_Props
  Verif.Simulation_Model Verif.Sim_Names_Props Verif.Sim_Boot_Props Verif.Sim_State_Props Verif.Sim_Stats_Props Verif.Sim_Estimate_Props Verif.Sim_Effect_Props.
Import ListNotations.
Open Scope string_scope.
Open Scope list_scope.
Open Scope R_scope.

(** the two ways in which a regular analysis fails once its columns are there *)
Definition empty_arm : exn := IndexError "index 0 is out of bounds".
Definition zero_control : exn := ZeroDivisionError "float division by zero".

(** *** The test on any two samples *)
Lemma trimmed_empty argsort q : is_finite q = true -> 0 <= B2R q < 1 / 2 -> mk_trimmed argsort [[]] q = Err empty_arm.
Proof.
  intros F Q. unfold mk_trimmed. rewrite (quantile_checks_ok q F Q). cbn [raise_if bind]. change (Z.of_nat (Trimmed_Model.sample_size [[]])) with 0%Z.
  destruct (floor_mul_bounds q 0 F) as (kz & E & _ & Hk); [lra|lia|].
  assert (K : kz = 0%Z) by (apply floor_mul_count in E; rewrite E; apply trim_none).
  rewrite E, K. reflexivity.
Qed.

(** both arms have items *)
Lemma ind_cases T argsort a b q : sorts argsort -> usable (List.length a) q -> usable (List.length b) q ->
  exists t1 t2, mk_trimmed argsort [a] q = Ok t1 /\ mk_trimmed argsort [b] q = Ok t2 /\
    let fails := andb (nleb (Fin 0) (vec (t_mean argsort t1) 0)) (neqb (vec (t_mean argsort t2) 0) (Fin 0)) in
    let result := yuens_t_test_ind T argsort a b q None None false "two-sided" default_alpha in
    (fails = true -> result = Err zero_control) /\ (fails = false -> exists r, result = Ok r).
Proof.
  intros HS U1 U2.
  destruct (mk_trimmed_usable argsort [a] q (List.length a) HS U1) as (t1 & E1 & _); [discriminate|intros r [<-|[]]; reflexivity|].
  destruct (mk_trimmed_usable argsort [b] q (List.length b) HS U2) as (t2 & E2 & _); [discriminate|intros r [<-|[]]; reflexivity|].
  exists t1, t2. split; auto. split; auto. intros fails result. unfold result, yuens_t_test_ind. cbn [ratio_arguments bind]. rewrite E1, E2. cbn [bind].
  unfold fails. set (m1 := vec (t_mean argsort t1) 0). set (m2 := vec (t_mean argsort t2) 0). unfold finish_ind.
  destruct (two_sample_standard_errors _ _ _ _ _) as [[se e1] e2].
  set (df := two_sample_degrees_of_freedom _ _ _ _ _). split.
  - intros X. apply andb_true_iff in X as [X1 X2]. unfold finish_test.
    assert (A : exists sp, ttest_from_stats T (nsub m1 m2) se df "two-sided" = Ok sp) by (unfold ttest_from_stats; cbn [String.eqb Ascii.eqb Bool.eqb]; eauto).
    destruct A as (sp & ->). cbn [bind].
    assert (B : exists ci, absolute_difference_confidence_interval T m1 m2 e1 e2 (Fin 0) df "two-sided" default_alpha = Ok ci)
      by (unfold absolute_difference_confidence_interval; cbn [String.eqb Ascii.eqb Bool.eqb]; eauto).
    destruct B as (ci & ->). cbn [bind]. rewrite X1.
    assert (X3 : nleb (Fin 0) m2 = true). { apply neqb_eq in X2. rewrite X2. apply nleb_fin. lra. }
    rewrite X3. cbn [andb]. unfold py_div. rewrite X2. reflexivity.
  - intros X. apply finish_test_total; [now left|]. intros Q1 Q2. rewrite Q1 in X. cbn [andb] in X. unfold py_div. rewrite X. eauto.
Qed.

(** one arm has no item *)
Lemma ind_empty T argsort a b q : sorts argsort -> is_finite q = true -> 0 <= B2R q < 1 / 2 ->
  (a = [] \/ usable (List.length a) q) -> (b = [] \/ usable (List.length b) q) -> a = [] \/ b = [] ->
  yuens_t_test_ind T argsort a b q None None false "two-sided" default_alpha = Err empty_arm.
Proof.
  intros HS F Q [-> |U1] U2 E; unfold yuens_t_test_ind; cbn [ratio_arguments bind].
  - now rewrite (trimmed_empty argsort q F Q).
  - destruct (mk_trimmed_usable argsort [a] q (List.length a) HS U1) as (t1 & E1 & _); [discriminate|intros r [<-|[]]; reflexivity|].
    rewrite E1. cbn [bind]. destruct E as [-> | ->]; [destruct U1 as [X _]; inversion X|]. now rewrite (trimmed_empty argsort q F Q).
Qed.

Lemma cuped_total argsort m c q n : sorts argsort -> usable n q -> List.length m = n -> List.length c = n ->
  exists y, apply_cuped_adjustment argsort m c q = Ok y /\ List.length y = n.
Proof.
  intros HS U Lm Lc. unfold apply_cuped_adjustment. rewrite Lm, Lc, Nat.eqb_refl. cbn [negb raise_if bind].
  set (th := ndiv (np_cov m c) (np_cov c c)). set (first := zip_with (fun x y => nsub x (nmul th (nsub y (nmean c)))) m c).
  assert (ZL : forall f : num -> num -> num, List.length (zip_with f m c) = n) by (intros f; unfold zip_with; rewrite map_length, combine_length; lia).
  destruct (mk_trimmed_usable argsort [first; m; c] q n HS U) as (t & E & _ & _ & _); [discriminate| |].
  { intros r [<-|[<-|[<-|[]]]]; auto. apply ZL. }
  rewrite E. cbn [bind]. destruct (Nat.eqb _ 0); [exists first; split; [reflexivity|apply ZL]|].
  set (th2 := ndiv (mentry _ 1 2) (mentry _ 2 2)). set (no := zip_with (fun x y => nsub x (nmul th2 y)) m c).
  destruct (mk_trimmed_usable argsort [m] q n HS U) as (t1 & E1 & _); [discriminate|intros r [<-|[]]; auto|]. rewrite E1. cbn [bind].
  destruct (mk_trimmed_usable argsort [no] q n HS U) as (t2 & E2 & _); [discriminate|intros r [<-|[]]; apply ZL|]. rewrite E2. cbn [bind].
  destruct (nltb _ _); eexists; (split; [reflexivity|]); auto. rewrite map_length. apply ZL.
Qed.

(** *** Any regular analysis *)
Section Regular.
Context {K : Type} (arm : K -> option Z).

(** some row is in this arm *)
Definition arm_has_items (t : table K) (a : Z) : Prop := exists r, In r (t_rows t) /\ arm (fst r) = Some a.
(** the values of the rows of an arm *)
Definition arm_rows (t : table K) (a : Z) (v : list num) : list num :=
  select (map (arm_is a) (map (fun r => arm (fst r)) (t_rows t))) v.

Lemma select_length {A} (mask : list bool) : forall l : list A, (List.length (select mask l) <= List.length l)%nat.
Proof.
  induction mask as [|b mask IH]; intros [|x l]; try (cbn; lia). specialize (IH l). unfold select in *. cbn. destruct b; cbn; lia.
Qed.
Lemma arm_rows_nonempty t a v : List.length v = List.length (t_rows t) -> (arm_rows t a v <> [] <-> arm_has_items t a).
Proof.
  unfold arm_rows, arm_has_items. revert v. induction (t_rows t) as [|r rows IH]; intros [|x v] L; try discriminate.
  - split; [intros X; now destruct X|intros (r & [] & _)].
  - cbn [List.length] in L. specialize (IH v ltac:(lia)). unfold select in *. cbn [map combine filter fst].
    destruct (arm_is a (arm (fst r))) eqn:E; cbn [map].
    + split; [|discriminate]. intros _. exists r. split; [now left|]. unfold arm_is in E. destruct (arm (fst r)); [|discriminate]. apply Z.eqb_eq in E. now subst.
    + rewrite IH. split; intros (r0 & I & H); exists r0; (split; [|exact H]); [now right|].
      destruct I as [<-|I]; auto. rewrite H in E. cbn in E. now rewrite Z.eqb_refl in E.
Qed.

(** what is compared: the values of the test period, adjusted if there are pretest values *)
Lemma regular_analysis T argsort t p m override test pre : sorts argsort -> NoDup (t_cols t) -> crossover p = false ->
  let q := chosen p override in usable (List.length (t_rows t)) q ->
  holds t (m, "test") test ->
  match pre with Some x => holds t (m, "pretest") x | None => pretest p = 0%Z /\ ~ In (m, "pretest") (t_cols t) end ->
  exists y, match pre with Some x => apply_cuped_adjustment argsort test x q | None => Ok test end = Ok y /\
    List.length y = List.length (t_rows t) /\
    analyze_single_metric T argsort arm t true p m None override =
    yuens_t_test_ind T argsort (arm_rows t 1 y) (arm_rows t 0 y) q None None false "two-sided" default_alpha.
Proof.
  intros HS ND C q U HT HP.
  assert (HL : forall c v, holds t c v -> List.length v = List.length (t_rows t)).
  { intros c v (i & _ & F). clear - F. induction F; cbn; congruence. }
  assert (Y : exists y, match pre with Some x => apply_cuped_adjustment argsort test x q | None => Ok test end = Ok y /\ List.length y = List.length (t_rows t)).
  { destruct pre as [x|]; [apply cuped_total; auto; eapply HL; eauto|]. exists test. split; auto. eapply HL; eauto. }
  destruct Y as (y & EY & LY). exists y. split; auto. split; auto.
  unfold analyze_single_metric. destruct (metric_subset_spec arm t m _ _ ND HT) as (s & -> & EA & G & N). cbn [bind].
  assert (RP : complete p s = true).
  { unfold complete, required_periods. rewrite C, EA. destruct pre as [x|].
    - destruct (0 <? pretest p)%Z; cbn [forallb]; now rewrite (G _ _ HT), ?(G _ _ HP).
    - destruct HP as [-> _]. cbn [Z.ltb Z.compare forallb]. now rewrite (G _ _ HT). }
  rewrite RP, C. cbn [andb negb raise_if bind].
  replace (match override with None => post p | Some q0 => q0 end) with q by (unfold q, chosen; now destruct override).
  unfold analyze_regular, prepare_regular, period_values, arm_values. rewrite (G _ _ HT), EA.
  destruct pre as [x|]; [rewrite (G _ _ HP)|rewrite (N _ (proj2 HP))]; rewrite EY; reflexivity.
Qed.

Lemma arm_usable t a v q : usable (List.length (t_rows t)) q -> List.length v = List.length (t_rows t) -> arm_rows t a v <> [] ->
  usable (List.length (arm_rows t a v)) q.
Proof.
  intros (_ & B & Q) L N. assert (X := select_length (map (arm_is a) (map (fun r => arm (fst r)) (t_rows t))) v). fold (arm_rows t a v) in X.
  split; [destruct (arm_rows t a v); [congruence|cbn; lia]|]. split; [lia|exact Q].
Qed.

Theorem c89_what_stops_a_regular_analysis :
  forall T argsort t p m override test pre, sorts argsort -> NoDup (t_cols t) -> crossover p = false ->
    usable (List.length (t_rows t)) (chosen p override) ->
    holds t (m, "test") test ->
    match pre with Some x => holds t (m, "pretest") x | None => pretest p = 0%Z /\ ~ In (m, "pretest") (t_cols t) end ->
    let result := analyze_single_metric T argsort arm t true p m None override in
    (result = Err empty_arm <-> ~ arm_has_items t 1 \/ ~ arm_has_items t 0) /\
    (arm_has_items t 1 -> arm_has_items t 0 -> result = Err zero_control \/ exists r, result = Ok r).
Proof.
  intros T argsort t p m override test pre HS ND C U HT HP result.
  destruct (regular_analysis T argsort t p m override test pre HS ND C U HT HP) as (y & _ & LY & E). unfold result. rewrite E. clear E.
  assert (N1 := arm_rows_nonempty t 1 y LY). assert (N0 := arm_rows_nonempty t 0 y LY).
  assert (Q := U). destruct Q as (_ & _ & F & Q).
  assert (BOTH : arm_has_items t 1 -> arm_has_items t 0 ->
    let result := yuens_t_test_ind T argsort (arm_rows t 1 y) (arm_rows t 0 y) (chosen p override) None None false "two-sided" default_alpha in
    result = Err zero_control \/ exists r, result = Ok r).
  { intros H1 H0. apply N1 in H1. apply N0 in H0.
    destruct (ind_cases T argsort _ _ (chosen p override) HS (arm_usable t 1 y _ U LY H1) (arm_usable t 0 y _ U LY H0)) as (t1 & t2 & _ & _ & A & B).
    destruct (andb _ _); [left; now apply A|right; now apply B]. }
  split; [|exact BOTH]. split.
  - intros X. apply NNPP. intros Y. destruct BOTH as [Z|(r & Z)]; try (rewrite X in Z; discriminate); apply NNPP; intros W; apply Y; auto.
  - intros X. assert (D : forall a, arm_rows t a y = [] \/ usable (List.length (arm_rows t a y)) (chosen p override)).
    { intros a. destruct (arm_rows t a y) eqn:EA; [now left|right]. rewrite <- EA. apply arm_usable; auto. rewrite EA. discriminate. }
    apply ind_empty; auto. rewrite <- N1, <- N0 in X. destruct X as [X|X]; [left|right]; apply NNPP; exact X.
Qed.

(** *** Exactly when the numbers allow it *)

(** two samples that can be compared: neither is empty, and it is not the case that the trimmed mean of
    the second one is zero while that of the first one is not negative *)
Definition comparable (q : f64) (treated controls : list R) : Prop :=
  treated <> [] /\ controls <> [] /\
  forall st sc, sorted_as treated st -> sorted_as controls sc ->
    tmean (Z.to_nat (trim_each (List.length controls) q)) sc = 0 -> tmean (Z.to_nat (trim_each (List.length treated) q)) st < 0.

Lemma ind_succeeds_iff T argsort xs ys q : sorts argsort -> is_finite q = true -> 0 <= B2R q < 1 / 2 ->
  (Z.of_nat (List.length xs) <= 2 ^ 53)%Z -> (Z.of_nat (List.length ys) <= 2 ^ 53)%Z ->
  let result := yuens_t_test_ind T argsort (data xs) (data ys) q None None false "two-sided" default_alpha in
  (is_ok result <-> comparable q xs ys) /\ (xs <> [] -> ys <> [] -> ~ comparable q xs ys -> result = Err zero_control).
Proof.
  intros HS F Q B1 B2 result.
  assert (US : forall zs : list R, (Z.of_nat (List.length zs) <= 2 ^ 53)%Z -> zs <> [] -> usable (List.length zs) q).
  { intros zs B N. split; [destruct zs; [congruence|cbn; lia]|]. auto. }
  assert (D : forall zs : list R, (Z.of_nat (List.length zs) <= 2 ^ 53)%Z -> data zs = [] \/ usable (List.length (data zs)) q).
  { intros zs B. destruct zs as [|z zs]; [now left|right]. unfold data. rewrite map_length. apply US; auto. discriminate. }
  destruct (list_eq_dec Req_EM_T xs []) as [E|N1]; [|destruct (list_eq_dec Req_EM_T ys []) as [E|N2]].
  - assert (X : result = Err empty_arm) by (apply ind_empty; auto; left; now subst).
    split; [|congruence]. rewrite X. split; [intros (r & Y); discriminate|intros (Y & _); contradiction].
  - assert (X : result = Err empty_arm) by (apply ind_empty; auto; right; now subst).
    split; [|congruence]. rewrite X. split; [intros (r & Y); discriminate|intros (_ & Y & _); contradiction].
  - destruct (sorted_exists xs) as (sx & Sx). destruct (sorted_exists ys) as (sy & Sy).
    destruct (c59_relative_difference_independent T argsort xs ys q false "two-sided" default_alpha sx sy HS (US _ B1 N1) (US _ B2 N2) Sx Sy ltac:(now left)) as (Z & P & M).
    fold result in Z, P, M. set (m1 := tmean _ sx) in *. set (m2 := tmean _ sy) in *.
    assert (CM : comparable q xs ys <-> (m2 = 0 -> m1 < 0)).
    { split; [intros (_ & _ & H); exact (H sx sy Sx Sy)|]. intros H. split; auto. split; auto. intros st sc St Sc.
      rewrite (sorted_as_unique _ _ _ St Sx), (sorted_as_unique _ _ _ Sc Sy). exact H. }
    rewrite CM. clear CM. split; [split|].
    + intros (r & X) E. apply Rnot_le_lt. intros L. rewrite Z in X by auto. discriminate.
    + intros H. destruct (Rlt_dec m1 0) as [L|L]; [destruct M as (r & X & _); auto; exists r; exact X|].
      destruct (Rtotal_order m2 0) as [L2|[L2|L2]]; [destruct M as (r & X & _); auto; exists r; exact X|contradict L; auto|].
      destruct P as (r & ? & ? & X & _); [lra..|]. exists r. exact X.
    + intros _ _ H. apply Z.
      * apply Rnot_lt_le. intros L. apply H. auto.
      * apply NNPP. intros L. apply H. intros; contradiction.
Qed.

Theorem c89_without_pretest_succeeds_iff :
  forall T argsort t p m l override, sorts argsort -> NoDup (t_cols t) -> crossover p = false ->
    pretest p = 0%Z -> ~ In (m, "pretest") (t_cols t) ->
    let q := chosen p override in is_finite q = true -> 0 <= B2R q < 1 / 2 -> (Z.of_nat (List.length l) <= 2 ^ 53)%Z ->
    regular_items arm t m (map finite_pair l) ->
    (is_ok (analyze_single_metric T argsort arm t true p m None override) <-> comparable q (values_of_arm 1 l) (values_of_arm 0 l)).
Proof.
  intros T argsort t p m l override HS ND C PT NP q F Q B IT.
  rewrite (analysis_regular arm T argsort t p m _ override ND C PT NP IT), !values_finite.
  assert (LE : forall a, (Z.of_nat (List.length (values_of_arm a l)) <= 2 ^ 53)%Z).
  { intros a. unfold values_of_arm. rewrite map_length. assert (X := Rank.filter_length_le (fun x : option Z * R => match fst x with Some z => Z.eqb z a | None => false end) l). lia. }
  apply (ind_succeeds_iff T argsort _ _ q HS F Q (LE 1%Z) (LE 0%Z)).
Qed.

(** A metric that is zero for all but a few of the items in the control arm cannot be analysed: trimming
    leaves only zeros to divide by. *)
Definition positive_values (xs : list R) : nat := List.length (filter (fun x => Rlt_bool 0 x) xs).

Lemma filter_perm {A} (f : A -> bool) l l' : Permutation l l' -> List.length (filter f l) = List.length (filter f l').
Proof. induction 1; cbn; repeat (destruct (f _); cbn); congruence. Qed.

Lemma sparse_trimmed_mean xs s k : sorted_as xs s -> (forall x, In x xs -> 0 <= x) -> (positive_values xs <= k)%nat -> tmean k s = 0.
Proof.
  intros (P & SS) NN PV. unfold positive_values in PV. rewrite (filter_perm _ _ _ P) in PV.
  assert (NN' : forall x, In x s -> 0 <= x) by (intros x I; apply NN; apply (Permutation_in x (Permutation_sym P)); auto).
  unfold tmean, middle. clear P NN xs.
  assert (Z : forall x, In x (firstn (List.length s - k) s) -> x = 0).
  { revert PV NN'. induction SS as [|a s SS IH FA]; intros PV NN x I; [destruct (_ - _)%nat in I; destruct I|].
    cbn [List.length] in I. destruct (le_lt_dec (S (List.length s)) k) as [L|L].
    { replace (S (List.length s) - k)%nat with 0%nat in I by lia. destruct I. }
    replace (S (List.length s) - k)%nat with (S (List.length s - k)) in I by lia. cbn [firstn] in I.
    assert (A0 : a = 0).
    { destruct (Rlt_dec 0 a) as [Pa|Pa]; [|assert (0 <= a) by (apply NN; now left); lra]. exfalso.
      assert (X : List.length (filter (fun x => Rlt_bool 0 x) (a :: s)) = List.length (a :: s)).
      { cbn [filter]. rewrite Rlt_bool_true by auto. cbn [List.length]. f_equal. clear - FA Pa. induction s as [|b s IH]; auto.
        inversion FA; subst. cbn [filter]. rewrite Rlt_bool_true by lra. cbn [List.length]. f_equal. now apply IH. }
      rewrite X in PV. cbn [List.length] in PV. lia. }
    destruct I as [<-|I]; auto. subst a. cbn [filter] in PV. rewrite Rlt_bool_false in PV by lra. apply IH; auto. intros y Hy. apply NN. now right. }
  match goal with |- avg ?l = 0 => assert (ZL : forall x, In x l -> x = 0) end.
  { intros x I. apply Z. destruct (le_lt_dec (2 * k) (List.length s)) as [L|L].
    - rewrite firstn_skipn_comm in I. replace (k + (List.length s - 2 * k))%nat with (List.length s - k)%nat in I by lia.
      rewrite <- (firstn_skipn k). apply in_or_app. now right.
    - replace (List.length s - 2 * k)%nat with 0%nat in I by lia. destruct I. }
  unfold avg. replace (Trimmed_Spec.total _) with 0; [unfold Rdiv; ring|]. symmetry. revert ZL. generalize (firstn (List.length s - 2 * k) (skipn k s)).
  intros l ZL. induction l as [|x l IH]; [reflexivity|]. unfold Trimmed_Spec.total in *. cbn [fold_right]. rewrite IH by (intros; apply ZL; now right).
  rewrite (ZL x) by now left. ring.
Qed.

Lemma nonneg_trimmed_mean xs s k : sorted_as xs s -> (forall x, In x xs -> 0 <= x) -> 0 <= tmean k s.
Proof.
  intros (P & _) NN. assert (Z : forall x, In x (middle k s) -> 0 <= x).
  { intros x I. apply NN. apply (Permutation_in x (Permutation_sym P)). unfold middle in I.
    rewrite <- (firstn_skipn k s). apply in_or_app. right. rewrite <- (firstn_skipn (List.length s - 2 * k) (skipn k s)). apply in_or_app. now left. }
  unfold tmean, avg. assert (T0 : 0 <= Trimmed_Spec.total (middle k s)).
  { revert Z. generalize (middle k s). induction l as [|x l IH]; intros Z; [cbn; lra|]. unfold Trimmed_Spec.total in *. cbn [fold_right].
    assert (0 <= x) by (apply Z; now left). assert (0 <= fold_right Rplus 0 l) by (apply IH; intros; apply Z; now right). lra. }
  assert (I0 := pos_INR (List.length (middle k s))). destruct I0 as [I0|I0].
  - apply Rmult_le_pos; auto. left. now apply Rinv_0_lt_compat.
  - rewrite <- I0. unfold Rdiv. rewrite Rinv_0. lra.
Qed.

Theorem c89_sparse_metrics_cannot_be_analysed :
  forall T argsort t p m l override, sorts argsort -> NoDup (t_cols t) -> crossover p = false ->
    pretest p = 0%Z -> ~ In (m, "pretest") (t_cols t) ->
    let q := chosen p override in is_finite q = true -> 0 <= B2R q < 1 / 2 -> (Z.of_nat (List.length l) <= 2 ^ 53)%Z ->
    regular_items arm t m (map finite_pair l) ->
    (forall x, In x l -> 0 <= snd x) -> values_of_arm 1 l <> [] -> values_of_arm 0 l <> [] ->
    (Z.of_nat (positive_values (values_of_arm 0 l)) <= trim_each (List.length (values_of_arm 0 l)) q)%Z ->
    analyze_single_metric T argsort arm t true p m None override = Err zero_control.
Proof.
  intros T argsort t p m l override HS ND C PT NP q F Q B IT NN N1 N0 PV.
  rewrite (analysis_regular arm T argsort t p m _ override ND C PT NP IT), !values_finite.
  assert (LE : forall a, (Z.of_nat (List.length (values_of_arm a l)) <= 2 ^ 53)%Z).
  { intros a. unfold values_of_arm. rewrite map_length. assert (X := Rank.filter_length_le (fun x : option Z * R => match fst x with Some z => Z.eqb z a | None => false end) l). lia. }
  apply (ind_succeeds_iff T argsort _ _ q HS F Q (LE 1%Z) (LE 0%Z)); auto.
  assert (NA : forall a x, In x (values_of_arm a l) -> 0 <= x).
  { intros a x I. unfold values_of_arm in I. apply in_map_iff in I as (y & <- & I). apply filter_In in I as [I _]. now apply NN. }
  intros (_ & _ & H). destruct (sorted_exists (values_of_arm 1 l)) as (st & St). destruct (sorted_exists (values_of_arm 0 l)) as (sc & Sc).
  specialize (H st sc St Sc). assert (X := nonneg_trimmed_mean _ _ (Z.to_nat (trim_each (List.length (values_of_arm 1 l)) q)) St (NA 1%Z)).
  assert (Y := sparse_trimmed_mean _ _ (Z.to_nat (trim_each (List.length (values_of_arm 0 l)) q)) Sc (NA 0%Z) ltac:(lia)). specialize (H Y). lra.
Qed.

(** With pretest values the same holds for the adjusted values; when these are undefined (nothing trimmed
    and the same pretest value everywhere), nothing is left that could fail. *)
Lemma arm_rows_items t a l (g : item -> num) : in_arms arm t (map i_arm l) -> arm_rows t a (map g l) = map g (in_arm a l).
Proof. intros E. unfold arm_rows. rewrite E. apply select_map. Qed.

Theorem c89_with_pretest_succeeds_iff :
  forall T argsort t p m l override, sorts argsort -> NoDup (t_cols t) -> crossover p = false ->
    let q := chosen p override in usable (List.length l) q -> pretest_items arm t m l ->
    let result := analyze_single_metric T argsort arm t true p m None override in
    let pre := map i_pre l in
    let compares y := is_ok result <-> comparable q (map y (in_arm 1 l)) (map y (in_arm 0 l)) in
    (trim_each (List.length l) q = 0%Z -> sqdev pre = 0 -> (is_ok result <-> in_arm 1 l <> [] /\ in_arm 0 l <> [])) /\
    (trim_each (List.length l) q = 0%Z -> sqdev pre <> 0 ->
       compares (fun x => i_test x - codev (map i_test l) pre / sqdev pre * (i_pre x - avg pre))) /\
    ((0 < trim_each (List.length l) q)%Z -> exists theta offset,
       compares (fun x => i_test x - theta * i_pre x + offset)).
Proof.
  intros T argsort t p m l override HS ND C q U IT result pre compares.
  assert (IT' := IT). destruct IT' as (IA & HP & HT). assert (U0 := U). destruct U0 as (_ & B & F & Q).
  assert (LR : List.length (t_rows t) = List.length l) by (apply (f_equal (@List.length (option Z))) in IA; now rewrite !map_length in IA).
  destruct (regular_analysis T argsort t p m override _ (Some (data (map i_pre l))) HS ND C ltac:(now rewrite LR) HT HP) as (y & EY & LY & E).
  fold q in EY, E. fold result in E.
  assert (LA : forall a, (Z.of_nat (List.length (in_arm a l)) <= 2 ^ 53)%Z).
  { intros a. assert (X := Rank.filter_length_le (fun x => match i_arm x with Some z => Z.eqb z a | None => false end) l). unfold in_arm. lia. }
  assert (GEN : forall g : item -> R, y = map (fun x => Fin (g x)) l -> compares g).
  { intros g ->. unfold compares. rewrite E, !(arm_rows_items t _ l (fun x => Fin (g x)) IA).
    assert (X := ind_succeeds_iff T argsort (map g (in_arm 1 l)) (map g (in_arm 0 l)) q HS F Q). rewrite !map_length in X.
    specialize (X (LA 1%Z) (LA 0%Z)). unfold data in X. rewrite !map_map in X. apply X. }
  split; [|split].
  - intros K0 SQ. unfold data in EY. rewrite (c48_constant_covariate_gives_nan argsort _ _ q (List.length l) HS U K0) in EY by (rewrite ?map_length; auto).
    assert (EN : y = map (fun _ => NaN) l). { assert (X : Ok y = Ok (map (fun _ : item => NaN) l)); [rewrite <- EY; f_equal|congruence]. clear. induction l; cbn; congruence. }
    subst y. rewrite E, !(arm_rows_items t _ l (fun _ => NaN) IA). set (a1 := in_arm 1 l). set (a0 := in_arm 0 l). clear E.
    assert (D : forall a : list item, (Z.of_nat (List.length a) <= 2 ^ 53)%Z -> a <> [] -> usable (List.length (map (fun _ : item => NaN) a)) q).
    { intros a La N. rewrite map_length. split; [destruct a; [congruence|cbn; lia]|auto]. }
    assert (D' : forall a : list item, (Z.of_nat (List.length a) <= 2 ^ 53)%Z -> map (fun _ : item => NaN) a = [] \/ usable (List.length (map (fun _ : item => NaN) a)) q).
    { intros a La. destruct a as [|x a]; [now left|right]. apply D; auto. discriminate. }
    assert (EM : forall a : list item, a = [] \/ a <> []) by (intros [|x a]; [now left|right; discriminate]).
    destruct (EM a1) as [E1|E1]; [|destruct (EM a0) as [E0|E0]].
    + rewrite ind_empty; auto; [|apply D', LA|apply D', LA|left; now rewrite E1]. split; [intros (r & X); discriminate|intros [X _]; contradiction].
    + rewrite ind_empty; auto; [|apply D', LA|apply D', LA|right; now rewrite E0]. split; [intros (r & X); discriminate|intros [_ X]; contradiction].
    + split; [intros _; split; auto|intros _].
      destruct (ind_cases T argsort (map (fun _ => NaN) a1) (map (fun _ => NaN) a0) q HS) as (t1 & t2 & M1 & _ & _ & X); [apply D; auto; apply LA..|].
      apply X. replace (map (fun _ : item => NaN) a1) with (repeat NaN (List.length a1)) in M1 by (clear; induction a1; cbn; congruence).
      apply mean_nan in M1. rewrite M1. reflexivity.
  - intros K0 SQ. apply GEN. assert (N2 : (2 <= List.length l)%nat).
    { destruct l as [|x [|x' l']]; simpl; try lia; exfalso; apply SQ; unfold pre, sqdev, avg; simpl; field. }
    rewrite (cuped_untrimmed argsort _ _ q (List.length l)) in EY by (rewrite ?map_length; auto).
    assert (X : adjusted (map i_test l) (map i_pre l) = map (fun x => i_test x - codev (map i_test l) pre / sqdev pre * (i_pre x - avg pre)) l).
    { unfold adjusted. rewrite zip_with_map, codev_self. reflexivity. }
    rewrite X in EY. unfold data in EY. rewrite map_map in EY. congruence.
  - intros K0. destruct (c49_trimmed_never_hurts argsort (map i_test l) (map i_pre l) q (List.length l) (Z.to_nat (trim_each (List.length l) q)) HS U) as (z & theta & offset & EZ & VZ & _);
      try (rewrite ?map_length; lia).
    exists theta, offset. apply GEN. unfold data in EY. rewrite EZ in EY. assert (y = map Fin z) by congruence. subst y z. rewrite map_map.
    clear. induction l as [|x l IH]; cbn; [reflexivity|]. f_equal. exact IH.
Qed.
End Regular.

(** *** Cases *)
(** a quarter of the items is trimmed on each side; only one of the five control items sold anything *)
Definition sparse_params : params := mkParams 1000 2 "clicks" 0 false f0 f0 (flit 25 100) None (flit 5 100) (flit 8 10) None.
Definition sparse_list : list (option Z * R) :=
  [(Some 1%Z, 3); (Some 1%Z, 4); (Some 0%Z, 0); (Some 0%Z, 0); (Some 0%Z, 9); (Some 0%Z, 0); (Some 0%Z, 0)].
Definition sparse_table : table (string * Z) :=
  mkT [("clicks", "test")] [(("a", 1%Z), [Fin 3]); (("b", 1%Z), [Fin 4]); (("c", 0%Z), [Fin 0]); (("d", 0%Z), [Fin 0]); (("e", 0%Z), [Fin 9]); (("f", 0%Z), [Fin 0]); (("g", 0%Z), [Fin 0])].
Lemma quarter : is_finite (flit 25 100) = true /\ 0 <= B2R (flit 25 100) < 1 / 2.
Proof.
  split; [reflexivity|].
  replace (B2R (flit 25 100)) with (SF2R radix2 (B2SF (flit 25 100))) by apply SF2R_B2SF.
  replace (B2SF (flit 25 100)) with (SpecFloat.S754_finite false 4503599627370496 (-54)) by (vm_compute; reflexivity).
  unfold SF2R, F2R. simpl. lra.
Qed.
Example c89_example_sparse :
  analyze_single_metric cauchy argsort_ref arm_of sparse_table true sparse_params "clicks" None None = Err zero_control /\
  is_ok (analyze_single_metric cauchy argsort_ref arm_of sparse_table true sparse_params "clicks" None (Some f0)).
Proof.
  assert (ND : NoDup (t_cols sparse_table)) by (repeat constructor; intros []).
  assert (NP : ~ In ("clicks", "pretest") (t_cols sparse_table)) by (simpl; intuition discriminate).
  assert (IT : regular_items arm_of sparse_table "clicks" (map finite_pair sparse_list)).
  { split; [reflexivity|]. exists 0%nat. split; [reflexivity|repeat constructor]. }
  destruct quarter as [F Q]. split.
  - apply (c89_sparse_metrics_cannot_be_analysed arm_of cauchy argsort_ref sparse_table sparse_params "clicks" sparse_list None); auto; try discriminate.
    + apply argsort_ref_sorts.
    + intros x I. repeat (destruct I as [<-|I]; [cbn; lra|]). destruct I.
    + assert (E : floor_mul (flit 25 100) 5 = Ok 1%Z) by (vm_compute; reflexivity). apply floor_mul_count in E. unfold trim_count in E. rewrite rnd_IZR in E by lia.
      change (List.length (values_of_arm 0 sparse_list)) with 5%nat. unfold trim_each. cbn [chosen sparse_params post]. replace (INR 5) with (IZR 5) by (simpl; lra). rewrite <- E.
      unfold positive_values, values_of_arm, sparse_list. cbn. rewrite !(Rlt_bool_false 0 0) by lra. rewrite (Rlt_bool_true 0 9) by lra. cbn. lia.
  - destruct f0_val as [F0 V0].
    apply (c89_without_pretest_succeeds_iff arm_of cauchy argsort_ref sparse_table sparse_params "clicks" sparse_list (Some f0)); auto; cbn [chosen]; try rewrite V0; try lra.
    + apply argsort_ref_sorts.
    + vm_compute; discriminate.
    + split; [discriminate|]. split; [discriminate|]. intros st sc _ Sc.
      destruct (usable_0 (List.length (values_of_arm 0 sparse_list))) as [_ Z2]; [cbn; lia|vm_compute; discriminate|]. rewrite Z2. change (Z.to_nat 0) with 0%nat.
      rewrite (tmean_0 _ _ Sc). unfold avg. cbn. lra.
Qed.
(** the arms of the example of C64 are comparable after the adjustment for the pretest *)
Example c89_example_pretest : pretest_items arm_of (pretest_table 0) "clicks" (pretest_list 0) /\
  usable (List.length (pretest_list 0)) (chosen pretest_design None) /\ sqdev (map i_pre (pretest_list 0)) <> 0 /\
  trim_each (List.length (pretest_list 0)) (chosen pretest_design None) = 0%Z /\
  let pre := map i_pre (pretest_list 0) in
  let y := fun x => i_test x - codev (map i_test (pretest_list 0)) pre / sqdev pre * (i_pre x - avg pre) in
  comparable (chosen pretest_design None) (map y (in_arm 1 (pretest_list 0))) (map y (in_arm 0 (pretest_list 0))).
Proof.
  destruct (pretest_runs 0 ltac:(lra)) as (ND & IT & SQ & r & H).
  destruct (usable_0 (List.length (pretest_list 0))) as [U Z]; [cbn; lia|vm_compute; discriminate|].
  assert (SN : sqdev (map i_pre (pretest_list 0)) <> 0) by (rewrite SQ; lra).
  split; [exact IT|]. split; [exact U|]. split; [exact SN|]. split; [exact Z|].
  destruct (c89_with_pretest_succeeds_iff arm_of cauchy argsort_ref (pretest_table 0) pretest_design "clicks" (pretest_list 0) None argsort_ref_sorts ND eq_refl U IT) as (_ & X & _).
  apply (X Z SN). exists r. exact H.
Qed.
(** an arm without items *)
Example c89_example_empty :
  analyze_single_metric cauchy argsort_ref arm_of (mkT [("clicks", "test")] [(("a", 1%Z), [Fin 3]); (("b", 1%Z), [Fin 4])]) true sparse_params "clicks" None None = Err empty_arm.
Proof.
  destruct quarter as [F Q].
  apply (c89_what_stops_a_regular_analysis arm_of cauchy argsort_ref (mkT [("clicks", "test")] [(("a", 1%Z), [Fin 3]); (("b", 1%Z), [Fin 4])]) sparse_params "clicks" None [Fin 3; Fin 4] None); auto.
  - apply argsort_ref_sorts.
  - repeat constructor; intros [].
  - split; [cbn; lia|]. split; [cbn; lia|]. auto.
  - exists 0%nat. split; [reflexivity|repeat constructor].
  - split; [reflexivity|]. cbn. intuition discriminate.
  - right. intros (r & [<-|[<-|[]]] & E); discriminate E.
Qed.

Print Assumptions c89_what_stops_a_regular_analysis.
Print Assumptions c89_without_pretest_succeeds_iff.
Print Assumptions c89_sparse_metrics_cannot_be_analysed.
Print Assumptions c89_with_pretest_succeeds_iff.
