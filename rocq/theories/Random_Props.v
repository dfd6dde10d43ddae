(** C104: what the results of a regular experiment are on average over the random assignment. *)
From Coq Require Import ZArith Reals Lra Lia List String Bool Permutation Sorting.Sorted.
From Flocq Require Import Core BinarySingleNaN.
Require Import Verif.Base Verif.Num Verif.NumOrd Verif.F64 Verif.ListLib Verif.Design_Model Verif.Design_Spec Verif.Design_Proofs Verif.Design_Props
  Verif.Trimmed_Model Verif.Trimmed_Spec Verif.Moments Verif.Trimmed_Proofs Verif.Trimmed_Real Verif.Trimmed_Props
  Verif.Cuped_Model Verif.Cuped_Props Verif.Stats_Model Verif.Stats_Num Verif.Stats_Props Verif.Tests_Proofs
  Verif.Tests_Props Verif.Tests_Props2 Verif.Pivot_Model Verif.Analysis_Spec Verif.Analysis_Model Verif.Analysis_Props Verif.Effect_Props Verif.Regular_Props Verif.Adjust_Props Verif.Random_Proofs.
Import ListNotations.
Open Scope string_scope.
Open Scope list_scope.
Open Scope R_scope.

(** *** Specification *)
(** An item has two possible values of the metric: one if it is treated, one if it is not.  An assignment
    [v] decides which one is observed. *)
Definition observed (v : list bool) (l : list (R * R)) : list (option Z * R) :=
  map (fun bx : bool * (R * R) => if fst bx then (Some 1%Z, fst (snd bx)) else (Some 0%Z, snd (snd bx))) (combine v l).
(** the average effect of the treatment over all items *)
Definition average_effect (l : list (R * R)) : R := avg (map (fun x : R * R => fst x - snd x) l).
Definition variance (xs : list R) : R := sqdev xs / INR (List.length xs).

(** *** Proofs *)
Lemma observed_treated v : forall l, values_of_arm 1 (observed v l) = picked v (map fst l).
Proof.
  induction v as [|b v IH]; intros [|x l]; try reflexivity; try (destruct b; reflexivity). specialize (IH l). unfold observed, picked, values_of_arm in *.
  destruct b; cbn in *; now rewrite IH.
Qed.
Lemma observed_control v : forall l, values_of_arm 0 (observed v l) = picked (map negb v) (map snd l).
Proof.
  induction v as [|b v IH]; intros [|x l]; try reflexivity; try (destruct b; reflexivity). specialize (IH l). unfold observed, picked, values_of_arm in *.
  destruct b; cbn in *; now rewrite IH.
Qed.
Lemma effect_average l : effect l = average_effect l.
Proof.
  unfold effect, average_effect, avg. rewrite !map_length. replace (total (map (fun x : R * R => fst x - snd x) l)) with (total (map fst l) - total (map snd l)).
  - unfold Rdiv. ring.
  - induction l as [|x l IH]; [cbn; ring|]. unfold total in *. cbn [map fold_right]. rewrite <- IH. ring.
Qed.

Section Assigned.
Context {K : Type} (arm : K -> option Z) (T : tdist) (argsort : list num -> list nat) (t : list bool -> table K) (p : params) (m : string)
  (l : list (R * R)) (override : option f64).

(** the table of a regular experiment without pretest weeks, for each assignment *)
Record assigned_tables : Prop := {
  at_sorts : sorts argsort;
  at_regular : crossover p = false;
  at_pretest : pretest p = 0%Z;
  at_quantile : B2R (chosen p override) = 0;
  at_size : (Z.of_nat (List.length l) <= 2 ^ 53)%Z;
  at_columns : forall v, NoDup (t_cols (t v));
  at_test_only : forall v, ~ In (m, "pretest") (t_cols (t v));
  at_items : forall v, List.length v = List.length l -> regular_items arm (t v) m (map finite_pair (observed v l))
}.

Lemma run_result v k r : assigned_tables -> In v (splits (List.length l) k) -> (1 <= k < List.length l)%nat ->
  analyze_single_metric T argsort arm (t v) true p m None override = Ok r ->
  r_abs r = Fin (contrast l v) /\
  ((2 <= k)%nat -> (k + 2 <= List.length l)%nat -> exists s, r_standard_error r = Fin s /\ 0 <= s /\
     s ^ 2 = sqdev (picked v (map fst l)) / (INR k - 1) / INR k +
             sqdev (picked (map negb v) (map snd l)) / (INR (List.length l) - INR k - 1) / (INR (List.length l) - INR k)).
Proof.
  intros A Hv HK H. destruct A. assert (Hv' := Hv). apply in_splits in Hv' as [LV _].
  destruct (arm_length (List.length l) k (proj1 HK) (proj2 HK) (map fst l) v ltac:(apply map_length) Hv) as [L1 _].
  destruct (arm_length (List.length l) k (proj1 HK) (proj2 HK) (map snd l) v ltac:(apply map_length) Hv) as [_ L0].
  rewrite (analysis_regular arm T argsort _ p m _ override (at_columns0 v) at_regular0 at_pretest0 (at_test_only0 v) (at_items0 v LV)) in H.
  rewrite !values_finite, observed_treated, observed_control in H.
  assert (S1 : sample (picked v (map fst l))) by (split; [intros E; rewrite E in L1; cbn in L1; lia|rewrite L1; lia]).
  assert (S0 : sample (picked (map negb v) (map snd l))) by (split; [intros E; rewrite E in L0; cbn in L0; lia|rewrite L0; lia]).
  destruct (untrimmed_test T argsort _ _ _ r at_sorts0 S1 S0 at_quantile0 H) as [EA ES]. split; [exact EA|].
  intros H1 H0. rewrite L1, L0 in ES. destruct ES as (s & E & P & Q); [lia|lia|]. exists s. split; auto. split; auto. rewrite Q. unfold error_of.
  rewrite minus_INR by lia. reflexivity.
Qed.

(** Over all the assignments that treat the same number of items, the estimates average to the average effect. *)
Theorem c104_estimates_are_unbiased : forall k r,
  assigned_tables -> (1 <= k < List.length l)%nat ->
  (forall v, In v (splits (List.length l) k) -> analyze_single_metric T argsort arm (t v) true p m None override = Ok (r v)) ->
  exists estimate, (forall v, In v (splits (List.length l) k) -> r_abs (r v) = Fin (estimate v)) /\
    avg (map estimate (splits (List.length l) k)) = average_effect l.
Proof.
  intros k r A HK H. exists (contrast l). split; [intros v Hv; exact (proj1 (run_result v k (r v) A Hv HK (H v Hv)))|].
  assert (P : 0 < INR (List.length (splits (List.length l) k))) by (apply N_pos; lia).
  fold (Av (splits (List.length l) k) (contrast l)). rewrite Av_S, (contrast_mean (List.length l) k) by (auto; lia). rewrite <- effect_average. field. lra.
Qed.

(** The squared standard errors average to the variance of the estimates and a term that is zero only if
    the treatment has the same effect on every item: on average the reported error is not too small. *)
Theorem c104_squared_errors_are_conservative : forall k r,
  assigned_tables -> (2 <= k)%nat -> (k + 2 <= List.length l)%nat ->
  (forall v, In v (splits (List.length l) k) -> analyze_single_metric T argsort arm (t v) true p m None override = Ok (r v)) ->
  let all := splits (List.length l) k in let effects := map (fun x : R * R => fst x - snd x) l in
  exists estimate error, (forall v, In v all -> r_abs (r v) = Fin (estimate v) /\ r_standard_error (r v) = Fin (error v) /\ 0 <= error v) /\
    avg (map (fun v => error v ^ 2) all) = variance (map estimate all) + variance effects / (INR (List.length l) - 1) /\
    variance (map estimate all) <= avg (map (fun v => error v ^ 2) all) /\
    (variance (map estimate all) = avg (map (fun v => error v ^ 2) all) <-> forall x y, In x effects -> In y effects -> x = y).
Proof.
  intros k r A K1 K2 H all effects. set (n := List.length l) in *. assert (HK : (1 <= k < n)%nat) by lia.
  set (error := fun v => match r_standard_error (r v) with Fin s => s | _ => 0 end).
  assert (RR : forall v, In v all -> r_abs (r v) = Fin (contrast l v) /\ r_standard_error (r v) = Fin (error v) /\ 0 <= error v /\
    error v ^ 2 = / (INR k - 1) * / INR k * sqdev (picked v (map fst l)) + / (INR n - INR k - 1) * / (INR n - INR k) * sqdev (picked (map negb v) (map snd l))).
  { intros v Hv. destruct (run_result v k (r v) A Hv HK (H v Hv)) as [E1 E2]. destruct (E2 K1 K2) as (s & E & P & Q). unfold error. rewrite E.
    split; auto. split; auto. split; auto. rewrite Q. fold n. unfold Rdiv. ring. }
  exists (contrast l), error. split; [intros v Hv; destruct (RR v Hv) as (? & ? & ? & _); auto|].
  assert (P : 0 < INR (List.length all)) by (apply N_pos; lia).
  assert (Rk : 2 <= INR k) by (apply (le_INR 2); exact K1). assert (Rn : INR k + 2 <= INR n).
  { replace (INR k + 2) with (INR (k + 2)) by (rewrite plus_INR; reflexivity). apply le_INR. exact K2. }
  assert (EV : variance (map (contrast l) all) = sqdev (map fst l) / (INR n - 1) / INR k + sqdev (map snd l) / (INR n - 1) / (INR n - INR k) - sqdev effects / (INR n * (INR n - 1))).
  { unfold variance, sqdev at 1. rewrite !map_map, map_length.
    replace (avg (map (contrast l) all)) with (effect l).
    - fold (Sm all (fun v => (contrast l v - effect l) ^ 2)). unfold all. rewrite (contrast_variance n k) by (auto; lia). fold all. unfold effects. field. lra.
    - fold (Av all (contrast l)). rewrite Av_S. unfold all. rewrite (contrast_mean n k) by (auto; lia). fold all. field. lra. }
  assert (EE : avg (map (fun v => error v ^ 2) all) = sqdev (map fst l) / (INR n - 1) / INR k + sqdev (map snd l) / (INR n - 1) / (INR n - INR k)).
  { fold (Av all (fun v => error v ^ 2)). rewrite Av_S.
    rewrite (Sm_ext all _ (fun v => / (INR k - 1) * / INR k * sqdev (picked v (map fst l)) + / (INR n - INR k - 1) * / (INR n - INR k) * sqdev (picked (map negb v) (map snd l))))
      by (intros v Hv; apply (RR v Hv)).
    rewrite Sm_plus, !Sm_scale. unfold all. rewrite (deviations_treated n k), (deviations_control n k) by (auto; try lia; apply map_length). fold all. field. lra. }
  assert (VE : variance effects = sqdev effects / INR n) by (unfold variance, effects; rewrite map_length; reflexivity).
  assert (SP : 0 <= sqdev effects) by apply sqdev_nonneg.
  assert (EQ : avg (map (fun v => error v ^ 2) all) = variance (map (contrast l) all) + variance effects / (INR n - 1)).
  { rewrite EE, EV, VE. field. lra. }
  split; [exact EQ|]. rewrite EQ, VE. split.
  - assert (0 <= sqdev effects / INR n / (INR n - 1)); [|lra]. unfold Rdiv. repeat apply Rmult_le_pos; auto; left; apply Rinv_0_lt_compat; lra.
  - split.
    + intros E. assert (Z : sqdev effects = 0).
      { assert (X : sqdev effects / INR n / (INR n - 1) = 0) by lra. apply (f_equal (fun x => x * (INR n * (INR n - 1)))) in X.
        replace (sqdev effects / INR n / (INR n - 1) * (INR n * (INR n - 1))) with (sqdev effects) in X by (field; lra). lra. }
      assert (G : forall x, In x effects -> x = avg effects).
      { intros x Hx. assert (Z' : Cv effects (fun x => x) (fun x => x) = 0) by (rewrite Cv_sqdev, map_id; exact Z).
        assert (NE : effects <> []) by (intros X; rewrite X in Hx; destruct Hx). assert (Y := Cv_zero_const effects (fun x => x) Z' x Hx). cbn beta in Y. unfold Av in Y. rewrite map_id in Y. exact Y. }
      intros x y Hx Hy. rewrite (G x Hx), (G y Hy). reflexivity.
    + intros G. assert (Z : sqdev effects = 0); [|rewrite Z; unfold Rdiv; ring].
      destruct effects as [|x rest] eqn:Ee; [reflexivity|]. rewrite <- Ee in *.
      assert (AV : avg effects = x).
      { unfold avg. replace (total effects) with (INR (List.length effects) * x); [field; rewrite Ee; apply not_0_INR; discriminate|].
        assert (C : forall y, In y effects -> y = x) by (intros y Hy; apply G; auto; rewrite Ee; now left).
        clear - C. induction effects as [|y e IH]; [cbn; ring|]. cbn [List.length]. rewrite S_INR. change (total (y :: e)) with (y + total e).
        rewrite <- IH by (intros; apply C; now right). rewrite (C y) by now left. ring. }
      unfold sqdev. rewrite AV. rewrite (map_ext_in _ (fun _ => 0)).
      * clear. induction effects as [|y e IH]; [reflexivity|]. cbn [map]. unfold total in *. cbn [fold_right]. rewrite IH. ring.
      * intros y Hy. rewrite (G y x Hy) by (rewrite Ee; now left). ring.
Qed.
End Assigned.

(** *** Every assignment with items in both groups *)
(** the assignments of [n] fair coins for which there is a result: at least one item in each group *)
Definition both_groups (n : nat) : list (list bool) :=
  filter (fun v => ((1 <=? treated_in v) && (treated_in v <? n))%nat) (vectors n).

Lemma in_both_groups n v : In v (both_groups n) <-> List.length v = n /\ (1 <= treated_in v < n)%nat.
Proof. unfold both_groups. rewrite filter_In, vectors_all, andb_true_iff, Nat.leb_le, Nat.ltb_lt. tauto. Qed.

Lemma by_count {A} (g : A -> nat) (f : A -> R) a (vs : list A) : forall j,
  Sm (filter (fun v => ((a <=? g v) && (g v <? a + j))%nat) vs) f = Sm (seq a j) (fun k => Sm (filter (fun v => Nat.eqb (g v) k) vs) f).
Proof.
  induction j as [|j IH].
  - replace (filter _ vs) with (@nil A); [reflexivity|]. symmetry. induction vs as [|v vs IH]; [reflexivity|]. cbn [filter].
    replace ((a <=? g v) && (g v <? a + 0))%nat with false; [exact IH|]. symmetry. apply andb_false_iff.
    destruct (Nat.leb_spec a (g v)); [right; apply Nat.ltb_ge; lia|now left].
  - rewrite seq_S. unfold Sm at 2. rewrite map_app, total_app. fold (Sm (seq a j) (fun k => Sm (filter (fun v => Nat.eqb (g v) k) vs) f)). rewrite <- IH.
    cbn [map]. change (total [?x]) with (x + 0). rewrite Rplus_0_r. clear IH. induction vs as [|v vs IH]; [unfold Sm; cbn; ring|]. cbn [filter].
    assert (C : forall x l, Sm (x :: l) f = f x + Sm l f) by reflexivity.
    destruct (Nat.leb_spec a (g v)); destruct (Nat.ltb_spec (g v) (a + S j)); destruct (Nat.ltb_spec (g v) (a + j)); destruct (Nat.eqb_spec (g v) (a + j)); cbn [andb]; try lia;
      rewrite ?C; rewrite IH; unfold Sm; ring.
Qed.

Section Coins.
Context {K : Type} (arm : K -> option Z) (T : tdist) (argsort : list num -> list nat) (t : list bool -> table K) (p : params) (m : string)
  (l : list (R * R)) (override : option f64).

(** The random assignment throws a coin for each item.  Over all outcomes with items in both groups the
    estimates average to the average effect, too. *)
Theorem c104_coins_give_unbiased_estimates : forall r,
  assigned_tables arm argsort t p m l override -> (2 <= List.length l)%nat ->
  (forall v, In v (both_groups (List.length l)) -> analyze_single_metric T argsort arm (t v) true p m None override = Ok (r v)) ->
  exists estimate, (forall v, In v (both_groups (List.length l)) -> r_abs (r v) = Fin (estimate v)) /\
    avg (map estimate (both_groups (List.length l))) = average_effect l.
Proof.
  intros r A L2 H. exists (contrast l). split.
  { intros v Hv. assert (Hv' := Hv). apply in_both_groups in Hv' as [E HK].
    refine (proj1 (run_result arm T argsort t p m l override v (treated_in v) (r v) A _ HK (H v Hv))). apply in_splits. auto. }
  assert (S : Sm (both_groups (List.length l)) (fun v => contrast l v - effect l) = 0).
  { unfold both_groups. rewrite (filter_ext _ (fun v => ((1 <=? treated_in v) && (treated_in v <? 1 + (List.length l - 1)))%nat)).
    - rewrite by_count. rewrite (Sm_ext _ _ (fun _ => 0)).
      + induction (seq 1 (List.length l - 1)) as [|x xs IH]; [reflexivity|]. unfold Sm in *. cbn [map]. unfold total in *. cbn [fold_right]. rewrite IH. ring.
      + intros k Hk. apply in_seq in Hk. fold (splits (List.length l) k).
        rewrite (Sm_ext _ _ (fun v => contrast l v + (- effect l) * 1)) by (intros; ring). rewrite Sm_plus, Sm_scale, Sm_const, (contrast_mean (List.length l) k) by (auto; lia). ring.
    - intros v. f_equal. f_equal. lia. }
  assert (P : 0 < INR (List.length (both_groups (List.length l)))).
  { apply lt_0_INR. assert (I : In (true :: repeat false (List.length l - 1)) (both_groups (List.length l))).
    - apply in_both_groups. cbn [List.length]. rewrite repeat_length. split; [lia|]. unfold treated_in. cbn [filter].
      replace (filter (fun b : bool => b) (repeat false (List.length l - 1))) with (@nil bool); [cbn; lia|].
      induction (List.length l - 1)%nat; [reflexivity|exact IHn].
    - destruct (both_groups (List.length l)); [destruct I|cbn; lia]. }
  fold (Av (both_groups (List.length l)) (contrast l)). rewrite Av_S, <- effect_average.
  rewrite (Sm_ext _ _ (fun v => contrast l v + (- effect l) * 1)) in S by (intros; ring). rewrite Sm_plus, Sm_scale, Sm_const in S.
  apply (Rmult_eq_reg_r (INR (List.length (both_groups (List.length l))))); [|lra]. unfold Rdiv. rewrite Rmult_assoc, Rinv_l by lra. lra.
Qed.
End Coins.

(** the lists of assignments are complete and contain every assignment once *)
Theorem c104_assignments : forall n k v,
  NoDup (splits n k) /\ NoDup (both_groups n) /\
  (In v (splits n k) <-> List.length v = n /\ treated_in v = k) /\
  (In v (both_groups n) <-> List.length v = n /\ (1 <= treated_in v < n)%nat).
Proof.
  intros. split; [apply NoDup_filter, vectors_once|]. split; [apply NoDup_filter, vectors_once|]. split; [apply in_splits|apply in_both_groups].
Qed.

(** *** The hypotheses are met, by every list of positive values *)
Definition row_of (x : option Z * R) : (string * Z) * list num := (("i", match fst x with Some z => z | None => 2%Z end), [Fin (snd x)]).
Definition assigned_table (l : list (R * R)) (v : list bool) : table (string * Z) := mkT [("clicks", "test")] (map row_of (observed v l)).

Lemma observed_arms v l x : In x (observed v l) -> fst x = Some 0%Z \/ fst x = Some 1%Z.
Proof. unfold observed. intros H. apply in_map_iff in H as ([b y] & <- & _). destruct b; cbn; auto. Qed.

Lemma assigned_regular l v : NoDup (t_cols (assigned_table l v)) /\ ~ In ("clicks", "pretest") (t_cols (assigned_table l v)) /\
  regular_items arm_of (assigned_table l v) "clicks" (map finite_pair (observed v l)).
Proof.
  split; [repeat constructor; intros []|]. split; [cbn; intuition discriminate|]. split.
  - unfold in_arms, assigned_table. cbn [t_rows]. rewrite !map_map. apply map_ext_in. intros x I. cbn. destruct (observed_arms v l x I) as [->| ->]; reflexivity.
  - exists 0%nat. split; [reflexivity|]. unfold assigned_table. cbn [t_rows]. induction (observed v l); constructor; auto; reflexivity.
Qed.

Lemma assigned_case l : (Z.of_nat (List.length l) <= 2 ^ 53)%Z -> assigned_tables arm_of argsort_ref (assigned_table l) plain_design "clicks" l None.
Proof.
  intros S. constructor; auto; try reflexivity; try (intros; apply assigned_regular).
  - exact argsort_ref_sorts.
Qed.

Lemma picked_from {A} (v : list bool) (xs : list A) x : In x (picked v xs) -> In x xs.
Proof. unfold picked. intros H. apply in_map_iff in H as ([b y] & <- & H). apply filter_In in H as [H _]. apply in_combine_r in H. exact H. Qed.
Lemma total_positive xs : (forall x, In x xs -> 0 <= x) -> 0 <= total xs.
Proof. induction xs as [|x xs IH]; intros H; [cbn; lra|]. assert (0 <= x) by (apply H; now left). assert (0 <= total xs) by (apply IH; intros; apply H; now right). change (total (x :: xs)) with (x + total xs). lra. Qed.
Lemma avg_positive xs : (forall x, In x xs -> 0 < x) -> xs <> [] -> 0 < avg xs.
Proof.
  intros H N. destruct xs as [|x xs]; [easy|]. assert (0 < x) by (apply H; now left). assert (0 <= total xs) by (apply total_positive; intros y I; left; apply H; now right).
  unfold avg. change (total (x :: xs)) with (x + total xs). apply Rdiv_lt_0_compat; [lra|]. apply lt_0_INR. cbn. lia.
Qed.

Lemma assigned_runs l v : (Z.of_nat (List.length l) <= 2 ^ 53)%Z -> (forall x, In x l -> 0 < fst x /\ 0 < snd x) -> In v (both_groups (List.length l)) ->
  exists r, analyze_single_metric cauchy argsort_ref arm_of (assigned_table l v) true plain_design "clicks" None None = Ok r.
Proof.
  intros S P H. apply in_both_groups in H as [LV HK]. assert (Hv : In v (splits (List.length l) (treated_in v))) by (apply in_splits; auto).
  destruct (arm_length (List.length l) (treated_in v) (proj1 HK) (proj2 HK) (map fst l) v ltac:(apply map_length) Hv) as [L1 _].
  destruct (arm_length (List.length l) (treated_in v) (proj1 HK) (proj2 HK) (map snd l) v ltac:(apply map_length) Hv) as [_ L0].
  destruct (assigned_regular l v) as (ND & NP & IT).
  rewrite (analysis_regular arm_of cauchy argsort_ref _ plain_design "clicks" _ None ND eq_refl eq_refl NP IT), !values_finite, observed_treated, observed_control.
  apply positive_runs.
  - apply usable_0; rewrite L1; lia.
  - apply usable_0; rewrite L0; lia.
  - left. apply avg_positive; [|intros E; rewrite E in L1; cbn in L1; lia]. intros x I. apply picked_from, in_map_iff in I as (y & <- & I). apply P, I.
  - apply avg_positive; [|intros E; rewrite E in L0; cbn in L0; lia]. intros x I. apply picked_from, in_map_iff in I as (y & <- & I). apply P, I.
Qed.

(** a result for each assignment *)
Lemma assigned_results l : (2 <= List.length l)%nat -> (Z.of_nat (List.length l) <= 2 ^ 53)%Z -> (forall x, In x l -> 0 < fst x /\ 0 < snd x) ->
  exists r, forall v, In v (both_groups (List.length l)) ->
    analyze_single_metric cauchy argsort_ref arm_of (assigned_table l v) true plain_design "clicks" None None = Ok (r v).
Proof.
  intros L2 S P.
  assert (D : exists d, In d (both_groups (List.length l))).
  { exists (true :: repeat false (List.length l - 1)). apply in_both_groups. cbn [List.length]. rewrite repeat_length. split; [lia|]. unfold treated_in. cbn [filter].
    replace (filter (fun b : bool => b) (repeat false (List.length l - 1))) with (@nil bool); [cbn; lia|]. induction (List.length l - 1)%nat; [reflexivity|exact IHn]. }
  destruct D as (d & D). destruct (assigned_runs l d S P D) as (r0 & _).
  exists (fun v => match analyze_single_metric cauchy argsort_ref arm_of (assigned_table l v) true plain_design "clicks" None None with Ok r => r | Err _ => r0 end).
  intros v Hv. destruct (assigned_runs l v S P Hv) as (r & ->). reflexivity.
Qed.

(** four items, with effects 1, 3, -1 and 5: the six assignments with two treated items *)
Definition four_cases : list (R * R) := [(3, 2); (7, 4); (5, 6); (9, 4)].
Example c104_example : exists r estimate error,
  splits 4 2 = [[true; true; false; false]; [true; false; true; false]; [true; false; false; true];
                [false; true; true; false]; [false; true; false; true]; [false; false; true; true]] /\
  (forall v, In v (splits 4 2) -> analyze_single_metric cauchy argsort_ref arm_of (assigned_table four_cases v) true plain_design "clicks" None None = Ok (r v)) /\
  (forall v, In v (splits 4 2) -> r_abs (r v) = Fin (estimate v) /\ r_standard_error (r v) = Fin (error v)) /\
  avg (map estimate (splits 4 2)) = 2 /\ average_effect four_cases = 2 /\
  variance (map estimate (splits 4 2)) < avg (map (fun v => error v ^ 2) (splits 4 2)) /\
  avg (map (fun v => error v ^ 2) (splits 4 2)) = variance (map estimate (splits 4 2)) + 5 / 3.
Proof.
  assert (S : (Z.of_nat (List.length four_cases) <= 2 ^ 53)%Z) by (vm_compute; discriminate).
  assert (P : forall x, In x four_cases -> 0 < fst x /\ 0 < snd x) by (intros x I; repeat (destruct I as [<-|I]; [cbn; lra|]); destruct I).
  destruct (assigned_results four_cases ltac:(cbn; lia) S P) as (r & H).
  assert (H2 : forall v, In v (splits 4 2) -> analyze_single_metric cauchy argsort_ref arm_of (assigned_table four_cases v) true plain_design "clicks" None None = Ok (r v)).
  { intros v Hv. apply H. apply in_both_groups. apply in_splits in Hv as [L E]. rewrite E. cbn. split; [exact L|lia]. }
  assert (A := assigned_case four_cases S).
  destruct (c104_squared_errors_are_conservative arm_of cauchy argsort_ref (assigned_table four_cases) plain_design "clicks" four_cases None 2 r A ltac:(lia) ltac:(cbn; lia) H2)
    as (estimate & error & E1 & E2 & E3 & E4).
  destruct (c104_estimates_are_unbiased arm_of cauchy argsort_ref (assigned_table four_cases) plain_design "clicks" four_cases None 2 r A ltac:(cbn; lia) H2) as (estimate' & U1 & U2).
  assert (AE : average_effect four_cases = 2) by (unfold average_effect, avg, four_cases; cbn; field).
  assert (VE : variance (map (fun x : R * R => fst x - snd x) four_cases) = 5) by (unfold variance, sqdev, avg, four_cases; cbn; field).
  exists r, estimate, error. change (List.length four_cases) with 4%nat in *. rewrite VE in E2.
  split; [reflexivity|]. split; [exact H2|]. split; [intros v Hv; destruct (E1 v Hv) as (? & ? & _); auto|]. split.
  { rewrite <- AE, <- U2. f_equal. apply map_ext_in. intros v Hv. destruct (E1 v Hv) as (X & _). rewrite (U1 v Hv) in X. injection X as X. auto. }
  split; [exact AE|]. rewrite E2. replace (INR 4 - 1) with 3 by (cbn; ring). split; lra.
Qed.

(** *** With trimming the estimates are not those of the average effect *)
(** eight items, one of which sells eighty instead of one if it is treated *)
Definition one_star : list (R * R) := (80, 1) :: repeat (1, 1) 7.

Lemma picked_ones w : forall n, List.length w = n -> picked w (repeat 1 n) = repeat 1 (treated_in w).
Proof.
  induction w as [|b w IH]; intros [|n] L; try discriminate; [reflexivity|]. injection L as L. unfold picked in *. cbn [repeat combine filter fst]. unfold treated_in in *.
  destruct b; cbn [filter List.length repeat map snd]; [f_equal|]; now apply IH.
Qed.

Lemma sorted_ones n : StronglySorted Rle (repeat 1 n).
Proof. induction n; [constructor|]. cbn. constructor; auto. apply Forall_forall. intros x I. apply repeat_spec in I. lra. Qed.

Lemma trim_quarter : trim_each 4 (flit 25 100) = 1%Z.
Proof.
  assert (E : floor_mul (flit 25 100) 4 = Ok 1%Z) by (vm_compute; reflexivity). apply floor_mul_count in E. unfold trim_count in E. rewrite rnd_IZR in E by lia.
  unfold trim_each. replace (INR 4) with (IZR 4) by (simpl; lra). symmetry. exact E.
Qed.

(** Every assignment of four of the eight items gives the estimate zero, though the average effect is almost ten. *)
Theorem c104_trimmed_estimates_are_unbiased_refuted : exists r,
  (forall v, In v (splits 8 4) ->
     analyze_single_metric cauchy argsort_ref arm_of (assigned_table one_star v) true plain_design "clicks" None (Some (flit 25 100)) = Ok (r v) /\ r_abs (r v) = Fin 0) /\
  average_effect one_star = 79 / 8.
Proof.
  destruct quarter as [F Q].
  assert (AE : average_effect one_star = 79 / 8) by (unfold average_effect, avg, one_star; cbn; field).
  assert (Z : forall v, In v (splits 8 4) -> exists r,
     analyze_single_metric cauchy argsort_ref arm_of (assigned_table one_star v) true plain_design "clicks" None (Some (flit 25 100)) = Ok r /\ r_abs r = Fin 0).
  { intros v Hv. destruct (assigned_regular one_star v) as (ND & NP & IT).
    rewrite (analysis_regular arm_of cauchy argsort_ref _ plain_design "clicks" _ (Some (flit 25 100)) ND eq_refl eq_refl NP IT), !values_finite, observed_treated, observed_control.
    apply in_splits in Hv as [L T4].
    assert (P0 : picked (map negb v) (map snd one_star) = repeat 1 4).
    { change (map snd one_star) with (repeat 1 8). rewrite picked_ones by (rewrite map_length; exact L). f_equal.
      assert (N4 := treated_negb v). lia. }
    assert (P1 : exists s, sorted_as (picked v (map fst one_star)) s /\ List.length (picked v (map fst one_star)) = 4%nat /\ tmean 1 s = 1).
    { destruct v as [|b w]; [discriminate|]. injection L as L. change (map fst one_star) with (80 :: repeat 1 7). destruct b.
      - change (picked (true :: w) (80 :: repeat 1 7)) with (80 :: picked w (repeat 1 7)). rewrite picked_ones by exact L.
        change (treated_in (true :: w)) with (S (treated_in w)) in T4. injection T4 as T4. rewrite T4. exists [1; 1; 1; 80]. split; [split|].
        + exact (Permutation_cons_append [1; 1; 1] 80).
        + repeat constructor; lra.
        + split; [reflexivity|]. unfold tmean, middle, avg. cbn. field.
      - change (picked (false :: w) (80 :: repeat 1 7)) with (picked w (repeat 1 7)). rewrite picked_ones by exact L.
        change (treated_in (false :: w)) with (treated_in w) in T4. rewrite T4. exists (repeat 1 4). split; [split; [reflexivity|apply sorted_ones]|].
        split; [reflexivity|]. unfold tmean, middle, avg. cbn. field. }
    destruct P1 as (s & S1 & L1 & M1). rewrite P0.
    assert (M2 : tmean 1 (repeat 1 4) = 1) by (unfold tmean, middle, avg; cbn; field).
    assert (U : usable 4 (flit 25 100)) by (split; [lia|split; [lia|auto]]).
    assert (SA1 : sample (picked v (map fst one_star))) by (split; [intros X; rewrite X in L1; discriminate|rewrite L1; lia]).
    assert (SA0 : sample (repeat 1 4)) by (split; [discriminate|cbn; lia]).
    assert (S0 : sorted_as (repeat 1 4) (repeat 1 4)) by exact (conj (Permutation_refl _) (sorted_ones 4)).
    destruct (c59_relative_difference_independent cauchy argsort_ref (picked v (map fst one_star)) (repeat 1 4) (flit 25 100) false "two-sided" default_alpha s (repeat 1 4)
      argsort_ref_sorts ltac:(rewrite L1; exact U) U S1 S0 ltac:(now left)) as (_ & O & _).
    rewrite L1 in O. change (List.length (repeat 1 4)) with 4%nat in O. rewrite trim_quarter in O. change (Z.to_nat 1) with 1%nat in O. rewrite M1, M2 in O.
    destruct (O ltac:(lra) ltac:(lra)) as (r & _ & _ & R & _). exists r. split; [exact R|].
    destruct (c51_what_the_test_computes cauchy argsort_ref _ _ _ _ _ _ _ s (repeat 1 4) argsort_ref_sorts SA1 SA0 S1 S0 R) as (k1 & k2 & K1 & K2 & _ & _ & G & _).
    rewrite L1 in K1. change (List.length (repeat 1 4)) with 4%nat in K2. rewrite trim_quarter in K1, K2.
    assert (k1 = 1%nat) by lia. assert (k2 = 1%nat) by lia. subst k1 k2. rewrite G, M1, M2. f_equal. ring. }
  assert (D : In [true; true; true; true; false; false; false; false] (splits 8 4)) by (apply in_splits; split; reflexivity).
  destruct (Z _ D) as (r0 & _ & _).
  exists (fun v => match analyze_single_metric cauchy argsort_ref arm_of (assigned_table one_star v) true plain_design "clicks" None (Some (flit 25 100)) with Ok r => r | Err _ => r0 end).
  split; [|exact AE]. intros v Hv. destruct (Z v Hv) as (r & -> & E). auto.
Qed.

Print Assumptions c104_estimates_are_unbiased.
Print Assumptions c104_squared_errors_are_conservative.
Print Assumptions c104_coins_give_unbiased_estimates.
Print Assumptions c104_assignments.
Print Assumptions c104_trimmed_estimates_are_unbiased_refuted.
