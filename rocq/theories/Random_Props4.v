(** C107: what the CUPED adjustment does to the estimates on average over the random assignment. *)
From Coq Require Import ZArith Reals Lra Lia List String Bool Permutation Sorting.Sorted.
From Flocq Require Import Core BinarySingleNaN.
Require Import Verif.Base Verif.Num Verif.NumOrd Verif.F64 Verif.ListLib Verif.Design_Model Verif.Design_Spec Verif.Design_Proofs Verif.Design_Props
  Verif.Trimmed_Model Verif.Trimmed_Spec Verif.Moments Verif.Trimmed_Proofs Verif.Trimmed_Real Verif.Trimmed_Props
  Verif.Cuped_Model Verif.Cuped_Props Verif.Stats_Model Verif.Stats_Num Verif.Stats_Props Verif.Tests_Proofs
  Verif.Tests_Props Verif.Tests_Props2 Verif.Pivot_Model Verif.Analysis_Spec Verif.Analysis_Model Verif.Analysis_Props Verif.Effect_Props Verif.Adjust_Props Verif.Random_Proofs
  Verif.Random_Props Verif.Random_Props2 Verif.Random_Props3.
Import ListNotations.
Open Scope string_scope.
Open Scope list_scope.
Open Scope R_scope.

(** *** Specification *)
(** An item has a value before the test and two possible values in the test: if it is treated and if not. *)
Record chances := mkChances { before : R; if_treated : R; if_not : R }.
Definition gain (x : chances) : R := if_treated x - if_not x.
Definition with_pretest (v : list bool) (l : list chances) : list item :=
  map (fun bx : bool * chances => if fst bx then mkI (Some 1%Z) (before (snd bx)) (if_treated (snd bx)) else mkI (Some 0%Z) (before (snd bx)) (if_not (snd bx))) (combine v l).
(** the average effect, and the one in which items count by their squared deviation before the test *)
Definition mean_gain (l : list chances) : R := avg (map gain l).
Definition weighted_gain (l : list chances) : R :=
  let x0 := avg (map before l) in
  total (map (fun x => (before x - x0) ^ 2 * gain x) l) / total (map (fun x => (before x - x0) ^ 2) l).

(** *** Proofs *)
Section Parts.
Context (l : list chances).
Let n := List.length l.

Lemma arm_treated (f : item -> R) (g : chances -> R) : (forall x, f (mkI (Some 1%Z) (before x) (if_treated x)) = g x) ->
  forall v, List.length v = n -> map f (in_arm 1 (with_pretest v l)) = picked v (map g l).
Proof.
  intros G. unfold n. induction l as [|x k IH]; intros [|b v] E; try discriminate; [reflexivity|]. injection E as E. specialize (IH v E).
  unfold with_pretest, in_arm, picked in *. destruct b; cbn in *; rewrite IH, ?G; reflexivity.
Qed.
Lemma arm_control (f : item -> R) (g : chances -> R) : (forall x, f (mkI (Some 0%Z) (before x) (if_not x)) = g x) ->
  forall v, List.length v = n -> map f (in_arm 0 (with_pretest v l)) = picked (map negb v) (map g l).
Proof.
  intros G. unfold n. induction l as [|x k IH]; intros [|b v] E; try discriminate; [reflexivity|]. injection E as E. specialize (IH v E).
  unfold with_pretest, in_arm, picked in *. destruct b; cbn in *; rewrite IH, ?G; reflexivity.
Qed.
Lemma all_before v : List.length v = n -> map i_pre (with_pretest v l) = map before l.
Proof.
  unfold n. revert v. induction l as [|x k IH]; intros [|b v] E; try discriminate; [reflexivity|]. injection E as E. specialize (IH v E).
  unfold with_pretest in *. cbn [combine map]. rewrite IH. destruct b; reflexivity.
Qed.
Lemma with_length v : List.length v = n -> List.length (with_pretest v l) = n.
Proof. intros E. unfold with_pretest. rewrite map_length, combine_length, E. apply Nat.min_id. Qed.
Lemma with_total (f : item -> R) (g h : chances -> R) :
  (forall x, f (mkI (Some 1%Z) (before x) (if_treated x)) = g x) -> (forall x, f (mkI (Some 0%Z) (before x) (if_not x)) = h x) ->
  forall v, List.length v = n -> total (map f (with_pretest v l)) = dot v (map g l) + dot (map negb v) (map h l).
Proof.
  intros G H. unfold n. induction l as [|x k IH]; intros [|b v] E; try discriminate; [unfold dot, total; cbn; ring|].
  injection E as E. specialize (IH v E). unfold with_pretest in *. cbn [combine map]. change (total (?x :: ?k)) with (x + total k). rewrite IH.
  destruct b; cbn [fst snd negb]; rewrite dot_true, dot_false, ?G, ?H; ring.
Qed.
End Parts.

Lemma codev_centred (k : list item) : k <> [] ->
  codev (map i_test k) (map i_pre k) = total (map (fun x => i_test x * (i_pre x - avg (map i_pre k))) k).
Proof.
  intros N. change (codev (map i_test k) (map i_pre k)) with (Cv k i_test i_pre). rewrite Cv_S. change (avg (map i_pre k)) with (Av k i_pre).
  change (total (map (fun x => i_test x * (i_pre x - Av k i_pre)) k)) with (Sm k (fun x => i_test x * (i_pre x - Av k i_pre))).
  rewrite (Sm_ext k _ (fun x => i_test x * (i_pre x - Av k i_pre) - Av k i_test * (1 * i_pre x - 1 * Av k i_pre))) by (intros; ring).
  rewrite Sm_minus, Sm_scale, Sm_minus, Sm_const, Sm_scale. rewrite (Av_S k i_pre). assert (P : 0 < INR (List.length k)) by (apply lt_0_INR; destruct k; [easy|cbn; lia]).
  field. lra.
Qed.

(** sums of products over all assignments *)
Section Products.
Context (n k : nat) (K1 : (1 <= k)%nat) (K2 : (k < n)%nat).

Lemma dot_plus {A} (f g : A -> R) v : forall m : list A, dot v (map (fun x => f x + g x) m) = dot v (map f m) + dot v (map g m).
Proof.
  induction v as [|b v IH]; intros [|x m]; try (unfold dot, total; cbn; ring); try (unfold dot, total; destruct b; cbn; ring).
  cbn [map]. destruct b; rewrite ?dot_true, ?dot_false, IH; ring.
Qed.

Lemma product {A} (f g : A -> R) (m : list A) : List.length m = n ->
  Sm (splits n k) (fun v => dot v (map f m) * dot v (map g m)) =
  N n k * ((INR k * (INR n - INR k) * total (map (fun x => f x * g x) m) + INR k * (INR k - 1) * (total (map f m) * total (map g m))) / (INR n * (INR n - 1))).
Proof.
  intros E. assert (RK : 1 <= INR k) by (apply (le_INR 1); exact K1). assert (RN : INR k + 1 <= INR n) by (rewrite <- S_INR; apply le_INR; exact K2).
  rewrite (Sm_ext _ _ (fun v => / 4 * (dot v (map (fun x => f x + g x) m) * dot v (map (fun x => f x + g x) m)) + (- / 4) * (dot v (map (fun x => f x - g x) m) * dot v (map (fun x => f x - g x) m))))
    by (intros v _; rewrite dot_plus, dot_minus; field).
  rewrite Sm_plus, !Sm_scale, !(second n k K1 K2) by (rewrite map_length; exact E).
  assert (SQ : forall h : A -> R, squares (map h m) = total (map (fun x => h x * h x) m)) by (intros h; unfold squares; now rewrite map_map).
  rewrite !SQ.
  assert (T1 : total (map (fun x => (f x + g x) * (f x + g x)) m) = total (map (fun x => f x * f x) m) + 2 * total (map (fun x => f x * g x) m) + total (map (fun x => g x * g x) m)).
  { clear. unfold total. induction m as [|x m IH]; [cbn; ring|]. cbn [map fold_right]. rewrite IH. ring. }
  assert (T2 : total (map (fun x => (f x - g x) * (f x - g x)) m) = total (map (fun x => f x * f x) m) - 2 * total (map (fun x => f x * g x) m) + total (map (fun x => g x * g x) m)).
  { clear. unfold total. induction m as [|x m IH]; [cbn; ring|]. cbn [map fold_right]. rewrite IH. ring. }
  assert (T3 : total (map (fun x => f x + g x) m) = total (map f m) + total (map g m)).
  { clear. unfold total. induction m as [|x m IH]; [cbn; ring|]. cbn [map fold_right]. rewrite IH. ring. }
  assert (T4 : total (map (fun x => f x - g x) m) = total (map f m) - total (map g m)).
  { clear. unfold total. induction m as [|x m IH]; [cbn; ring|]. cbn [map fold_right]. rewrite IH. ring. }
  rewrite T1, T2, T3, T4. field. lra.
Qed.
End Products.

Definition adjusted_estimate (l : list chances) (v : list bool) : R :=
  gap i_test (with_pretest v l) - slope (with_pretest v l) * gap i_pre (with_pretest v l).

Section Mean.
Context (l : list chances) (k : nat) (K1 : (1 <= k)%nat) (K2 : (k < List.length l)%nat) (V : sqdev (map before l) <> 0).
Let n := List.length l.
Let x0 := avg (map before l).
Let a := fun x => before x - x0.
Let S := sqdev (map before l).

Lemma sizes : 1 <= INR k /\ INR k + 1 <= INR n.
Proof. split; [apply (le_INR 1); exact K1|rewrite <- S_INR; apply le_INR; exact K2]. Qed.

Lemma centred : total (map a l) = 0.
Proof.
  destruct sizes as [RK RN]. unfold a. assert (E : total (map (fun x => before x - x0) l) = total (map before l) - INR n * x0).
  { unfold n. generalize x0. clear. intros z. unfold total. induction l as [|x m IH]; [cbn; ring|]. cbn [map fold_right List.length]. rewrite IH, S_INR. ring. }
  rewrite E. unfold x0, avg. rewrite map_length. fold n. field. lra.
Qed.

Lemma dot_centred v : List.length v = n -> treated_in v = k -> dot v (map a l) = dot v (map before l) - INR k * x0.
Proof.
  intros E KK. rewrite <- KK. unfold a, n in *. clear KK. revert v E. generalize x0. clear. intros z. induction l as [|x m IH]; intros [|b v] E; try discriminate; [unfold dot, total; cbn; ring|]. injection E as E. specialize (IH v E).
  cbn [map]. destruct b; rewrite ?dot_true, ?dot_false, IH; unfold treated_in; cbn [filter List.length]; rewrite ?S_INR; ring.
Qed.

Lemma estimate_value v : In v (splits n k) ->
  adjusted_estimate l v = contrast (map (fun x => (if_treated x, if_not x)) l) v -
    (total (map (fun x => if_not x * a x) l) + dot v (map (fun x => gain x * a x) l)) / S * (INR n / (INR k * (INR n - INR k)) * dot v (map a l)).
Proof.
  intros Hv. assert (Hv' := Hv). apply in_splits in Hv' as [E KK]. destruct sizes as [RK RN].
  unfold adjusted_estimate, gap, slope.
  assert (NE : with_pretest v l <> []) by (intros X; apply (f_equal (@List.length item)) in X; rewrite (with_length l v E) in X; cbn in X; lia).
  rewrite (codev_centred _ NE).
  rewrite (arm_treated l i_test if_treated), (arm_control l i_test if_not), (arm_treated l i_pre before), (arm_control l i_pre before), (all_before l v E) by (auto; reflexivity).
  fold x0.
  rewrite (with_total l (fun x => i_test x * (i_pre x - x0)) (fun x => if_treated x * a x) (fun x => if_not x * a x)) by (auto; reflexivity).
  rewrite dot_negb by (rewrite map_length; exact E).
  rewrite (map_ext (fun x => gain x * a x) (fun x => if_treated x * a x - if_not x * a x)) by (intros; unfold gain; ring). rewrite dot_minus.
  assert (P : avg (picked v (map before l)) - avg (picked (map negb v) (map before l)) = INR n / (INR k * (INR n - INR k)) * dot v (map a l)).
  { destruct (arm_length n k K1 K2 (map before l) v ltac:(apply map_length) Hv) as [L1 L0]. unfold avg. rewrite L1, L0, minus_INR by (unfold n; lia).
    fold (dot v (map before l)) (dot (map negb v) (map before l)). rewrite dot_negb by (rewrite map_length; exact E). rewrite (dot_centred v E KK). unfold x0, avg. rewrite map_length. fold n.
    field. lra. }
  rewrite P. unfold contrast. rewrite !map_map. cbn [fst snd].
  change (map (fun x : chances => if_treated x) l) with (map if_treated l). change (map (fun x : chances => if_not x) l) with (map if_not l).
  unfold S. f_equal. f_equal. f_equal. ring.
Qed.

Lemma adjusted_mean : Sm (splits n k) (adjusted_estimate l) = N n k * (mean_gain l - weighted_gain l / (INR n - 1)).
Proof.
  destruct sizes as [RK RN]. set (pairs := map (fun x => (if_treated x, if_not x)) l).
  set (c0 := total (map (fun x => if_not x * a x) l)). set (q := INR n / (INR k * (INR n - INR k)) / S).
  rewrite (Sm_ext _ _ (fun v => contrast pairs v + ((- (q * c0)) * dot v (map a l) + (- q) * (dot v (map (fun x => gain x * a x) l) * dot v (map a l)))))
    by (intros v Hv; rewrite (estimate_value v Hv); fold pairs c0; unfold q; field; repeat split; try lra; exact V).
  rewrite Sm_plus, Sm_plus, !Sm_scale. rewrite (contrast_mean n k K1 K2 pairs) by apply map_length.
  rewrite (first n k K1 K2) by apply map_length. rewrite (product n k K1 K2) by reflexivity. rewrite centred.
  assert (W : total (map (fun x => gain x * a x * a x) l) = weighted_gain l * S).
  { unfold weighted_gain. fold x0. assert (SE : total (map (fun x => (before x - x0) ^ 2) l) = S).
    { unfold S, sqdev. rewrite map_map. reflexivity. }
    rewrite SE. rewrite (map_ext (fun x => gain x * a x * a x) (fun x => (before x - x0) ^ 2 * gain x)) by (intros; unfold a; ring). field. exact V. }
  rewrite W. assert (EF : effect pairs = mean_gain l).
  { unfold effect, mean_gain, pairs, avg. rewrite !map_map, !map_length. cbn [fst snd]. change (map (fun x : chances => if_treated x) l) with (map if_treated l). change (map (fun x : chances => if_not x) l) with (map if_not l). replace (total (map gain l)) with (total (map if_treated l) - total (map if_not l)); [unfold Rdiv; ring|].
    clear. unfold total, gain. induction l as [|x m IH]; [cbn; ring|]. cbn [map fold_right]. rewrite <- IH. ring. }
  rewrite EF. unfold q. field. repeat split; try lra; exact V.
Qed.
End Mean.

(** *** The analysis *)
Section Analysis.
Context {K : Type} (arm : K -> option Z) (T : tdist) (argsort : list num -> list nat) (t : list bool -> table K) (p : params) (m : string)
  (l : list chances) (override : option f64).

(** the table of a regular experiment with pretest weeks, for each assignment *)
Record pretest_tables : Prop := {
  pt_sorts : sorts argsort;
  pt_regular : crossover p = false;
  pt_size : usable (List.length l) (chosen p override);
  pt_quantile : B2R (chosen p override) = 0;
  pt_varies : exists x y, In x l /\ In y l /\ before x <> before y;
  pt_columns : forall v, NoDup (t_cols (t v));
  pt_items : forall v, List.length v = List.length l -> pretest_items arm (t v) m (with_pretest v l)
}.

Lemma varied : pretest_tables -> sqdev (map before l) <> 0.
Proof.
  intros [_ _ _ _ (x & y & Hx & Hy & D) _ _] Z. apply D. rewrite <- Cv_sqdev in Z.
  rewrite (Cv_zero_const l before Z x Hx), (Cv_zero_const l before Z y Hy). reflexivity.
Qed.

Lemma pretest_result v r : pretest_tables -> List.length v = List.length l ->
  analyze_single_metric T argsort arm (t v) true p m None override = Ok r -> r_abs r = Fin (adjusted_estimate l v).
Proof.
  intros A E H. assert (V := varied A). destruct A as [HS C U Q _ ND IT].
  refine (proj1 (c100_what_the_adjusted_analysis_computes arm T argsort (t v) p m (with_pretest v l) override r _ H)).
  constructor; auto.
  - rewrite (with_length l v E). exact U.
  - rewrite (all_before l v E). exact V.
  - intros x I. unfold with_pretest in I. apply in_map_iff in I as ([b y] & <- & _). destruct b; cbn; auto.
Qed.

(** Over all assignments that treat the same number of items, and over all outcomes of the coins with items
    in both groups, the adjusted estimates average to less than the effect. *)
Theorem c107_adjusted_estimates : forall r,
  pretest_tables ->
  (forall v, In v (both_groups (List.length l)) -> analyze_single_metric T argsort arm (t v) true p m None override = Ok (r v)) ->
  let expected := mean_gain l - weighted_gain l / (INR (List.length l) - 1) in
  exists estimate, (forall v, In v (both_groups (List.length l)) -> r_abs (r v) = Fin (estimate v)) /\
    avg (map estimate (both_groups (List.length l))) = expected /\
    (forall k, (1 <= k < List.length l)%nat -> avg (map estimate (splits (List.length l) k)) = expected).
Proof.
  intros r A H expected. assert (V := varied A). exists (adjusted_estimate l).
  split. { intros v Hv. assert (Hv' := Hv). apply in_both_groups in Hv' as [E _]. exact (pretest_result v (r v) A E (H v Hv)). }
  assert (L2 : (2 <= List.length l)%nat).
  { destruct A as [_ _ _ _ (x & y & Hx & Hy & D) _ _]. destruct l as [|z [|z' m']]; [destruct Hx| |cbn; lia].
    exfalso. apply D. destruct Hx as [<-|[]], Hy as [<-|[]]. reflexivity. }
  split.
  - assert (S : Sm (both_groups (List.length l)) (fun v => adjusted_estimate l v - expected) = 0).
    { unfold both_groups. rewrite (filter_ext _ (fun v => ((1 <=? treated_in v) && (treated_in v <? 1 + (List.length l - 1)))%nat)).
      - rewrite by_count. rewrite (Sm_ext _ _ (fun _ => 0)).
        + rewrite Sm_const. ring.
        + intros k Hk. apply in_seq in Hk. fold (splits (List.length l) k).
          rewrite (Sm_ext _ _ (fun v => adjusted_estimate l v + (- expected) * 1)) by (intros; ring).
          rewrite Sm_plus, Sm_scale, Sm_const, (adjusted_mean l k ltac:(lia) ltac:(lia) V). fold expected. ring.
      - intros v. f_equal. f_equal. lia. }
    assert (P : 0 < INR (List.length (both_groups (List.length l)))).
    { apply lt_0_INR. assert (I : In (true :: repeat false (List.length l - 1)) (both_groups (List.length l))).
      - apply in_both_groups. cbn [List.length]. rewrite repeat_length. split; [lia|]. unfold treated_in. cbn [filter].
        replace (filter (fun b : bool => b) (repeat false (List.length l - 1))) with (@nil bool); [cbn; lia|].
        induction (List.length l - 1)%nat; [reflexivity|exact IHn].
      - destruct (both_groups (List.length l)); [destruct I|cbn; lia]. }
    fold (Av (both_groups (List.length l)) (adjusted_estimate l)). rewrite Av_S.
    rewrite (Sm_ext _ _ (fun v => adjusted_estimate l v + (- expected) * 1)) in S by (intros; ring). rewrite Sm_plus, Sm_scale, Sm_const in S.
    apply (Rmult_eq_reg_r (INR (List.length (both_groups (List.length l))))); [|lra]. unfold Rdiv. rewrite Rmult_assoc, Rinv_l by lra. lra.
  - intros k HK. fold (Av (splits (List.length l) k) (adjusted_estimate l)). rewrite Av_S, (adjusted_mean l k ltac:(lia) ltac:(lia) V). fold expected.
    assert (P := N_pos (List.length l) k ltac:(lia)). field. lra.
Qed.

(** An effect that is the same on every item is estimated with one of n - 1 parts missing. *)
Theorem c107_constant_effects_shrink : forall r e,
  pretest_tables -> (forall x, In x l -> if_treated x = if_not x + e) ->
  (forall v, In v (both_groups (List.length l)) -> analyze_single_metric T argsort arm (t v) true p m None override = Ok (r v)) ->
  let n := INR (List.length l) in
  exists estimate, (forall v, In v (both_groups (List.length l)) -> r_abs (r v) = Fin (estimate v)) /\
    avg (map estimate (both_groups (List.length l))) = (n - 2) / (n - 1) * e /\
    (forall k, (1 <= k < List.length l)%nat -> avg (map estimate (splits (List.length l) k)) = (n - 2) / (n - 1) * e).
Proof.
  intros r e A C H n. destruct (c107_adjusted_estimates r A H) as (estimate & H1 & H2 & H3). exists estimate. split; [exact H1|].
  assert (V := varied A). assert (G : forall x, In x l -> gain x = e) by (intros x Hx; unfold gain; rewrite (C x Hx); ring).
  assert (L2 : (2 <= List.length l)%nat).
  { destruct A as [_ _ _ _ (x & y & Hx & Hy & D) _ _]. destruct l as [|z [|z' m']]; [destruct Hx| |cbn; lia].
    exfalso. apply D. destruct Hx as [<-|[]], Hy as [<-|[]]. reflexivity. }
  assert (RN : 2 <= n) by (apply (le_INR 2); exact L2).
  assert (M : mean_gain l = e).
  { unfold mean_gain. rewrite (map_ext_in _ (fun _ => e)) by exact G. apply (Av_const l). intros X. rewrite X in L2. cbn in L2. lia. }
  assert (W : weighted_gain l = e).
  { unfold weighted_gain. set (x0 := avg (map before l)).
    rewrite (map_ext_in _ (fun x => e * (before x - x0) ^ 2)) by (intros x Hx; rewrite (G x Hx); ring).
    change (Sm l (fun x => e * (before x - x0) ^ 2) / Sm l (fun x => (before x - x0) ^ 2) = e). rewrite Sm_scale.
    assert (S : Sm l (fun x => (before x - x0) ^ 2) = sqdev (map before l)) by (unfold Sm, sqdev; rewrite map_map; reflexivity). rewrite S. field. exact V. }
  rewrite M, W in H2, H3. fold n in H2, H3. split; [rewrite H2; field; lra|]. intros k HK. rewrite (H3 k HK). field. lra.
Qed.
End Analysis.

(** *** Cases *)
(** three items that differ before the test only; the treatment adds one to each of them *)
Definition three_items : list chances := [mkChances 1 101 100; mkChances 2 101 100; mkChances 3 101 100].
Definition three_tables (v : list bool) : table (string * Z) := case_table (with_pretest v three_items).

Lemma three_case : pretest_tables arm_of argsort_ref three_tables pretest_design "clicks" three_items None.
Proof.
  constructor; try reflexivity.
  - exact argsort_ref_sorts.
  - apply usable_0; cbn; lia.
  - exists (mkChances 1 101 100), (mkChances 2 101 100). cbn. split; [auto|split; [auto|lra]].
  - intros v. repeat constructor; cbn; intuition discriminate.
  - intros v E. refine (u_items _ _ _ _ _ _ _ (case_experiment (with_pretest v three_items) _ _ _)).
    + intros x I. unfold with_pretest in I. apply in_map_iff in I as ([b y] & <- & _). destruct b; cbn; auto.
    + rewrite (all_before three_items v E). unfold sqdev, avg, three_items. cbn. lra.
    + rewrite (with_length three_items v E). cbn. lia.
Qed.

Lemma three_runs v : In v (both_groups 3) ->
  exists r, analyze_single_metric cauchy argsort_ref arm_of (three_tables v) true pretest_design "clicks" None None = Ok r.
Proof.
  intros Hv. assert (E := Hv). apply in_both_groups in E as [E _]. unfold three_tables. set (k := with_pretest v three_items).
  assert (SX : sqdev (map i_pre k) = 2) by (unfold k; rewrite (all_before three_items v E); unfold sqdev, avg, three_items; cbn; field).
  assert (AV : avg (map i_pre k) = 2) by (unfold k; rewrite (all_before three_items v E); unfold avg, three_items; cbn; field).
  apply case_runs.
  - intros x I. unfold k, with_pretest in I. apply in_map_iff in I as ([b y] & <- & _). destruct b; cbn; auto.
  - rewrite SX. lra.
  - unfold k. rewrite (with_length three_items v E). cbn. lia.
  - unfold k. vm_compute in Hv. repeat (destruct Hv as [<-|Hv]; [discriminate|]). destruct Hv.
  - unfold k. vm_compute in Hv. repeat (destruct Hv as [<-|Hv]; [discriminate|]). destruct Hv.
  - unfold slope. rewrite SX, AV. clear SX AV. unfold k. vm_compute in Hv. repeat (destruct Hv as [<-|Hv]; [unfold codev, avg, with_pretest, three_items; cbn; lra|]). destruct Hv.
  - unfold slope. rewrite SX, AV. clear SX AV. unfold k. vm_compute in Hv. repeat (destruct Hv as [<-|Hv]; [unfold codev, avg, with_pretest, three_items; cbn; lra|]). destruct Hv.
Qed.

(** The effect is one on each item, and on average the analysis estimates one half. *)
Theorem c107_adjusted_estimates_are_unbiased_refuted : exists r estimate,
  pretest_tables arm_of argsort_ref three_tables pretest_design "clicks" three_items None /\
  (forall x, In x three_items -> if_treated x = if_not x + 1) /\
  (forall v, In v (both_groups 3) -> analyze_single_metric cauchy argsort_ref arm_of (three_tables v) true pretest_design "clicks" None None = Ok (r v) /\
     r_abs (r v) = Fin (estimate v)) /\
  List.length (both_groups 3) = 6%nat /\ avg (map estimate (both_groups 3)) = 1 / 2.
Proof.
  assert (I : In [true; false; false] (both_groups 3)) by (apply in_both_groups; cbn; lia).
  destruct (three_runs _ I) as (r0 & _).
  set (r := fun v => match analyze_single_metric cauchy argsort_ref arm_of (three_tables v) true pretest_design "clicks" None None with Ok r => r | Err _ => r0 end).
  assert (H : forall v, In v (both_groups 3) -> analyze_single_metric cauchy argsort_ref arm_of (three_tables v) true pretest_design "clicks" None None = Ok (r v)).
  { intros v Hv. unfold r. destruct (three_runs v Hv) as (r1 & ->). reflexivity. }
  assert (C : forall x, In x three_items -> if_treated x = if_not x + 1) by (intros x Hx; repeat (destruct Hx as [<-|Hx]; [cbn; ring|]); destruct Hx).
  destruct (c107_constant_effects_shrink arm_of cauchy argsort_ref three_tables pretest_design "clicks" three_items None r 1 three_case C H) as (estimate & H1 & H2 & _).
  exists r, estimate. split; [exact three_case|]. split; [exact C|]. split; [intros v Hv; split; [apply H, Hv|apply H1, Hv]|]. split; [reflexivity|].
  change (List.length three_items) with 3%nat in H2. rewrite H2. cbn. field.
Qed.

Print Assumptions c107_adjusted_estimates.
Print Assumptions c107_constant_effects_shrink.
Print Assumptions c107_adjusted_estimates_are_unbiased_refuted.
