(** C106: what the standard errors of a crossover experiment are on average over the random assignment. *)
From Coq Require Import ZArith Reals Lra Lia List String Bool Permutation Sorting.Sorted.
From Flocq Require Import Core BinarySingleNaN.
Require Import Verif.Base Verif.Num Verif.NumOrd Verif.F64 Verif.ListLib Verif.Design_Model Verif.Design_Spec Verif.Design_Proofs Verif.Design_Props
  Verif.Trimmed_Model Verif.Trimmed_Spec Verif.Moments Verif.Trimmed_Proofs Verif.Trimmed_Real Verif.Trimmed_Props
  Verif.Cuped_Model Verif.Cuped_Props Verif.Stats_Model Verif.Stats_Num Verif.Stats_Props Verif.Tests_Proofs
  Verif.Tests_Props Verif.Tests_Props2 Verif.Pivot_Model Verif.Analysis_Spec Verif.Analysis_Model Verif.Analysis_Props Verif.Effect_Props Verif.Random_Proofs Verif.Random_Props Verif.Random_Props2.
Import ListNotations.
Open Scope string_scope.
Open Scope list_scope.
Open Scope R_scope.

(** *** Specification *)
(** the effect on an item, averaged over the two periods *)
Definition item_effect (x : fates) : R := (effect_one x + effect_two x) / 2.

(** *** Proofs *)
(** treated less control, for an item that is treated first and for one that is treated second *)
Definition gain_first (x : fates) : R := one_treated x - two_control x.
Definition gain_second (x : fates) : R := two_treated x - one_control x.

Lemma dot_shift {A} (f : A -> R) M v : forall l, List.length v = List.length l ->
  dot v (map (fun x => (f x - M) ^ 2) l) = dot v (map (fun x => f x * f x) l) - 2 * M * dot v (map f l) + M * M * INR (treated_in v).
Proof.
  induction v as [|b v IH]; intros [|x l] E; try discriminate; [unfold dot, total; cbn; ring|]. injection E as E. specialize (IH l E). cbn [map].
  destruct b; rewrite ?dot_true, ?dot_false, IH; unfold treated_in; cbn [filter List.length]; rewrite ?S_INR; ring.
Qed.

Lemma dot_minus {A} (f g : A -> R) v : forall l, dot v (map (fun x => f x - g x) l) = dot v (map f l) - dot v (map g l).
Proof.
  induction v as [|b v IH]; intros [|x l]; try (unfold dot, total; cbn; ring); try (unfold dot, total; destruct b; cbn; ring).
  cbn [map]. destruct b; rewrite ?dot_true, ?dot_false, IH; ring.
Qed.

Section Half.
Context (l : list fates) (k : nat) (HK : (1 <= k)%nat) (HN : (2 * k = List.length l)%nat).
Let n := List.length l.
Let U := map gain_first l. Let W := map gain_second l.
Let pairs := map (fun x => (gain_first x, - gain_second x)) l.

Lemma half : INR n = 2 * INR k /\ 1 <= INR k.
Proof. unfold n. rewrite <- HN, mult_INR. split; [reflexivity|]. apply (le_INR 1). exact HK. Qed.
Lemma pairs_length : List.length pairs = n.
Proof. apply map_length. Qed.
Lemma pairs_fst : map fst pairs = U.
Proof. unfold pairs, U. rewrite map_map. reflexivity. Qed.
Lemma pairs_snd : map snd pairs = map (fun x => - gain_second x) l.
Proof. unfold pairs. rewrite map_map. reflexivity. Qed.
Lemma full : l <> [].
Proof. intros E. assert (HN' := HN). rewrite E in HN'. cbn in HN'. lia. Qed.

Lemma total_opp {A} (f : A -> R) (m : list A) : total (map (fun x => - f x) m) = - total (map f m).
Proof. unfold total. induction m as [|x m IH]; [cbn; ring|]. cbn [map fold_right]. rewrite IH. ring. Qed.
Lemma dot_opp {A} (f : A -> R) v : forall m : list A, dot v (map (fun x => - f x) m) = - dot v (map f m).
Proof.
  induction v as [|b v IH]; intros [|x m]; try (unfold dot, total; cbn; ring); try (unfold dot, total; destruct b; cbn; ring).
  cbn [map]. destruct b; rewrite ?dot_true, ?dot_false, IH; ring.
Qed.
Lemma dot_scaled (a : R) {A} (f : A -> R) v : forall m : list A, dot v (map (fun x => a * f x) m) = a * dot v (map f m).
Proof.
  induction v as [|b v IH]; intros [|x m]; try (unfold dot, total; cbn; ring); try (unfold dot, total; destruct b; cbn; ring).
  cbn [map]. destruct b; rewrite ?dot_true, ?dot_false, IH; ring.
Qed.
Lemma sqdev_opp {A} (f : A -> R) (m : list A) : sqdev (map (fun x => - f x) m) = sqdev (map f m).
Proof.
  unfold sqdev. rewrite !map_map. f_equal. apply map_ext. intros x. unfold avg. rewrite total_opp, !map_length. unfold Rdiv. ring.
Qed.

Lemma gains v : List.length v = n -> In v (splits n k) -> demeaned_estimate l v = (dot v U + dot (map negb v) W) / INR n.
Proof.
  intros E Hv. destruct half as [EN K1]. apply in_splits in Hv as [_ KK].
  rewrite (demeaned_value l full v E), KK. fold n. rewrite dot_negb by (unfold W; rewrite map_length; exact E). unfold U, W, gain_first, gain_second.
  rewrite !dot_minus. rewrite (total_minus two_treated one_control). rewrite EN. field. lra.
Qed.

Lemma half_contrast v : In v (splits n k) -> demeaned_estimate l v = / 2 * contrast pairs v.
Proof.
  intros Hv. assert (Hv' := Hv). apply in_splits in Hv' as [E KK]. destruct half as [EN K1]. rewrite (gains v E Hv).
  rewrite (contrast_linear n k HK ltac:(unfold n; lia) pairs v pairs_length Hv), dot_lin, pairs_fst, pairs_snd, dot_opp, total_opp.
  rewrite dot_negb by (unfold W; rewrite map_length; exact E). fold W. rewrite EN. field. lra.
Qed.

(** the deviations of the differences: those within the two groups *)
Lemma half_deviations v : In v (splits n k) -> let c := crossed v l in
  sqdev (map (fun x => signed x ((x_one x - avg (ones c)) - (x_two x - avg (twos c)))) c) = sqdev (picked v U) + sqdev (picked (map negb v) W).
Proof.
  intros Hv c. assert (Hv' := Hv). apply in_splits in Hv' as [E KK]. destruct half as [EN K1].
  assert (KN : (k < n)%nat) by (unfold n; lia).
  destruct (arm_length n k HK KN U v ltac:(apply map_length) Hv) as [LU _]. destruct (arm_length n k HK KN W v ltac:(apply map_length) Hv) as [_ LW].
  replace (n - k)%nat with k in LW by (unfold n; lia).
  assert (LC : List.length c = n) by (apply crossed_length; exact E).
  set (M := avg (ones c) - avg (twos c)).
  rewrite (map_ext _ (fun x => signed x ((x_one x - x_two x) - M))) by (intros x; unfold M; f_equal; ring).
  rewrite sqdev_squares by (intros X; apply map_eq_nil in X; rewrite X in LC; cbn in LC; lia).
  rewrite map_length, LC. unfold squares. rewrite map_map. unfold c.
  rewrite (crossed_total l (fun x => signed x (x_one x - x_two x - M) * signed x (x_one x - x_two x - M)) (fun x => (gain_first x - M) ^ 2) (fun x => (gain_second x - (- M)) ^ 2))
    by (try exact E; intros x; unfold signed, gain_first, gain_second; cbn; ring).
  rewrite (crossed_total l (fun x => signed x (x_one x - x_two x - M)) (fun x => gain_first x - M) (fun x => gain_second x - - M))
    by (try exact E; intros x; unfold signed, gain_first, gain_second; cbn; ring).
  assert (TN : treated_in (map negb v) = k) by (assert (X := treated_negb v); unfold n in *; lia).
  assert (EM : List.length (map negb v) = List.length l) by (rewrite map_length; exact E).
  rewrite !dot_shift by assumption. rewrite KK, TN.
  assert (DC : forall (f : fates -> R) z w, List.length w = List.length l -> dot w (map (fun x => f x - z) l) = dot w (map f l) - z * INR (treated_in w)).
  { intros f z w. clear. revert w. induction l as [|x m IH]; intros [|b w] E; try discriminate; [unfold dot, total; cbn; ring|]. injection E as E. specialize (IH w E). cbn [map].
    destruct b; rewrite ?dot_true, ?dot_false, IH; unfold treated_in; cbn [filter List.length]; rewrite ?S_INR; ring. }
  rewrite !DC by assumption. rewrite KK, TN.
  rewrite (sqdev_squares (picked v U)) by (intros X; rewrite X in LU; cbn in LU; lia). rewrite (sqdev_squares (picked (map negb v) W)) by (intros X; rewrite X in LW; cbn in LW; lia).
  rewrite LU, LW, !squares_picked. fold (dot v U) (dot (map negb v) W). unfold U, W. rewrite !map_map.
  set (s1 := dot v (map gain_first l)). set (s0 := dot (map negb v) (map gain_second l)).
  assert (MV : M = (s1 - s0) / INR n).
  { unfold M. destruct (parts l v E) as (_ & _ & P3 & P4). fold c in P3, P4. unfold avg, ones, twos in *. rewrite P3, P4, !map_length, LC. unfold s1, s0.
    rewrite dot_negb by (rewrite map_length; exact E). unfold gain_first, gain_second. rewrite !dot_minus, (total_minus two_treated one_control). field. lra. }
  rewrite MV, EN. field. lra.
Qed.
End Half.

Section Errors.
Context {K : Type} (arm : K -> option Z) (T : tdist) (argsort : list num -> list nat) (t : list bool -> table K) (p : params) (m : string)
  (l : list fates) (override : option f64).

Lemma crossed_error v : crossed_tables arm argsort t p m l override -> B2R (chosen p override) = 0 -> List.length v = List.length l -> (2 <= List.length l)%nat ->
  exists r s, analyze_single_metric T argsort arm (t v) true p m None override = Ok r /\ r_abs r = Fin (demeaned_estimate l v) /\
    r_standard_error r = Fin s /\ 0 <= s /\ let c := crossed v l in
    s ^ 2 = sqdev (map (fun x => signed x ((x_one x - avg (ones c)) - (x_two x - avg (twos c)))) c) / (INR (List.length l) - 1) / INR (List.length l).
Proof.
  intros A Q E L2. destruct (crossed_nonempty _ _ _ _ _ _ _ v A E) as [N _]. destruct A as [HS C U ND IT].
  rewrite (analysis_crossover arm T argsort (t v) p m _ override (ND v) C (IT v E)). cbv zeta.
  assert (Z : is_zero (chosen p override) = true) by (apply is_zero_iff; auto; apply U). rewrite Z.
  destruct (c62_demeaned (crossed v l) N) as (tr & co & -> & T1 & T2 & _ & M). cbn [fst snd]. rewrite (crossed_length l v E) in T1, T2.
  assert (Ut : usable (List.length tr) (chosen p override)) by now rewrite T1.
  destruct (paired_runs T argsort tr co _ "two-sided" default_alpha HS Ut ltac:(congruence) ltac:(now left)) as (r & H).
  destruct (sorted_exists (minus tr co)) as (sd & Sd).
  destruct (c52_what_the_test_computes T argsort tr co _ _ _ r sd HS (usable_sample _ _ Ut) Sd H) as (_ & k & Ek & _ & B1 & _ & _ & B2).
  assert (TZ : trim_each (List.length tr) (chosen p override) = 0%Z) by (unfold trim_each; rewrite Q, Rmult_0_l, rnd_0; apply (Zfloor_IZR 0)).
  rewrite TZ in Ek. assert (k = 0%nat) by lia. subst k. rewrite T1 in B2. change (2 * 0)%nat with 0%nat in B2. rewrite Nat.sub_0_r in B2.
  destruct (B2 L2) as (s & E1 & E2 & E3 & _). exists r, s. split; [exact H|]. split; [rewrite B1, (tmean_0 _ _ Sd), M; reflexivity|]. split; auto. split; auto.
  cbv zeta. rewrite E3, (tdev_0 _ _ Sd), M. reflexivity.
Qed.

(** With groups of the same size, the squared standard errors average to a little less than the variance of
    the estimates and a term that is zero if the effect is the same on every item. *)
Theorem c106_squared_errors_of_equal_groups : forall k,
  crossed_tables arm argsort t p m l override -> B2R (chosen p override) = 0 -> (1 <= k)%nat -> (2 * k = List.length l)%nat ->
  let all := splits (List.length l) k in let n := INR (List.length l) in
  exists r estimate error, (forall v, In v all -> analyze_single_metric T argsort arm (t v) true p m None override = Ok (r v) /\
      r_abs (r v) = Fin (estimate v) /\ r_standard_error (r v) = Fin (error v) /\ 0 <= error v) /\
    avg (map (fun v => error v ^ 2) all) = (n - 2) / (n - 1) * (variance (map estimate all) + variance (map item_effect l) / (n - 1)).
Proof.
  intros k A Q K1 K2 all n. assert (L2 : (2 <= List.length l)%nat) by lia.
  assert (R : exists r, forall v, List.length v = List.length l -> exists s, analyze_single_metric T argsort arm (t v) true p m None override = Ok (r v) /\
     r_abs (r v) = Fin (demeaned_estimate l v) /\ r_standard_error (r v) = Fin s /\ 0 <= s /\ let c := crossed v l in
     s ^ 2 = sqdev (map (fun x => signed x ((x_one x - avg (ones c)) - (x_two x - avg (twos c)))) c) / (n - 1) / n).
  { destruct (crossed_error (repeat true (List.length l)) A Q (repeat_length _ _) L2) as (r0 & _).
    exists (fun v => match analyze_single_metric T argsort arm (t v) true p m None override with Ok r => r | Err _ => r0 end).
    intros v E. destruct (crossed_error v A Q E L2) as (r & s & -> & H). exists s. auto. }
  destruct R as (r & R). set (error := fun v => match r_standard_error (r v) with Fin s => s | _ => 0 end).
  assert (RR : forall v, In v all -> analyze_single_metric T argsort arm (t v) true p m None override = Ok (r v) /\ r_abs (r v) = Fin (demeaned_estimate l v) /\
     r_standard_error (r v) = Fin (error v) /\ 0 <= error v /\
     error v ^ 2 = / ((n - 1) * n) * (sqdev (picked v (map gain_first l)) + sqdev (picked (map negb v) (map gain_second l)))).
  { intros v Hv. assert (E := Hv). apply in_splits in E as [E _]. destruct (R v E) as (s & H1 & H2 & H3 & H4 & H5). unfold error. rewrite H3. repeat (split; [auto|]).
    cbv zeta in H5. rewrite H5, (half_deviations l k K1 K2 v Hv). destruct (half l k K1 K2) as [EN RK]. fold n in EN. field. lra. }
  exists r, (demeaned_estimate l), error. split; [intros v Hv; destruct (RR v Hv) as (? & ? & ? & ? & _); auto|].
  destruct (half l k K1 K2) as [EN RK]. fold n in EN. assert (KN : (k < List.length l)%nat) by lia.
  assert (P : 0 < INR (List.length all)) by (apply N_pos; lia).
  set (pairs := map (fun x => (gain_first x, - gain_second x)) l).
  assert (PL : List.length pairs = List.length l) by apply map_length.
  assert (ME : avg (map (demeaned_estimate l) all) = / 2 * effect pairs).
  { fold (Av all (demeaned_estimate l)). rewrite Av_S. rewrite (Sm_ext all _ (fun v => / 2 * contrast pairs v)) by (intros v Hv; apply (half_contrast l k K1 K2 v Hv)).
    rewrite Sm_scale. unfold all. rewrite (contrast_mean (List.length l) k K1 KN pairs PL). fold all. field. lra. }
  assert (EV : variance (map (demeaned_estimate l) all) =
    / 4 * (sqdev (map gain_first l) / (n - 1) / INR k + sqdev (map gain_second l) / (n - 1) / INR k - 4 * sqdev (map item_effect l) / (n * (n - 1)))).
  { unfold variance, sqdev at 1. rewrite map_map, map_length, ME. fold (Sm all (fun v => (demeaned_estimate l v - / 2 * effect pairs) ^ 2)).
    rewrite (Sm_ext all _ (fun v => / 4 * (contrast pairs v - effect pairs) ^ 2)) by (intros v Hv; rewrite (half_contrast l k K1 K2 v Hv); fold pairs; field).
    rewrite Sm_scale. unfold all. rewrite (contrast_variance (List.length l) k K1 KN pairs PL). fold all n.
    unfold pairs. rewrite !map_map. cbn [fst snd]. rewrite sqdev_opp.
    rewrite (map_ext (fun x => gain_first x - - gain_second x) (fun x => 2 * item_effect x + 0)) by (intros x; unfold gain_first, gain_second, item_effect, effect_one, effect_two; field).
    rewrite <- (map_map item_effect (fun y => 2 * y + 0)), sqdev_affine by (intros X; apply map_eq_nil in X; rewrite X in KN; cbn in KN; lia).
    change (map (fun x : fates => gain_first x) l) with (map gain_first l). rewrite EN. field. lra. }
  assert (VE : variance (map item_effect l) = sqdev (map item_effect l) / n) by (unfold variance; rewrite map_length; reflexivity).
  rewrite EV, VE. fold (Av all (fun v => error v ^ 2)). rewrite Av_S.
  rewrite (Sm_ext all _ (fun v => / ((n - 1) * n) * (sqdev (picked v (map gain_first l)) + sqdev (picked (map negb v) (map gain_second l))))) by (intros v Hv; apply (RR v Hv)).
  rewrite Sm_scale, Sm_plus. unfold all. rewrite (deviations_treated (List.length l) k K1 KN), (deviations_control (List.length l) k K1 KN) by apply map_length. fold all n.
  rewrite EN. field. lra.
Qed.

(** If the effect is the same on every item, the squared standard errors are on average too small. *)
Theorem c106_errors_are_too_small : forall k,
  crossed_tables arm argsort t p m l override -> B2R (chosen p override) = 0 -> (1 <= k)%nat -> (2 * k = List.length l)%nat ->
  (forall x y, In x l -> In y l -> item_effect x = item_effect y) ->
  let all := splits (List.length l) k in
  exists r estimate error, (forall v, In v all -> analyze_single_metric T argsort arm (t v) true p m None override = Ok (r v) /\
      r_abs (r v) = Fin (estimate v) /\ r_standard_error (r v) = Fin (error v) /\ 0 <= error v) /\
    avg (map (fun v => error v ^ 2) all) <= variance (map estimate all) /\
    ((exists v v', In v all /\ In v' all /\ estimate v <> estimate v') -> avg (map (fun v => error v ^ 2) all) < variance (map estimate all)).
Proof.
  intros k A Q K1 K2 G all. destruct (c106_squared_errors_of_equal_groups k A Q K1 K2) as (r & estimate & error & H1 & H2). fold all in H1, H2.
  exists r, estimate, error. split; [exact H1|]. destruct (half l k K1 K2) as [EN RK]. set (n := INR (List.length l)) in *.
  assert (Z : variance (map item_effect l) = 0).
  { unfold variance. replace (sqdev (map item_effect l)) with 0; [unfold Rdiv; ring|]. destruct l as [|x rest] eqn:El; [reflexivity|]. rewrite <- El in *.
    rewrite (map_ext_in _ (fun _ => item_effect x)) by (intros y Hy; apply G; auto; rewrite El; now left).
    assert (Y : avg (map (fun _ : fates => item_effect x) l) = item_effect x) by (apply (Av_const l); rewrite El; discriminate).
    unfold sqdev. rewrite Y, map_map. rewrite (map_ext_in _ (fun _ => 0)) by (intros; ring). clear. unfold total. induction l as [|z k IH]; [reflexivity|]. cbn [map fold_right]. rewrite <- IH. ring. }
  rewrite Z in H2.
  assert (V0 : 0 <= variance (map estimate all)).
  { unfold variance, Rdiv. apply Rmult_le_pos; [apply sqdev_nonneg|]. left. apply Rinv_0_lt_compat. rewrite map_length. apply N_pos. lia. }
  assert (F : (n - 2) / (n - 1) = 1 - / (n - 1)) by (field; lra). assert (I : 0 < / (n - 1)) by (apply Rinv_0_lt_compat; lra).
  assert (E : avg (map (fun v => error v ^ 2) all) = variance (map estimate all) - / (n - 1) * variance (map estimate all)) by (rewrite H2, F; unfold Rdiv; ring).
  rewrite E. split; [assert (0 <= / (n - 1) * variance (map estimate all)) by (apply Rmult_le_pos; lra); lra|].
  intros (v & v' & Hv & Hv' & D). assert (VP : 0 < variance (map estimate all)).
  { destruct (Rle_lt_or_eq_dec _ _ V0) as [X|X]; [exact X|]. exfalso. apply D.
    assert (S0 : Cv all estimate estimate = 0).
    { rewrite Cv_sqdev. symmetry in X. unfold variance in X. rewrite map_length in X. assert (P : 0 < INR (List.length all)) by (apply N_pos; lia).
      apply (f_equal (fun x => x * INR (List.length all))) in X. unfold Rdiv in X. rewrite Rmult_assoc, Rinv_l in X by lra. lra. }
    rewrite (Cv_zero_const all estimate S0 v Hv), (Cv_zero_const all estimate S0 v' Hv'). reflexivity. }
  assert (0 < / (n - 1) * variance (map estimate all)) by (apply Rmult_lt_0_compat; lra). lra.
Qed.
End Errors.

(** *** Cases *)
(** four items with the same effect of four in both periods *)
Definition four_fates : list fates := [mkFates 5 1 7 3; mkFates 6 2 6 2; mkFates 9 5 8 4; mkFates 4 0 10 6].
Theorem c106_errors_are_conservative_refuted : exists r estimate error,
  crossed_tables arm_of argsort_ref (crossed_table four_fates) (cross_design f0) "clicks" four_fates None /\
  (forall x, In x four_fates -> effect_one x = 4 /\ effect_two x = 4) /\
  (forall v, In v (splits 4 2) -> analyze_single_metric cauchy argsort_ref arm_of (crossed_table four_fates v) true (cross_design f0) "clicks" None None = Ok (r v) /\
     r_abs (r v) = Fin (estimate v) /\ r_standard_error (r v) = Fin (error v) /\ 0 <= error v) /\
  estimate [true; true; false; false] = 19 / 4 /\ estimate [false; false; true; true] = 13 / 4 /\
  avg (map (fun v => error v ^ 2) (splits 4 2)) < variance (map estimate (splits 4 2)).
Proof.
  assert (U : usable (List.length four_fates) f0) by (apply usable_0; cbn; lia). assert (A := crossed_case f0 four_fates U).
  assert (EF : forall x, In x four_fates -> effect_one x = 4 /\ effect_two x = 4).
  { intros x I. unfold effect_one, effect_two. repeat (destruct I as [<-|I]; [cbn; split; ring|]). destruct I. }
  assert (G : forall x y, In x four_fates -> In y four_fates -> item_effect x = item_effect y).
  { intros x y Hx Hy. unfold item_effect. destruct (EF x Hx) as [-> ->], (EF y Hy) as [-> ->]. reflexivity. }
  destruct (c106_errors_are_too_small arm_of cauchy argsort_ref (crossed_table four_fates) (cross_design f0) "clicks" four_fates None 2 A (proj2 f0_val) ltac:(lia) eq_refl G)
    as (r & estimate & error & H1 & _ & H2).
  assert (EE : forall v, In v (splits 4 2) -> estimate v = demeaned_estimate four_fates v).
  { intros v Hv. destruct (H1 v Hv) as (R & E & _). assert (L := Hv). apply in_splits in L as [L _].
    destruct (crossed_demeaned arm_of cauchy argsort_ref (crossed_table four_fates) (cross_design f0) "clicks" four_fates None v A (proj2 f0_val) L) as (r' & R' & E').
    rewrite R in R'. injection R' as <-. rewrite E in E'. injection E' as E'. exact E'. }
  assert (I1 : In [true; true; false; false] (splits 4 2)) by (apply in_splits; split; reflexivity).
  assert (I2 : In [false; false; true; true] (splits 4 2)) by (apply in_splits; split; reflexivity).
  assert (V1 : estimate [true; true; false; false] = 19 / 4).
  { rewrite (EE _ I1), (gains four_fates 2 (le_S 1 1 (le_n 1)) eq_refl [true; true; false; false] eq_refl I1). unfold dot, total, gain_first, gain_second. cbn. field. }
  assert (V2 : estimate [false; false; true; true] = 13 / 4).
  { rewrite (EE _ I2), (gains four_fates 2 (le_S 1 1 (le_n 1)) eq_refl [false; false; true; true] eq_refl I2). unfold dot, total, gain_first, gain_second. cbn. field. }
  exists r, estimate, error. split; [exact A|]. split; [exact EF|]. split; [exact H1|]. split; [exact V1|]. split; [exact V2|].
  apply H2. exists [true; true; false; false], [false; false; true; true]. split; [exact I1|]. split; [exact I2|]. rewrite V1, V2. lra.
Qed.

Print Assumptions c106_squared_errors_of_equal_groups.
Print Assumptions c106_errors_are_too_small.
Print Assumptions c106_errors_are_conservative_refuted.
