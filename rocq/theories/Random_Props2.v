(** C105: what the estimates of a crossover experiment are on average over the random assignment. *)
From Coq Require Import ZArith Reals Lra Lia List String Bool Permutation Sorting.Sorted.
From Flocq Require Import Core BinarySingleNaN.
Require Import Verif.Base Verif.Num Verif.NumOrd Verif.F64 Verif.ListLib Verif.Design_Model Verif.Design_Spec Verif.Design_Proofs Verif.Design_Props
  Verif.Trimmed_Model Verif.Trimmed_Spec Verif.Moments Verif.Trimmed_Proofs Verif.Trimmed_Real Verif.Trimmed_Props
  Verif.Cuped_Model Verif.Cuped_Props Verif.Stats_Model Verif.Stats_Num Verif.Stats_Props Verif.Tests_Proofs
  Verif.Tests_Props Verif.Tests_Props2 Verif.Pivot_Model Verif.Analysis_Spec Verif.Analysis_Model Verif.Analysis_Props Verif.Effect_Props Verif.Random_Proofs Verif.Random_Props.
Require Verif.Regular_Props.
Import ListNotations.
Open Scope string_scope.
Open Scope list_scope.
Open Scope R_scope.

(** *** Specification *)
(** An item has four possible values: in the first and in the second period, if it is treated then and if
    it is not.  (The treatment of the first period has no effect on the second one: that is what the
    washout is for.) *)
Record fates := mkFates { one_treated : R; one_control : R; two_treated : R; two_control : R }.
(** [v] decides which items are treated first *)
Definition crossed (v : list bool) (l : list fates) : list (cross R) :=
  map (fun bx : bool * fates => if fst bx then mkX (Some 1%Z) (one_treated (snd bx)) (two_control (snd bx))
                                else mkX (Some 0%Z) (one_control (snd bx)) (two_treated (snd bx))) (combine v l).
Definition effect_one (x : fates) : R := one_treated x - one_control x.
Definition effect_two (x : fates) : R := two_treated x - two_control x.
(** the average effect over both periods and all items *)
Definition crossover_effect (l : list fates) : R := (avg (map effect_one l) + avg (map effect_two l)) / 2.

(** *** Proofs *)
Section Sums.
Context (l : list fates).
Let n := List.length l.

Lemma crossed_length v : List.length v = n -> List.length (crossed v l) = n.
Proof. intros E. unfold crossed. rewrite map_length, combine_length, E. apply Nat.min_id. Qed.

Lemma crossed_total (f : cross R -> R) (g h : fates -> R) :
  (forall x, f (mkX (Some 1%Z) (one_treated x) (two_control x)) = g x) -> (forall x, f (mkX (Some 0%Z) (one_control x) (two_treated x)) = h x) ->
  forall v, List.length v = n -> total (map f (crossed v l)) = dot v (map g l) + dot (map negb v) (map h l).
Proof.
  intros G H. unfold n. induction l as [|x k IH]; intros [|b v] E; try discriminate; [unfold dot, total; cbn; ring|].
  injection E as E. specialize (IH v E). unfold crossed in *. cbn [combine map]. change (total (?x :: ?k)) with (x + total k). rewrite IH.
  destruct b; cbn [fst snd negb]; rewrite dot_true, dot_false, ?G, ?H; ring.
Qed.

Lemma crossed_first v : List.length v = n -> INR (List.length (filter (fun c => in_treatment_arm (x_arm c)) (crossed v l))) = INR (treated_in v).
Proof.
  intros E. f_equal. unfold n in *. revert v E. induction l as [|x k IH]; intros [|b v] E; try discriminate; [reflexivity|]. injection E as E. specialize (IH v E).
  unfold crossed, treated_in in *. destruct b; cbn in *; congruence.
Qed.
End Sums.

Lemma signed_total c1 c2 (k : list (cross R)) :
  total (map (fun c => signed c ((x_one c - c1) - (x_two c - c2))) k) =
  total (map while_treated k) - total (map while_control k) - (c1 - c2) * (2 * INR (List.length (filter (fun c => in_treatment_arm (x_arm c)) k)) - INR (List.length k)).
Proof.
  unfold total. induction k as [|c k IH]; [cbn; ring|]. cbn [map fold_right filter]. rewrite IH. unfold signed, while_treated, while_control.
  destruct (in_treatment_arm (x_arm c)); cbn [List.length]; rewrite ?S_INR; ring.
Qed.

Lemma total_minus (f g : fates -> R) l : total (map (fun x => f x - g x) l) = total (map f l) - total (map g l).
Proof. unfold total. induction l as [|x l IH]; [cbn; ring|]. cbn [map fold_right]. rewrite IH. ring. Qed.

(** the estimate with period means taken out, and the plain one *)
Definition demeaned_estimate (l : list fates) (v : list bool) : R :=
  let k := crossed v l in avg (map (fun c => signed c ((x_one c - avg (ones k)) - (x_two c - avg (twos k)))) k).
Definition plain_estimate (l : list fates) (v : list bool) : R :=
  let k := crossed v l in avg (map (fun c => while_treated c - while_control c) k).

Section Means.
Context (l : list fates) (L : l <> []).
Let n := List.length l.
Let A := map one_treated l. Let B := map one_control l. Let C := map two_treated l. Let D := map two_control l.

Lemma n_pos : 0 < INR n.
Proof. apply lt_0_INR. unfold n. destruct l; [easy|cbn; lia]. Qed.

Lemma parts v : List.length v = n ->
  total (map while_treated (crossed v l)) = dot v A + (total C - dot v C) /\
  total (map while_control (crossed v l)) = dot v D + (total B - dot v B) /\
  total (ones (crossed v l)) = dot v A + (total B - dot v B) /\
  total (twos (crossed v l)) = dot v D + (total C - dot v C).
Proof.
  intros E. unfold ones, twos.
  rewrite (crossed_total l while_treated one_treated two_treated), (crossed_total l while_control two_control one_control),
    (crossed_total l x_one one_treated one_control), (crossed_total l x_two two_control two_treated) by (auto; reflexivity).
  rewrite !dot_negb by (rewrite map_length; exact E). auto.
Qed.

Lemma demeaned_value v : List.length v = n ->
  demeaned_estimate l v = (dot v A + (total C - dot v C) - (dot v D + (total B - dot v B)) -
    ((dot v A + (total B - dot v B)) - (dot v D + (total C - dot v C))) * (2 * INR (treated_in v) / INR n - 1)) / INR n.
Proof.
  intros E. assert (P := n_pos). destruct (parts v E) as (P1 & P2 & P3 & P4). unfold demeaned_estimate. cbv zeta. unfold avg at 1. rewrite map_length, signed_total.
  unfold avg, ones, twos in *. rewrite !map_length, P1, P2, P3, P4, crossed_first, (crossed_length l v E) by exact E. fold n. field. lra.
Qed.
Lemma plain_value v : List.length v = n ->
  plain_estimate l v = (dot v A + (total C - dot v C) - (dot v D + (total B - dot v B))) / INR n.
Proof.
  intros E. destruct (parts v E) as (P1 & P2 & _ & _). unfold plain_estimate, avg. rewrite map_length, (crossed_length l v E), <- P1, <- P2. fold n.
  replace (total (map (fun c => while_treated c - while_control c) (crossed v l))) with (total (map while_treated (crossed v l)) - total (map while_control (crossed v l))); [reflexivity|].
  clear. unfold total. induction (crossed v l) as [|c k IH]; [cbn; ring|]. cbn [map fold_right]. rewrite <- IH. ring.
Qed.

Lemma dots (c : list R) k : List.length c = n -> Sm (splits n k) (fun v => dot v c) = N n k * (INR k / INR n * total c).
Proof. intros E. assert (P := n_pos). assert (H := first_moment c k). rewrite E in H. apply (Rmult_eq_reg_l (INR n)); [rewrite H; field; lra|lra]. Qed.

Lemma linear_mean a b c d e k :
  Sm (splits n k) (fun v => a * dot v A + b * dot v B + c * dot v C + d * dot v D + e) =
  N n k * (INR k / INR n * (a * total A + b * total B + c * total C + d * total D) + e).
Proof.
  rewrite (Sm_plus (splits n k) (fun v => a * dot v A + b * dot v B + c * dot v C + d * dot v D) (fun _ => e)), Sm_const, !Sm_plus, !Sm_scale.
  rewrite !dots by (unfold A, B, C, D; apply map_length). ring.
Qed.

Lemma effect_value : crossover_effect l = (total A - total B + (total C - total D)) / (2 * INR n).
Proof.
  assert (P := n_pos). unfold crossover_effect, avg, effect_one, effect_two. rewrite !map_length, !total_minus. fold n A B C D. field. lra.
Qed.

Lemma demeaned_mean k : Sm (splits n k) (demeaned_estimate l) = N n k * (4 * (INR k / INR n) * (1 - INR k / INR n) * crossover_effect l).
Proof.
  assert (P := n_pos). set (f := 2 * INR k / INR n - 1).
  rewrite (Sm_ext _ _ (fun v => ((1 - f) / INR n) * dot v A + ((1 + f) / INR n) * dot v B + (- (1 + f) / INR n) * dot v C + (- (1 - f) / INR n) * dot v D +
    (1 + f) * (total C - total B) / INR n)).
  - rewrite linear_mean, effect_value. unfold f. field. lra.
  - intros v Hv. apply in_splits in Hv as [E K]. rewrite demeaned_value, K by exact E. fold f. field. lra.
Qed.
Lemma plain_mean k : Sm (splits n k) (plain_estimate l) =
  N n k * (INR k / INR n * avg (map effect_one l) + (1 - INR k / INR n) * avg (map effect_two l) + (2 * (INR k / INR n) - 1) * (avg B - avg D)).
Proof.
  assert (P := n_pos).
  rewrite (Sm_ext _ _ (fun v => (/ INR n) * dot v A + (/ INR n) * dot v B + (- / INR n) * dot v C + (- / INR n) * dot v D + (total C - total B) / INR n)).
  - rewrite linear_mean. unfold avg, effect_one, effect_two, B, D. rewrite !map_length, !total_minus. fold n A B C D. field. lra.
  - intros v Hv. apply in_splits in Hv as [E K]. rewrite plain_value by exact E. field. lra.
Qed.
End Means.

(** *** All outcomes of the coins *)
Lemma all_by_count n (f : list bool -> R) : Sm (vectors n) f = Sm (seq 0 (S n)) (fun k => Sm (splits n k) f).
Proof.
  assert (H := by_count treated_in f 0 (vectors n) (S n)). unfold splits. rewrite <- H. f_equal.
  rewrite (filter_ext_in _ (fun _ => true)).
  - clear. induction (vectors n) as [|v vs IH]; [reflexivity|]. cbn [filter]. f_equal. exact IH.
  - intros v Hv. apply vectors_all in Hv. assert (X := treated_negb v). cbn [Nat.leb andb]. apply Nat.ltb_lt. lia.
Qed.

Lemma vectors_step n (f : list bool -> R) : Sm (vectors (S n)) f = Sm (vectors n) (fun v => f (true :: v)) + Sm (vectors n) (fun v => f (false :: v)).
Proof. unfold Sm. cbn [vectors]. rewrite map_app, total_app, !map_map. reflexivity. Qed.

Lemma vectors_number n : INR (List.length (vectors n)) = 2 ^ n.
Proof. induction n as [|n IH]; [reflexivity|]. cbn [vectors]. rewrite app_length, !map_length, plus_INR, IH. cbn [pow]. ring. Qed.
Lemma vectors_first n : Sm (vectors n) (fun v => INR (treated_in v)) = 2 ^ n * INR n / 2.
Proof.
  induction n as [|n IH]; [unfold Sm, total; cbn; field|]. rewrite vectors_step.
  rewrite (Sm_ext _ (fun v => INR (treated_in (true :: v))) (fun v => INR (treated_in v) + 1)) by (intros; unfold treated_in; cbn [filter List.length]; rewrite S_INR; reflexivity).
  change (fun v : list bool => INR (treated_in (false :: v))) with (fun v : list bool => INR (treated_in v)).
  rewrite Sm_plus, Sm_const, IH, vectors_number, S_INR. cbn [pow]. field.
Qed.
Lemma vectors_second n : Sm (vectors n) (fun v => INR (treated_in v) * INR (treated_in v)) = 2 ^ n * (INR n * (INR n + 1)) / 4.
Proof.
  induction n as [|n IH]; [unfold Sm, total; cbn; field|]. rewrite vectors_step.
  rewrite (Sm_ext _ (fun v => INR (treated_in (true :: v)) * INR (treated_in (true :: v))) (fun v => INR (treated_in v) * INR (treated_in v) + (2 * INR (treated_in v) + 1)))
    by (intros; unfold treated_in; cbn [filter List.length]; rewrite S_INR; ring).
  change (fun v : list bool => INR (treated_in (false :: v)) * INR (treated_in (false :: v))) with (fun v : list bool => INR (treated_in v) * INR (treated_in v)).
  rewrite !Sm_plus, Sm_scale, Sm_const, IH, vectors_first, vectors_number, S_INR. cbn [pow]. field.
Qed.

(** the average over all assignments of what depends on the number of treated items only *)
Lemma count_mean n (f : list bool -> R) (g : R -> R) : (forall k, (k <= n)%nat -> Sm (splits n k) f = N n k * g (INR k)) ->
  Sm (vectors n) f = Sm (vectors n) (fun v => g (INR (treated_in v))).
Proof.
  intros H. rewrite !all_by_count. apply Sm_ext. intros k Hk. apply in_seq in Hk. rewrite H by lia.
  rewrite (Sm_ext (splits n k) _ (fun _ => g (INR k))) by (intros v Hv; apply in_splits in Hv as [_ ->]; reflexivity). now rewrite Sm_const.
Qed.

(** *** The analysis *)
Section Crossed.
Context {K : Type} (arm : K -> option Z) (T : tdist) (argsort : list num -> list nat) (t : list bool -> table K) (p : params) (m : string)
  (l : list fates) (override : option f64).

(** the table of a crossover experiment, for each assignment *)
Record crossed_tables : Prop := {
  ct_sorts : sorts argsort;
  ct_crossover : crossover p = true;
  ct_usable : usable (List.length l) (chosen p override);
  ct_columns : forall v, NoDup (t_cols (t v));
  ct_items : forall v, List.length v = List.length l -> crossover_items arm (t v) m (map finite (crossed v l))
}.

Lemma crossed_nonempty v : crossed_tables -> List.length v = List.length l -> crossed v l <> [] /\ l <> [].
Proof.
  intros [_ _ (U & _) _ _] E. assert (X := crossed_length l v E). split; intros Y; rewrite Y in *; cbn in *; lia.
Qed.

Lemma crossed_demeaned v : crossed_tables -> B2R (chosen p override) = 0 -> List.length v = List.length l ->
  exists r, analyze_single_metric T argsort arm (t v) true p m None override = Ok r /\ r_abs r = Fin (demeaned_estimate l v).
Proof.
  intros A Q E. destruct (crossed_nonempty v A E) as [N _]. destruct A as [HS C U ND IT].
  rewrite (analysis_crossover arm T argsort (t v) p m _ override (ND v) C (IT v E)). cbv zeta.
  assert (Z : is_zero (chosen p override) = true) by (apply is_zero_iff; auto; apply U). rewrite Z.
  destruct (c62_demeaned (crossed v l) N) as (tr & co & -> & T1 & T2 & _ & M). cbn [fst snd]. rewrite (crossed_length l v E) in T1, T2.
  assert (Ut : usable (List.length tr) (chosen p override)) by now rewrite T1.
  destruct (paired_runs T argsort tr co _ "two-sided" default_alpha HS Ut ltac:(congruence) ltac:(now left)) as (r & H). exists r. split; [exact H|].
  destruct (sorted_exists (minus tr co)) as (sd & Sd).
  destruct (paired_key T argsort tr co _ _ _ r sd HS (usable_sample _ _ Ut) Sd H) as (_ & k & Ek & _ & B1 & _).
  assert (TZ : trim_each (List.length tr) (chosen p override) = 0%Z) by (unfold trim_each; rewrite Q, Rmult_0_l, rnd_0; apply (Zfloor_IZR 0)).
  rewrite TZ in Ek. assert (k = 0%nat) by lia. subst k. rewrite B1, (tmean_0 _ _ Sd), M. reflexivity.
Qed.

Lemma crossed_plain v : crossed_tables -> B2R (chosen p override) <> 0 -> trim_each (List.length l) (chosen p override) = 0%Z -> List.length v = List.length l ->
  exists r, analyze_single_metric T argsort arm (t v) true p m None override = Ok r /\ r_abs r = Fin (plain_estimate l v).
Proof.
  intros A Q TZ E. destruct (crossed_nonempty v A E) as [N _]. destruct A as [HS C U ND IT].
  rewrite (analysis_crossover arm T argsort (t v) p m _ override (ND v) C (IT v E)). cbv zeta.
  assert (Z : is_zero (chosen p override) = false). { destruct (is_zero (chosen p override)) eqn:X; auto. apply is_zero_iff in X; [contradiction|apply U]. }
  rewrite Z. rewrite (c62_pairs_raw_values (map finite (crossed v l))). cbn [fst snd]. rewrite treated_finite, control_finite.
  set (tr := map while_treated (crossed v l)). set (co := map while_control (crossed v l)).
  assert (T1 : List.length tr = List.length l) by (unfold tr; rewrite map_length; now apply crossed_length).
  assert (T2 : List.length co = List.length l) by (unfold co; rewrite map_length; now apply crossed_length).
  assert (Ut : usable (List.length tr) (chosen p override)) by now rewrite T1.
  destruct (paired_runs T argsort tr co _ "two-sided" default_alpha HS Ut ltac:(congruence) ltac:(now left)) as (r & H). exists r. split; [exact H|].
  destruct (sorted_exists (minus tr co)) as (sd & Sd).
  destruct (paired_key T argsort tr co _ _ _ r sd HS (usable_sample _ _ Ut) Sd H) as (_ & k & Ek & _ & B1 & _).
  rewrite T1, TZ in Ek. assert (k = 0%nat) by lia. subst k. rewrite B1, (tmean_0 _ _ Sd). unfold tr, co. rewrite minus_map. reflexivity.
Qed.

(** Without trimming the analysis never fails.  Over all assignments that treat [k] items first, the
    estimates average to a share of the average effect, which is one only if half of the items is treated first. *)
Theorem c105_groups_of_fixed_size : forall k,
  crossed_tables -> B2R (chosen p override) = 0 -> (k <= List.length l)%nat ->
  let f := INR k / INR (List.length l) in
  exists r estimate, (forall v, In v (splits (List.length l) k) ->
    analyze_single_metric T argsort arm (t v) true p m None override = Ok (r v) /\ r_abs (r v) = Fin (estimate v)) /\
    avg (map estimate (splits (List.length l) k)) = 4 * f * (1 - f) * crossover_effect l /\
    (avg (map estimate (splits (List.length l) k)) = crossover_effect l <-> (2 * k = List.length l)%nat \/ crossover_effect l = 0).
Proof.
  intros k A Q HK f.
  assert (R : exists r, forall v, List.length v = List.length l -> analyze_single_metric T argsort arm (t v) true p m None override = Ok (r v) /\ r_abs (r v) = Fin (demeaned_estimate l v)).
  { destruct (crossed_demeaned (repeat true (List.length l)) A Q (repeat_length _ _)) as (r0 & _).
    exists (fun v => match analyze_single_metric T argsort arm (t v) true p m None override with Ok r => r | Err _ => r0 end).
    intros v E. destruct (crossed_demeaned v A Q E) as (r & -> & H). auto. }
  destruct R as (r & R). destruct (crossed_nonempty (repeat true (List.length l)) A (repeat_length _ _)) as [_ NE].
  exists r, (demeaned_estimate l). split; [intros v Hv; apply R; now apply in_splits in Hv as [? _]|].
  assert (P := N_pos (List.length l) k HK). assert (PN := n_pos l NE).
  assert (E : avg (map (demeaned_estimate l) (splits (List.length l) k)) = 4 * f * (1 - f) * crossover_effect l).
  { fold (Av (splits (List.length l) k) (demeaned_estimate l)). rewrite Av_S, demeaned_mean by exact NE. fold f. field. lra. }
  split; [exact E|]. rewrite E. split.
  - intros H. assert (Y : crossover_effect l * ((2 * f - 1) * (2 * f - 1)) = 0) by lra. apply Rmult_integral in Y as [Y|Y]; auto. left.
    assert (F : 2 * f = 1) by (apply Rmult_integral in Y as [Y|Y]; lra). unfold f in F. apply INR_eq. rewrite mult_INR. change (INR 2) with 2.
    apply (f_equal (fun x => x * INR (List.length l))) in F. replace (2 * (INR k / INR (List.length l)) * INR (List.length l)) with (2 * INR k) in F by (field; lra). lra.
  - intros [H|H]; [|rewrite H; ring]. assert (F : f = 1 / 2); [|rewrite F; lra]. unfold f. rewrite <- H, mult_INR. change (INR 2) with 2.
    rewrite <- H, mult_INR in PN. change (INR 2) with 2 in PN. field. lra.
Qed.

(** Over all outcomes of throwing a coin for each item, the estimates average to a little less than the
    effect: one of [n] parts is missing. *)
Theorem c105_coins : crossed_tables -> B2R (chosen p override) = 0 ->
  exists r estimate, (forall v, In v (vectors (List.length l)) ->
    analyze_single_metric T argsort arm (t v) true p m None override = Ok (r v) /\ r_abs (r v) = Fin (estimate v)) /\
    avg (map estimate (vectors (List.length l))) = (1 - / INR (List.length l)) * crossover_effect l.
Proof.
  intros A Q.
  assert (R : exists r, forall v, List.length v = List.length l -> analyze_single_metric T argsort arm (t v) true p m None override = Ok (r v) /\ r_abs (r v) = Fin (demeaned_estimate l v)).
  { destruct (crossed_demeaned (repeat true (List.length l)) A Q (repeat_length _ _)) as (r0 & _).
    exists (fun v => match analyze_single_metric T argsort arm (t v) true p m None override with Ok r => r | Err _ => r0 end).
    intros v E. destruct (crossed_demeaned v A Q E) as (r & -> & H). auto. }
  destruct R as (r & R). destruct (crossed_nonempty (repeat true (List.length l)) A (repeat_length _ _)) as [_ NE].
  exists r, (demeaned_estimate l). split; [intros v Hv; apply R; now apply vectors_all in Hv|]. assert (PN := n_pos l NE).
  fold (Av (vectors (List.length l)) (demeaned_estimate l)). rewrite Av_S.
  set (n := INR (List.length l)) in *. set (e := crossover_effect l).
  rewrite (count_mean _ _ (fun k => 4 * (k / n) * (1 - k / n) * e)) by (intros; apply demeaned_mean; exact NE).
  rewrite (Sm_ext _ _ (fun v => (4 / n * e) * INR (treated_in v) + (- 4 / (n * n) * e) * (INR (treated_in v) * INR (treated_in v)))) by (intros; field; lra).
  rewrite Sm_plus, !Sm_scale, vectors_first, vectors_second, vectors_number. fold n. field. repeat split; try lra; apply pow_nonzero; lra.
Qed.

(** With a quantile that is not zero, but too small to trim an item, the period means stay in the values.
    Then the coins give the average effect, but assignments with groups of unequal sizes do not: the
    difference of the periods without treatment shows. *)
Theorem c105_without_demeaning :
  crossed_tables -> B2R (chosen p override) <> 0 -> trim_each (List.length l) (chosen p override) = 0%Z ->
  exists r estimate, (forall v, In v (vectors (List.length l)) ->
    analyze_single_metric T argsort arm (t v) true p m None override = Ok (r v) /\ r_abs (r v) = Fin (estimate v)) /\
    avg (map estimate (vectors (List.length l))) = crossover_effect l /\
    (forall k, (k <= List.length l)%nat -> let f := INR k / INR (List.length l) in
       avg (map estimate (splits (List.length l) k)) =
         f * avg (map effect_one l) + (1 - f) * avg (map effect_two l) + (2 * f - 1) * (avg (map one_control l) - avg (map two_control l))).
Proof.
  intros A Q TZ.
  assert (R : exists r, forall v, List.length v = List.length l -> analyze_single_metric T argsort arm (t v) true p m None override = Ok (r v) /\ r_abs (r v) = Fin (plain_estimate l v)).
  { destruct (crossed_plain (repeat true (List.length l)) A Q TZ (repeat_length _ _)) as (r0 & _).
    exists (fun v => match analyze_single_metric T argsort arm (t v) true p m None override with Ok r => r | Err _ => r0 end).
    intros v E. destruct (crossed_plain v A Q TZ E) as (r & -> & H). auto. }
  destruct R as (r & R). destruct (crossed_nonempty (repeat true (List.length l)) A (repeat_length _ _)) as [_ NE].
  exists r, (plain_estimate l). split; [intros v Hv; apply R; now apply vectors_all in Hv|]. assert (PN := n_pos l NE). split.
  - fold (Av (vectors (List.length l)) (plain_estimate l)). rewrite Av_S.
    set (n := INR (List.length l)) in *. unfold crossover_effect. set (e1 := avg (map effect_one l)). set (e2 := avg (map effect_two l)).
    set (d := avg (map one_control l) - avg (map two_control l)).
    rewrite (count_mean _ _ (fun k => k / n * e1 + (1 - k / n) * e2 + (2 * (k / n) - 1) * d)) by (intros; apply plain_mean; exact NE).
    rewrite (Sm_ext _ _ (fun v => (/ n * (e1 - e2 + 2 * d)) * INR (treated_in v) + (e2 - d))) by (intros; field; lra).
    rewrite Sm_plus, Sm_scale, Sm_const, vectors_first, vectors_number. fold n. field. repeat split; try lra; apply pow_nonzero; lra.
  - intros k HK f. assert (P := N_pos (List.length l) k HK).
    fold (Av (splits (List.length l) k) (plain_estimate l)). rewrite Av_S, plain_mean by exact NE. fold f. field. lra.
Qed.
End Crossed.

(** *** Cases *)
Definition cross_design (q : f64) : params := mkParams 1000 2 "clicks" 0 true f0 f0 q None (flit 5 100) (flit 8 10) None.
Definition cross_row (c : cross R) : (string * Z) * list num := (("i", match x_arm c with Some z => z | None => 2%Z end), [Fin (x_one c); Fin (x_two c)]).
Definition crossed_table (l : list fates) (v : list bool) : table (string * Z) := mkT [("clicks", "test_1"); ("clicks", "test_2")] (map cross_row (crossed v l)).

Lemma crossed_arms v l x : In x (crossed v l) -> x_arm x = Some 0%Z \/ x_arm x = Some 1%Z.
Proof. unfold crossed. intros H. apply in_map_iff in H as ([b y] & <- & _). destruct b; cbn; auto. Qed.

Lemma crossed_case q l : usable (List.length l) q -> crossed_tables arm_of argsort_ref (crossed_table l) (cross_design q) "clicks" l None.
Proof.
  intros U. constructor; auto.
  - exact argsort_ref_sorts.
  - intros v. repeat constructor; cbn; intuition discriminate.
  - intros v _. split; [|split].
    + unfold in_arms, crossed_table. cbn [t_rows]. rewrite !map_map. apply map_ext_in. intros x I. cbn. destruct (crossed_arms v l x I) as [->| ->]; reflexivity.
    + exists 0%nat. split; [reflexivity|]. unfold crossed_table. cbn [t_rows]. induction (crossed v l); constructor; auto; reflexivity.
    + exists 1%nat. split; [reflexivity|]. unfold crossed_table. cbn [t_rows]. induction (crossed v l); constructor; auto; reflexivity.
Qed.

(** two items with effects of four in both periods: on average over the four outcomes of the coins the estimate is two *)
Definition two_fates : list fates := [mkFates 5 1 7 3; mkFates 6 2 6 2].
Theorem c105_coins_are_unbiased_refuted : exists r estimate,
  vectors 2 = [[true; true]; [true; false]; [false; true]; [false; false]] /\
  (forall v, In v (vectors 2) -> analyze_single_metric cauchy argsort_ref arm_of (crossed_table two_fates v) true (cross_design f0) "clicks" None None = Ok (r v) /\
     r_abs (r v) = Fin (estimate v)) /\
  avg (map estimate (vectors 2)) = 2 /\ (forall x, In x two_fates -> effect_one x = 4 /\ effect_two x = 4) /\ crossover_effect two_fates = 4.
Proof.
  assert (U : usable (List.length two_fates) f0) by (apply usable_0; cbn; lia).
  destruct (c105_coins arm_of cauchy argsort_ref (crossed_table two_fates) (cross_design f0) "clicks" two_fates None (crossed_case f0 two_fates U) (proj2 f0_val)) as (r & estimate & H1 & H2).
  assert (E : crossover_effect two_fates = 4) by (unfold crossover_effect, avg, effect_one, effect_two, two_fates; cbn; field).
  change (List.length two_fates) with 2%nat in *. exists r, estimate. split; [reflexivity|]. split; [exact H1|]. split; [rewrite H2, E; cbn; field|]. split; [|exact E].
  intros x I. unfold effect_one, effect_two. repeat (destruct I as [<-|I]; [cbn; split; ring|]). destruct I.
Qed.

(** equal groups, and one of two items treated first *)
Example c105_example_fixed : exists r estimate,
  (forall v, In v (splits 2 1) -> analyze_single_metric cauchy argsort_ref arm_of (crossed_table two_fates v) true (cross_design f0) "clicks" None None = Ok (r v) /\
     r_abs (r v) = Fin (estimate v)) /\ avg (map estimate (splits 2 1)) = 4.
Proof.
  assert (U : usable (List.length two_fates) f0) by (apply usable_0; cbn; lia).
  destruct (c105_groups_of_fixed_size arm_of cauchy argsort_ref (crossed_table two_fates) (cross_design f0) "clicks" two_fates None 1 (crossed_case f0 two_fates U) (proj2 f0_val) ltac:(cbn; lia))
    as (r & estimate & H1 & H2 & _).
  assert (E : crossover_effect two_fates = 4) by (unfold crossover_effect, avg, effect_one, effect_two, two_fates; cbn; field).
  change (List.length two_fates) with 2%nat in *. exists r, estimate. split; [exact H1|]. rewrite H2, E. cbn. field.
Qed.

(** a quantile of a quarter does not trim any of two items *)
Example c105_example_plain : exists r estimate,
  (forall v, In v (vectors 2) -> analyze_single_metric cauchy argsort_ref arm_of (crossed_table two_fates v) true (cross_design (flit 25 100)) "clicks" None None = Ok (r v) /\
     r_abs (r v) = Fin (estimate v)) /\ avg (map estimate (vectors 2)) = 4.
Proof.
  destruct Regular_Props.quarter as [F Q].
  assert (B : B2R (flit 25 100) = 1 / 4).
  { replace (B2R (flit 25 100)) with (SF2R radix2 (B2SF (flit 25 100))) by apply SF2R_B2SF.
    replace (B2SF (flit 25 100)) with (SpecFloat.S754_finite false 4503599627370496 (-54)) by (vm_compute; reflexivity). unfold SF2R, F2R. simpl. lra. }
  assert (U : usable (List.length two_fates) (flit 25 100)) by (split; [cbn; lia|split; [cbn; lia|auto]]).
  assert (TZ : trim_each (List.length two_fates) (flit 25 100) = 0%Z).
  { assert (E : floor_mul (flit 25 100) 2 = Ok 0%Z) by (vm_compute; reflexivity). apply floor_mul_count in E. unfold trim_count in E. rewrite rnd_IZR in E by lia.
    unfold trim_each. change (INR (List.length two_fates)) with (INR 2). replace (INR 2) with (IZR 2) by (simpl; lra). symmetry. exact E. }
  destruct (c105_without_demeaning arm_of cauchy argsort_ref (crossed_table two_fates) (cross_design (flit 25 100)) "clicks" two_fates None (crossed_case _ two_fates U)) as (r & estimate & H1 & H2 & _).
  { cbn [chosen cross_design post]. rewrite B. lra. }
  { exact TZ. }
  assert (E : crossover_effect two_fates = 4) by (unfold crossover_effect, avg, effect_one, effect_two, two_fates; cbn; field).
  change (List.length two_fates) with 2%nat in *. exists r, estimate. split; [exact H1|]. rewrite H2. exact E.
Qed.

Print Assumptions c105_groups_of_fixed_size.
Print Assumptions c105_coins.
Print Assumptions c105_without_demeaning.
Print Assumptions c105_coins_are_unbiased_refuted.
