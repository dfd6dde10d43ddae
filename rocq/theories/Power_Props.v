(** C95: what the minimum detectable effect means for the t-test.  An estimate is the true effect
    plus the standard error times a deviation [z] that follows Student's t distribution; the
    theorems say for which deviations an effect of the size of the minimum detectable effect is
    found significant. *)
From Coq Require Import ZArith Reals Lra Lia List String Bool.
From Flocq Require Import Core BinarySingleNaN.
Require Import Verif.Base Verif.Num Verif.NumOrd Verif.F64 Verif.ListLib
  Verif.Stats_Model Verif.Stats_Num Verif.Stats_Props Verif.Tests_Proofs.
Import ListNotations.
Open Scope string_scope.
Open Scope R_scope.

(** the estimate [x] with standard error [se] is significant *)
Definition detected (T : tdist) (df : num) (se : R) (alternative : string) (alpha x : R) : Prop :=
  exists statistic p, ttest_from_stats T (Fin x) (Fin se) df alternative = Ok (statistic, Fin p) /\ p < alpha.

(** an effect of size [x] in the direction of the alternative *)
Definition towards (alternative : string) (x : R) : R := if alternative =? "less" then - x else x.

Section Power.
Context (T : tdist) (df : num) (V : valid_df df = true) (se : R) (Hs : 0 < se) (alpha : R) (Ha : 0 < alpha < 1).

Lemma detected_iff alternative x : known alternative ->
  let t := td_ppf T df (1 - level alternative alpha) in
  (detected T df se alternative alpha x <->
   if alternative =? "two-sided" then t * se < x \/ x < - (t * se)
   else t * se < towards alternative x).
Proof.
  intros HK t.
  assert (E : exists sp, ttest_from_stats T (Fin x) (Fin se) df alternative = Ok sp).
  { unfold ttest_from_stats. destruct HK as [<-|[<-|[<-|[]]]]; cbn [String.eqb Ascii.eqb Bool.eqb]; eauto. }
  destruct E as ([st p] & E).
  assert (D := proj1 (core_duality T x se df alternative alpha _ HK V Ha Hs E)). cbn [fst snd] in D. fold t in D.
  assert (P : exists r, p = Fin r).
  { unfold ttest_from_stats in E. rewrite ndiv_fin in E by lra.
    destruct HK as [<-|[<-|[<-|[]]]]; cbn [String.eqb Ascii.eqb Bool.eqb nabs nmul] in E; rewrite t_cdf_fin in E by auto;
      cbn [nmul] in E; injection E as _ <-; eauto. }
  destruct P as (r & ->).
  assert (DT : detected T df se alternative alpha x <-> nltb (Fin r) (Fin alpha) = true).
  { rewrite nltb_fin. unfold detected. rewrite E. split; [intros (s' & p' & H & L)|intros L; eauto].
    assert (p' = r) by congruence. now subst. }
  rewrite DT, D. unfold outside0, towards.
  destruct HK as [<-|[<-|[<-|[]]]]; cbn [String.eqb Ascii.eqb Bool.eqb]; rewrite ?nltb_fin.
  - split; (intros [H|H]; [left; lra|right; lra]).
  - split; [intros [H|H]; [lra|discriminate]|left; lra].
  - split; [intros [H|H]; [discriminate|lra]|right; lra].
Qed.
End Power.

Lemma mde_value T df se alternative power alpha mde : known alternative -> valid_df df = true ->
  0 < se -> 0 < power < 1 -> 0 < alpha < 1 ->
  minimum_detectable_effect_from_stats T (Fin se) df alternative power alpha = Ok (Fin mde) ->
  mde = se * (td_ppf T df (1 - level alternative alpha) + td_ppf T df power).
Proof.
  intros HK V Hs Hp Ha H.
  assert (HL : 0 < level alternative alpha < 1) by (unfold level; destruct (alternative =? "two-sided"); lra).
  destruct (c61_minimum_detectable_effect T df se alternative power alpha HK V Hp HL (Rlt_le _ _ Hs)) as (m & E & -> & _).
  congruence.
Qed.

(** an effect of the size of the minimum detectable effect is found unless the deviation is in a
    tail of probability 1 - power *)
Theorem c95_effects_of_this_size_are_detected_with_the_power :
  forall T df se alternative power alpha mde,
    known alternative -> valid_df df = true -> 0 < se -> 0 < power < 1 -> 0 < alpha < 1 ->
    minimum_detectable_effect_from_stats T (Fin se) df alternative power alpha = Ok (Fin mde) ->
    exists low crit, td_cdf T df low = 1 - power /\ td_cdf T df crit = 1 - level alternative alpha /\
      forall z,
        (detected T df se alternative alpha (towards alternative (mde + se * z)) <->
         low < z \/ (alternative = "two-sided" /\ z < low - 2 * crit)).
Proof.
  intros T df se alternative power alpha mde HK V Hs Hp Ha H.
  rewrite (mde_value T df se alternative power alpha mde HK V Hs Hp Ha H).
  assert (HL : 0 < level alternative alpha < 1) by (unfold level; destruct (alternative =? "two-sided"); lra).
  set (t := td_ppf T df (1 - level alternative alpha)). set (w := td_ppf T df power).
  exists (- w), t. split; [unfold w; rewrite td_sym, td_inv by auto; reflexivity|].
  split; [unfold t; apply td_inv; auto; lra|]. intros z.
  rewrite (detected_iff T df V se Hs alpha Ha alternative _ HK). fold t. unfold towards.
  destruct HK as [<-|[<-|[<-|[]]]]; cbn [String.eqb Ascii.eqb Bool.eqb].
  - split.
    + intros [K|K]; [left; nra|right; split; [auto|nra]].
    + intros [K|[_ K]]; [left; nra|right; nra].
  - split; [intros K; left; nra|intros [K|[K _]]; [nra|discriminate]].
  - rewrite Ropp_involutive. split; [intros K; left; nra|intros [K|[K _]]; [nra|discriminate]].
Qed.

(** with a power above one half every estimate that reaches the minimum detectable effect is
    significant; with power one half it is exactly the threshold of significance *)
Theorem c95_estimates_that_reach_it_are_significant :
  forall T df se alternative power alpha mde x,
    known alternative -> valid_df df = true -> 0 < se -> 1 / 2 <= power < 1 -> 0 < alpha < 1 ->
    minimum_detectable_effect_from_stats T (Fin se) df alternative power alpha = Ok (Fin mde) ->
    let size := if alternative =? "two-sided" then Rabs x else towards alternative x in
    (1 / 2 < power -> mde <= size -> detected T df se alternative alpha x) /\
    (power = 1 / 2 -> (detected T df se alternative alpha x <-> mde < size)).
Proof.
  intros T df se alternative power alpha mde x HK V Hs Hp Ha H size.
  rewrite (mde_value T df se alternative power alpha mde HK V Hs ltac:(lra) Ha H).
  rewrite (detected_iff T df V se Hs alpha Ha alternative _ HK). cbv zeta.
  set (t := td_ppf T df (1 - level alternative alpha)). set (w := td_ppf T df power).
  assert (W0 : 1 / 2 < power -> 0 < w) by (intros; unfold w; apply ppf_pos; auto; lra).
  assert (WH : power = 1 / 2 -> w = 0).
  { intros E. unfold w. assert (K := td_inv T df power V ltac:(lra)). rewrite E in *. 
    rewrite <- (cdf_0 T df V) in K at 2.
    destruct (Rtotal_order (td_ppf T df (1 / 2)) 0) as [C|[C|C]]; auto; apply (td_incr T df) in C; auto; lra. }
  unfold size. destruct HK as [<-|[<-|[<-|[]]]]; cbn [String.eqb Ascii.eqb Bool.eqb].
  - assert (T0 : 0 < t) by (unfold t, level; cbn [String.eqb Ascii.eqb Bool.eqb]; apply ppf_pos; auto; lra). split.
    + intros Hw K. specialize (W0 Hw). unfold Rabs in K. destruct (Rcase_abs x); [right|left]; nra.
    + intros E. rewrite (WH E). unfold Rabs. destruct (Rcase_abs x); split; intros K; try (destruct K); try (left; nra); try (right; nra); nra.
  - unfold towards. cbn [String.eqb Ascii.eqb Bool.eqb]. split.
    + intros Hw K. specialize (W0 Hw). nra.
    + intros E. rewrite (WH E). split; intros; nra.
  - unfold towards. cbn [String.eqb Ascii.eqb Bool.eqb]. split.
    + intros Hw K. specialize (W0 Hw). nra.
    + intros E. rewrite (WH E). split; intros; nra.
Qed.

(** the converse does not hold: with a power above one half some significant estimates are smaller
    than the minimum detectable effect *)
Theorem c95_significant_estimates_reach_it_refuted :
  forall T df se alternative power alpha,
    known alternative -> valid_df df = true -> 0 < se -> 1 / 2 < power < 1 -> 0 < alpha < 1 / 2 ->
    exists mde x, minimum_detectable_effect_from_stats T (Fin se) df alternative power alpha = Ok (Fin mde) /\
      detected T df se alternative alpha (towards alternative x) /\ 0 < x < mde.
Proof.
  intros T df se alternative power alpha HK V Hs Hp Ha.
  assert (HL : 0 < level alternative alpha < 1 / 2) by (unfold level; destruct (alternative =? "two-sided"); lra).
  destruct (c61_minimum_detectable_effect T df se alternative power alpha HK V ltac:(lra) ltac:(lra) (Rlt_le _ _ Hs)) as (m & E & EM & _).
  set (t := td_ppf T df (1 - level alternative alpha)) in *. set (w := td_ppf T df power) in *.
  assert (T0 : 0 < t) by (unfold t; apply ppf_pos; auto; lra).
  assert (W0 : 0 < w) by (unfold w; apply ppf_pos; auto; lra).
  exists m, (se * (t + w / 2)). split; [exact E|]. split.
  - rewrite (detected_iff T df V se Hs alpha ltac:(lra) alternative _ HK). fold t. unfold towards.
    destruct HK as [<-|[<-|[<-|[]]]]; cbn [String.eqb Ascii.eqb Bool.eqb]; try left; nra.
  - subst m. nra.
Qed.

(** non-trivial case: power 0.8 at level 0.05 with ten degrees of freedom *)
Example c95_example : forall T, exists mde,
  known "two-sided" /\ valid_df (Fin 10) = true /\ 1 / 2 < 8 / 10 < 1 /\
  minimum_detectable_effect_from_stats T (Fin 3) (Fin 10) "two-sided" (8 / 10) (5 / 100) = Ok (Fin mde) /\ 0 < mde.
Proof.
  intros T. assert (V : valid_df (Fin 10) = true) by (simpl; apply Rlt_bool_true; lra).
  destruct (c61_minimum_detectable_effect T (Fin 10) 3 "two-sided" (8 / 10) (5 / 100)) as (m & E & _ & P & _); auto; try lra.
  { left; reflexivity. }
  { unfold level. cbn [String.eqb Ascii.eqb Bool.eqb]. lra. }
  exists m. split; [left; reflexivity|]. split; [auto|]. split; [lra|]. split; [auto|]. apply P; [lra|].
  unfold level. cbn [String.eqb Ascii.eqb Bool.eqb]. lra.
Qed.

Print Assumptions c95_effects_of_this_size_are_detected_with_the_power.
Print Assumptions c95_estimates_that_reach_it_are_significant.
Print Assumptions c95_significant_estimates_reach_it_refuted.
