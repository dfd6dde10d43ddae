(** C53, C54, C59: symmetries of the t-tests, and when a relative difference is reported. *)
From Coq Require Import ZArith Reals Lra Lia List String Bool Permutation Sorting.Sorted.
From Flocq Require Import Core BinarySingleNaN.
Require Import Verif.Base Verif.Num Verif.NumOrd Verif.F64 Verif.ListLib
  Verif.Trimmed_Model Verif.Trimmed_Spec Verif.Moments Verif.Trimmed_Proofs Verif.Trimmed_Real Verif.Trimmed_Props
  Verif.Cuped_Props Verif.Stats_Model Verif.Stats_Num Verif.Stats_Props Verif.Tests_Proofs Verif.Tests_Props.
Import ListNotations.
Open Scope string_scope.
Open Scope list_scope.
Open Scope R_scope.

(** the alternative seen from the other side *)
Definition flip (alternative : string) : string :=
  if alternative =? "greater" then "less" else if alternative =? "less" then "greater" else alternative.

(** *** C53: swapping the samples *)
Lemma ttest_flip T d se df alternative sp :
  ttest_from_stats T d se df alternative = Ok sp ->
  ttest_from_stats T (nneg d) se df (flip alternative) = Ok (nneg (fst sp), snd sp).
Proof.
  unfold ttest_from_stats, flip. rewrite ndiv_neg_l.
  destruct (String.eqb_spec alternative "two-sided") as [->|N1].
  { cbn [String.eqb Ascii.eqb Bool.eqb]. intros H. rewrite nabs_neg.
    match type of H with Ok ?x = _ => assert (HX : sp = x) by congruence end. now rewrite HX. }
  destruct (String.eqb_spec alternative "greater") as [->|N2].
  { cbn [String.eqb Ascii.eqb Bool.eqb]. intros H. rewrite nmul_neg1 in H.
    match type of H with Ok ?x = _ => assert (HX : sp = x) by congruence end. now rewrite HX. }
  destruct (String.eqb_spec alternative "less") as [->|N3]; [|discriminate].
  cbn [String.eqb Ascii.eqb Bool.eqb]. intros H. rewrite nmul_neg1, nneg_nneg.
  match type of H with Ok ?x = _ => assert (HX : sp = x) by congruence end. now rewrite HX.
Qed.

Lemma ci_flip T m1 m2 e1 e2 corr df alternative alpha ci :
  absolute_difference_confidence_interval T m1 m2 e1 e2 corr df alternative alpha = Ok ci ->
  absolute_difference_confidence_interval T m2 m1 e2 e1 corr df (flip alternative) alpha = Ok (nneg (snd ci), nneg (fst ci)).
Proof.
  unfold absolute_difference_confidence_interval.
  rewrite <- (nsub_swap m1 m2), (nadd_comm (nsq e2) (nsq e1)), (nmul_comm e2 e1).
  set (se := nsqrt _). set (d := nsub m1 m2).
  assert (A : forall x, nsub (nneg d) x = nneg (nadd d x)) by (intros; unfold nsub; now rewrite nneg_nadd).
  assert (B : forall x, nadd (nneg d) x = nneg (nsub d x)) by (intros; unfold nsub; now rewrite nneg_nadd, nneg_nneg).
  unfold flip.
  destruct (String.eqb_spec alternative "two-sided") as [->|N1].
  { cbn [String.eqb Ascii.eqb Bool.eqb]. intros H. rewrite A, B.
    match type of H with Ok ?x = _ => assert (HX : ci = x) by congruence end. now rewrite HX. }
  destruct (String.eqb_spec alternative "greater") as [->|N2].
  { cbn [String.eqb Ascii.eqb Bool.eqb]. intros H. rewrite B.
    match type of H with Ok ?x = _ => assert (HX : ci = x) by congruence end. now rewrite HX. }
  destruct (String.eqb_spec alternative "less") as [->|N3]; [|discriminate].
  cbn [String.eqb Ascii.eqb Bool.eqb]. intros H. rewrite A.
  match type of H with Ok ?x = _ => assert (HX : ci = x) by congruence end. now rewrite HX.
Qed.

(** the results of a test and of the swapped test, apart from the absolute bounds *)
Definition mirrored (r r' : tresult) : Prop :=
  r_abs r' = nneg (r_abs r) /\ r_statistic r' = nneg (r_statistic r) /\ r_p_value r' = r_p_value r /\
  r_significant r' = r_significant r /\ r_standard_error r' = r_standard_error r /\ r_df r' = r_df r /\
  r_sample_size r' = r_sample_size r.
Definition mirrored_bounds (r r' : tresult) : Prop :=
  r_abs_lower r' = nneg (r_abs_upper r) /\ r_abs_upper r' = nneg (r_abs_lower r).

Lemma two_se_swap sd1 sd2 n1 n2 ev : let '(se, e1, e2) := two_sample_standard_errors sd1 sd2 n1 n2 ev in
  two_sample_standard_errors sd2 sd1 n2 n1 ev = (se, e2, e1).
Proof.
  unfold two_sample_standard_errors. destruct ev; cbv beta iota zeta.
  - rewrite (nadd_comm (nmul (nsub n2 (Fin 1)) (nsq sd2))), (nadd_comm n2 n1).
    match goal with |- context [nadd (ndiv ?p n2) (ndiv ?p n1)] => rewrite (nadd_comm (ndiv p n2)) end. reflexivity.
  - rewrite (nadd_comm (ndiv (nsq sd2) n2)). reflexivity.
Qed.
Lemma two_df_swap sd1 sd2 n1 n2 ev : two_sample_degrees_of_freedom sd2 sd1 n2 n1 ev = two_sample_degrees_of_freedom sd1 sd2 n1 n2 ev.
Proof.
  unfold two_sample_degrees_of_freedom. destruct ev.
  - now rewrite (nadd_comm n2 n1).
  - rewrite (nadd_comm (ndiv (nsq sd2) n2)). now rewrite (nadd_comm (ndiv (nsq (ndiv (nsq sd2) n2)) _)).
Qed.

Lemma finish_ind_swap T div m1 m2 v1 v2 n1 n2 ev alternative alpha r r' :
  finish_ind T div m1 m2 v1 v2 n1 n2 ev alternative alpha = Ok r ->
  finish_ind T div m2 m1 v2 v1 n2 n1 ev (flip alternative) alpha = Ok r' ->
  mirrored r r' /\ mirrored_bounds r r'.
Proof.
  intros H H'. apply finish_ind_ok in H as (se & e1 & e2 & ES & F). apply finish_ind_ok in H' as (se' & e1' & e2' & ES' & F').
  assert (SW := two_se_swap (nsqrt v1) (nsqrt v2) (nnat n1) (nnat n2) ev). rewrite ES in SW. rewrite SW in ES'.
  assert (se' = se) by congruence. assert (e1' = e2) by congruence. assert (e2' = e1) by congruence. subst. clear SW ES ES'.
  rewrite two_df_swap in F'. destruct F, F'.
  apply ttest_flip in fi_test. rewrite nsub_swap in fi_test. cbn [fst snd] in fi_test.
  apply ci_flip in fi_ci. cbn [fst snd] in fi_ci.
  assert (S1 : r_statistic r' = nneg (r_statistic r)) by congruence. assert (P1 : r_p_value r' = r_p_value r) by congruence.
  split; [|split; congruence].
  split; [now rewrite fi_abs, fi_abs0, nsub_swap|]. split; auto. split; auto.
  split; [rewrite fi_sig, fi_sig0; congruence|]. split; [congruence|]. split; [congruence|]. rewrite fi_n, fi_n0. lia.
Qed.

(** any two samples, with infinite and NaN values too *)
Theorem c53_swapping_independent_samples :
  forall T argsort values1 values2 q denom1 denom2 equal_var alternative alpha r r',
    yuens_t_test_ind T argsort values1 values2 q denom1 denom2 equal_var alternative alpha = Ok r ->
    yuens_t_test_ind T argsort values2 values1 q denom2 denom1 equal_var (flip alternative) alpha = Ok r' ->
    mirrored r r' /\ mirrored_bounds r r'.
Proof.
  intros T argsort v1 v2 q d1 d2 ev alternative alpha r r' H H'.
  unfold yuens_t_test_ind in *. destruct d1 as [d1|], d2 as [d2|]; cbn [ratio_arguments bind] in *; try discriminate.
  - apply bind_ok in H as (s1 & A1 & H). apply bind_ok in H as (s2 & A2 & H).
    apply bind_ok in H as (t1 & B1 & H). apply bind_ok in H as (t2 & B2 & H).
    rewrite A1, A2 in H'. cbn [bind] in H'. rewrite B1, B2 in H'. cbn [bind] in H'.
    eapply finish_ind_swap; eauto.
  - apply bind_ok in H as (t1 & B1 & H). apply bind_ok in H as (t2 & B2 & H).
    rewrite B1, B2 in H'. cbn [bind] in H'. eapply finish_ind_swap; eauto.
Qed.

(** *** order statistics of the negated and scaled sample *)
Lemma SSorted_snoc (l : list R) x : StronglySorted Rle l -> Forall (fun y => y <= x) l -> StronglySorted Rle (l ++ [x]).
Proof.
  intros SS F. induction SS as [|a l SS IH FA]; simpl; [repeat constructor|].
  inversion F; subst. constructor; [auto|]. apply Forall_app. split; auto.
Qed.
Lemma sorted_as_opp xs s : sorted_as xs s -> sorted_as (map Ropp xs) (rev (map Ropp s)).
Proof.
  intros [P SS]. split.
  - rewrite <- Permutation_rev. now apply Permutation_map.
  - clear P. induction SS as [|a s SS IH F]; simpl; [constructor|].
    apply SSorted_snoc; auto. apply Forall_forall. intros x Hx. apply in_rev in Hx. apply in_map_iff in Hx as (y & <- & Hy).
    rewrite Forall_forall in F. apply F in Hy. lra.
Qed.
Lemma sorted_nth s i j : StronglySorted Rle s -> (i <= j < List.length s)%nat -> nth i s 0 <= nth j s 0.
Proof.
  intros SS. revert i j. induction SS as [|a s SS IH F]; intros i j H; simpl in H; [lia|].
  destruct i as [|i], j as [|j]; cbn [nth]; try lra; try lia.
  - rewrite Forall_forall in F. apply F, nth_In. lia.
  - apply IH. lia.
Qed.
Lemma clip_opp lo hi x : lo <= hi -> clip (- hi) (- lo) (- x) = - clip lo hi x.
Proof. intros H. unfold clip, Rmax, Rmin. destruct (Rle_dec (- lo) (- x)), (Rle_dec hi x); try lra; repeat match goal with |- context [Rle_dec ?u ?v] => destruct (Rle_dec u v) end; lra. Qed.
Lemma clip_scale c lo hi x : 0 < c -> clip (c * lo) (c * hi) (c * x) = c * clip lo hi x.
Proof.
  intros H. assert (M : Rmin (c * hi) (c * x) = c * Rmin hi x).
  { unfold Rmin. destruct (Rle_dec hi x), (Rle_dec (c * hi) (c * x)); auto; nra. }
  unfold clip. rewrite M. now rewrite RmaxRmult by lra.
Qed.
Lemma nth_map0 f (l : list R) i : f 0 = 0 -> nth i (map f l) 0 = f (nth i l 0).
Proof. intros H. rewrite <- H at 1. apply map_nth. Qed.

Lemma middle_nonempty k (s : list R) : (2 * k < List.length s)%nat -> middle k s <> [].
Proof. intros H E. assert (L := middle_length k s). rewrite E in L. simpl in L. lia. Qed.

Lemma opp_moments xs s k : sorted_as xs s -> (2 * k < List.length xs)%nat ->
  tmean k (rev (map Ropp s)) = - tmean k s /\ tdev k (map Ropp xs) (rev (map Ropp s)) = tdev k xs s.
Proof.
  intros [P SS] H. assert (L := Permutation_length P). split.
  - unfold tmean. rewrite middle_rev by (rewrite map_length; lia). rewrite middle_map.
    transitivity (avg (map Ropp (middle k s))); [apply avg_perm; symmetry; apply Permutation_rev|].
    transitivity (avg (map (fun x => -1 * x + 0) (middle k s))); [f_equal; apply map_ext; intros; ring|].
    rewrite avg_affine by (apply middle_nonempty; lia). ring.
  - unfold tdev. rewrite map_length, !rev_nth, !map_length by (rewrite map_length; lia).
    replace (List.length s - S k)%nat with (List.length xs - 1 - k)%nat by lia.
    replace (List.length s - S (List.length xs - 1 - k))%nat with k by lia.
    rewrite !nth_map0 by ring. rewrite map_map.
    set (lo := nth k s 0). set (hi := nth (List.length xs - 1 - k) s 0).
    assert (LH : lo <= hi) by (apply sorted_nth; auto; lia).
    transitivity (sqdev (map (fun x => -1 * x + 0) (map (clip lo hi) xs))).
    + f_equal. rewrite map_map. apply map_ext. intros x. rewrite clip_opp by auto. ring.
    + rewrite sqdev_affine; [ring|]. intros E. apply map_eq_nil in E. subst. simpl in H. lia.
Qed.

Definition rescaled (c : R) (xs : list R) : list R := map (Rmult c) xs.
Lemma sorted_as_scale c xs s : 0 < c -> sorted_as xs s -> sorted_as (rescaled c xs) (rescaled c s).
Proof.
  intros Hc [P SS]. split; [now apply Permutation_map|]. clear P.
  induction SS as [|a l SS IH F]; simpl; constructor; auto.
  apply Forall_map. eapply Forall_impl; [|exact F]. simpl. intros; nra.
Qed.
Lemma scale_moments c xs s k : 0 < c -> sorted_as xs s -> (2 * k < List.length xs)%nat ->
  tmean k (rescaled c s) = c * tmean k s /\ tdev k (rescaled c xs) (rescaled c s) = c * c * tdev k xs s.
Proof.
  intros Hc [P SS] H. assert (L := Permutation_length P). unfold rescaled. split.
  - unfold tmean. rewrite middle_map.
    transitivity (avg (map (fun x => c * x + 0) (middle k s))); [f_equal; apply map_ext; intros; ring|].
    rewrite avg_affine by (apply middle_nonempty; lia). ring.
  - unfold tdev. rewrite map_length, !nth_map0 by ring. rewrite map_map.
    set (lo := nth k s 0). set (hi := nth (List.length xs - 1 - k) s 0).
    transitivity (sqdev (map (fun x => c * x + 0) (map (clip lo hi) xs))).
    + f_equal. rewrite map_map. apply map_ext. intros x. rewrite clip_scale by auto. ring.
    + rewrite sqdev_affine; [ring|]. intros E. apply map_eq_nil in E. subst. simpl in H. lia.
Qed.

Lemma minus_swap xs ys : minus ys xs = map Ropp (minus xs ys).
Proof.
  unfold minus. revert ys. induction xs as [|x xs IH]; intros [|y ys]; simpl; auto. rewrite IH. f_equal. ring.
Qed.
Lemma minus_scale c xs ys : minus (rescaled c xs) (rescaled c ys) = rescaled c (minus xs ys).
Proof.
  unfold minus, rescaled. revert ys. induction xs as [|x xs IH]; intros [|y ys]; simpl; auto. rewrite IH. f_equal. ring.
Qed.

(** the parts of the plain paired test that depend on the differences only *)
Lemma paired_key T argsort xs ys q alternative alpha r sd :
  sorts argsort -> sample xs -> sorted_as (minus xs ys) sd ->
  yuens_t_test_paired T argsort (data xs) (data ys) q None None alternative alpha = Ok r ->
  List.length xs = List.length ys /\
  exists k, Z.of_nat k = trim_each (List.length xs) q /\ (2 * k < List.length xs)%nat /\
    let h := (List.length xs - 2 * k)%nat in
    let se := one_sample_standard_error (nsqrt (ndiv (Fin (tdev k (minus xs ys) sd)) (Fin (IZR (Z.of_nat h - 1))))) (nnat h) in
    r_abs r = Fin (tmean k sd) /\ r_standard_error r = se /\ r_df r = one_sample_degrees_of_freedom (nnat h) /\ r_sample_size r = h /\
    ttest_from_stats T (Fin (tmean k sd)) se (r_df r) alternative = Ok (r_statistic r, r_p_value r) /\
    r_significant r = nltb (r_p_value r) (Fin alpha).
Proof.
  intros HS Sx Sd H.
  destruct (paired_plain argsort HS T xs ys q alternative alpha r Sx H) as (L & t & Ht & FT & EM & _ & F).
  split; auto. exists (t_k t). set (rows := [minus xs ys; xs; ys]) in *.
  assert (A : array (List.length xs) (fins rows)).
  { apply sample_array; auto; [|discriminate]. intros x [<-|[<-|[<-|[]]]]; auto. now apply minus_length. }
  destruct (c43_trims_floor_of_quantile_times_n argsort _ q _ t HS A Ht) as (E & E2 & _). split; [exact E|]. split; [exact E2|].
  assert (LN := len_real argsort HS t rows _ _ FT).
  destruct (first_row argsort HS t rows _ sd FT Sd) as [F1 F2]. cbn [hd rows] in F1, F2. intros h. fold h in LN.
  destruct F. rewrite LN in *. rewrite <- EM, F1 in *. rewrite F2 in fi_se, fi_test. intros se. fold se in fi_se, fi_test.
  rewrite fi_df. auto 10.
Qed.

Theorem c53_swapping_paired_samples :
  forall T argsort xs ys q alternative alpha r r',
    sorts argsort -> sample xs -> sample ys ->
    yuens_t_test_paired T argsort (data xs) (data ys) q None None alternative alpha = Ok r ->
    yuens_t_test_paired T argsort (data ys) (data xs) q None None (flip alternative) alpha = Ok r' ->
    mirrored r r' /\
    (0 < alpha < 1 -> (exists s, r_standard_error r = Fin s) ->
     r_abs_lower r <> NaN -> r_abs_upper r <> NaN -> r_abs_lower r' <> NaN -> r_abs_upper r' <> NaN ->
     mirrored_bounds r r').
Proof.
  intros T argsort xs ys q alternative alpha r r' HS Sx Sy H H'.
  destruct (sorted_real (minus xs ys)) as (sd & P & SS). assert (Sd : sorted_as (minus xs ys) sd) by (split; auto).
  assert (Sd' : sorted_as (minus ys xs) (rev (map Ropp sd))) by (rewrite minus_swap; now apply sorted_as_opp).
  destruct (paired_key T argsort xs ys q alternative alpha r sd HS Sx Sd H) as (L & k & K & K2 & A1 & A2 & A3 & A4 & A5 & A6).
  destruct (paired_key T argsort ys xs q (flip alternative) alpha r' _ HS Sy Sd' H') as (_ & k' & K' & _ & B1 & B2 & B3 & B4 & B5 & B6).
  rewrite <- L in K', B2, B3, B4, B5. assert (k' = k) by lia. subst k'. clear K'.
  rewrite minus_swap in B2, B5.
  assert (LM : List.length (minus xs ys) = List.length xs) by (now apply minus_length).
  destruct (opp_moments (minus xs ys) sd k Sd ltac:(lia)) as [E1 E2]. rewrite E1 in B1, B5. rewrite E2 in B2, B5. clear E1 E2.
  assert (ED : r_df r' = r_df r) by congruence. rewrite ED in B5.
  assert (KN : known alternative) by (eapply ttest_known; exact A5).
  apply ttest_flip in A5. cbn [nneg fst snd] in A5.
  assert (S1 : r_statistic r' = nneg (r_statistic r)) by congruence. assert (P1 : r_p_value r' = r_p_value r) by congruence.
  assert (M : mirrored r r').
  { split; [rewrite A1, B1; reflexivity|]. split; auto. split; auto. split; [congruence|]. split; [congruence|]. split; congruence. }
  split; auto. intros Ha (s & ES) N1 N2 N3 N4.
  assert (ES' : r_standard_error r' = Fin s) by congruence.
  destruct (c52_significant_iff_interval_excludes_zero T argsort xs ys None None q alternative alpha r s HS Sx H ES Ha N1 N2) as [(d & s1 & D1 & D2 & D3 & D4) _].
  destruct (c52_significant_iff_interval_excludes_zero T argsort ys xs None None q _ alpha r' s HS Sy H' ES' Ha N3 N4) as [(d' & s2 & D1' & D2' & D3' & D4') _].
  assert (s1 = s) by congruence. assert (s2 = s) by congruence. subst s1 s2.
  assert (d' = - d). { destruct M as (M & _). rewrite D1, D1' in M. cbn [nneg] in M. congruence. } subst d'.
  unfold mirrored_bounds. rewrite D3, D4, D3', D4', ED. unfold flip, level.
  destruct (known_cases _ KN) as [-> | [-> | ->]]; cbn [String.eqb Ascii.eqb Bool.eqb nneg]; split; auto; f_equal; ring.
Qed.

(** *** C54: changing the unit *)
Definition in_unit (c : R) (r r' : tresult) : Prop :=
  r_abs r' = nscale c (r_abs r) /\ r_standard_error r' = nscale c (r_standard_error r) /\
  r_statistic r' = r_statistic r /\ r_p_value r' = r_p_value r /\ r_significant r' = r_significant r /\
  r_df r' = r_df r /\ r_sample_size r' = r_sample_size r.
Definition bounds_in_unit (c : R) (r r' : tresult) : Prop :=
  r_abs_lower r' = nscale c (r_abs_lower r) /\ r_abs_upper r' = nscale c (r_abs_upper r).

Section Unit.
Context (c : R) (Hc : 0 < c).

Lemma ttest_scale T d se df alternative :
  ttest_from_stats T (nscale c d) (nscale c se) df alternative = ttest_from_stats T d se df alternative.
Proof. unfold ttest_from_stats. now rewrite ndiv_nscale. Qed.

Lemma ci_scale T m1 m2 e1 e2 corr df alternative alpha ci :
  absolute_difference_confidence_interval T m1 m2 e1 e2 corr df alternative alpha = Ok ci ->
  absolute_difference_confidence_interval T (nscale c m1) (nscale c m2) (nscale c e1) (nscale c e2) corr df alternative alpha
    = Ok (nscale c (fst ci), nscale c (snd ci)).
Proof.
  assert (C2 : 0 < c * c) by nra.
  unfold absolute_difference_confidence_interval, nsq. rewrite !nscale_prod by auto.
  rewrite <- (nscale_nmul_l (c * c) C2), <- (nscale_nmul_r (c * c) C2), <- (nscale_nadd (c * c) C2), <- (nscale_nsub (c * c) C2), (nsqrt_nscale c Hc), <- (nscale_nsub c Hc).
  set (se := nsqrt _). set (d := nsub m1 m2).
  destruct (alternative =? "two-sided"); [|destruct (alternative =? "greater"); [|destruct (alternative =? "less"); [|discriminate]]];
    intros H; match type of H with Ok ?x = _ => assert (HX : ci = x) by congruence end; rewrite HX; cbn [fst snd];
    rewrite ?nscale_nsub, ?nscale_nadd, ?(nscale_nmul_r c Hc) by auto; rewrite ?(proj1 (nscale_inf c Hc)), ?(proj2 (nscale_inf c Hc)); reflexivity.
Qed.

Lemma two_se_scale sd1 sd2 n1 n2 ev : let '(se, e1, e2) := two_sample_standard_errors sd1 sd2 n1 n2 ev in
  two_sample_standard_errors (nscale c sd1) (nscale c sd2) n1 n2 ev = (nscale c se, nscale c e1, nscale c e2).
Proof.
  assert (C2 : 0 < c * c) by nra.
  unfold two_sample_standard_errors, nsq. destruct ev; cbv beta iota zeta; rewrite !nscale_sq by auto.
  - rewrite <- !(nscale_nmul_r (c * c) C2), <- nscale_nadd, <- !(nscale_ndiv_l (c * c) C2), <- nscale_nadd, !nsqrt_nscale by auto. reflexivity.
  - rewrite <- !(nscale_ndiv_l (c * c) C2), <- nscale_nadd, !nsqrt_nscale by auto. reflexivity.
Qed.
Lemma two_df_scale sd1 sd2 n1 n2 ev :
  two_sample_degrees_of_freedom (nscale c sd1) (nscale c sd2) n1 n2 ev = two_sample_degrees_of_freedom sd1 sd2 n1 n2 ev.
Proof.
  assert (C2 : 0 < c * c) by nra. assert (C4 : 0 < c * c * (c * c)) by nra.
  unfold two_sample_degrees_of_freedom, nsq. destruct ev; auto. rewrite !nscale_sq by auto.
  rewrite <- !(nscale_ndiv_l (c * c) C2), <- (nscale_nadd (c * c) C2), !nscale_sq by auto.
  set (a := ndiv (nmul sd1 sd1) n1). set (b := ndiv (nmul sd2 sd2) n2).
  rewrite <- (nscale_ndiv_l _ C4 (nmul a a)), <- (nscale_ndiv_l _ C4 (nmul b b)), <- (nscale_nadd _ C4), (ndiv_nscale _ C4). reflexivity.
Qed.

Lemma finish_ind_scale T m1 m2 v1 v2 n1 n2 ev alternative alpha r :
  finish_ind T py_div m1 m2 v1 v2 n1 n2 ev alternative alpha = Ok r ->
  exists r', finish_ind T py_div (nscale c m1) (nscale c m2) (nscale (c * c) v1) (nscale (c * c) v2) n1 n2 ev alternative alpha = Ok r' /\
    in_unit c r r' /\ bounds_in_unit c r r' /\ r_rel r' = r_rel r.
Proof.
  intros H. apply finish_ind_ok in H as (se & e1 & e2 & ES & F).
  assert (SW := two_se_scale (nsqrt v1) (nsqrt v2) (nnat n1) (nnat n2) ev). rewrite ES in SW.
  assert (Z : neqb (nscale c m2) (Fin 0) = neqb m2 (Fin 0)) by (rewrite <- (nscale_0 c) at 1; now apply neqb_nscale).
  assert (L1 : nleb (Fin 0) (nscale c m1) = nleb (Fin 0) m1) by (rewrite <- (nscale_0 c) at 1; now apply nleb_nscale).
  assert (L2 : nleb (Fin 0) (nscale c m2) = nleb (Fin 0) m2) by (rewrite <- (nscale_0 c) at 1; now apply nleb_nscale).
  assert (PD : py_div (nscale c m1) (nscale c m2) = py_div m1 m2) by (unfold py_div; now rewrite Z, ndiv_nscale).
  assert (G : exists r', finish_ind T py_div (nscale c m1) (nscale c m2) (nscale (c * c) v1) (nscale (c * c) v2) n1 n2 ev alternative alpha = Ok r').
  { unfold finish_ind. destruct (two_sample_standard_errors (nsqrt (nscale (c * c) v1)) (nsqrt (nscale (c * c) v2)) (nnat n1) (nnat n2) ev) as [[a b] d].
    apply finish_test_total; [apply (fi_known _ _ _ _ _ _ _ _ _ _ _ _ _ _ F)|].
    rewrite L1, L2, PD. intros E1 E2. assert (R := fi_rel _ _ _ _ _ _ _ _ _ _ _ _ _ _ F). rewrite E1, E2 in R. destruct R as (x & _ & _ & R & _). eauto. }
  destruct G as (r' & H'). exists r'. split; auto.
  apply finish_ind_ok in H' as (se' & e1' & e2' & ES' & F'). rewrite !nsqrt_nscale in ES', F' by auto. rewrite SW in ES'.
  assert (se' = nscale c se) by congruence. assert (e1' = nscale c e1) by congruence. assert (e2' = nscale c e2) by congruence. subst. clear SW ES ES'.
  rewrite two_df_scale in F'. rewrite <- nscale_nsub in F' by auto. destruct F, F'.
  rewrite ttest_scale in fi_test0. apply ci_scale in fi_ci. cbn [fst snd] in fi_ci.
  assert (S1 : r_statistic r' = r_statistic r) by congruence. assert (P1 : r_p_value r' = r_p_value r) by congruence.
  split; [|split; [split; congruence|]].
  - split; [now rewrite fi_abs, fi_abs0|]. split; [now rewrite fi_se, fi_se0|]. split; auto. split; auto.
    split; [rewrite fi_sig, fi_sig0; congruence|]. split; [congruence|]. now rewrite fi_n, fi_n0.
  - rewrite L1, L2 in fi_rel0. destruct (nleb (Fin 0) m1 && nleb (Fin 0) m2)%bool.
    + destruct fi_rel as (x & _ & _ & X1 & _ & X2 & _). destruct fi_rel0 as (y & _ & _ & Y1 & _ & Y2 & _). rewrite PD in Y1. congruence.
    + destruct fi_rel as (X & _). destruct fi_rel0 as (Y & _). congruence.
Qed.
End Unit.

Lemma one_sample_moments argsort xs s q t : sorts argsort -> sample xs -> sorted_as xs s ->
  mk_trimmed argsort [data xs] q = Ok t ->
  Z.of_nat (t_k t) = trim_each (List.length xs) q /\ (2 * t_k t < List.length xs)%nat /\
  vec (t_mean argsort t) 0 = Fin (tmean (t_k t) s) /\ t_len argsort t = (List.length xs - 2 * t_k t)%nat /\
  vec (t_var argsort t 1) 0 = ndiv (Fin (tdev (t_k t) xs s)) (Fin (IZR (Z.of_nat (List.length xs - 2 * t_k t) - 1))).
Proof.
  intros HS Sx Px Ht.
  assert (A : array (List.length xs) (fins [xs])) by (apply sample_array; auto; [intros r0 [<-|[]]; auto|discriminate]).
  assert (FT : finite_trimmed t [xs] (List.length xs) (t_k t)).
  { eapply (rows_finite argsort HS q); eauto; [|discriminate]. intros r0 [<-|[]]; auto. }
  destruct (c43_trims_floor_of_quantile_times_n argsort _ q _ t HS A Ht) as (E & E2 & _). split; [exact E|]. split; [exact E2|].
  assert (FR := first_row argsort HS t [xs] _ s FT Px). cbn [hd] in FR. destruct FR as [F1 F2].
  assert (LN := len_real argsort HS t [xs] _ (t_k t) FT).
  rewrite (mean_entry argsort HS t [xs] _ 0 xs FT eq_refl), (var_entry argsort HS t [xs] _ 0 xs FT eq_refl), F1, F2, LN. auto.
Qed.

Lemma sample_rescaled c xs : sample xs -> sample (rescaled c xs).
Proof. intros [A B]. unfold sample, rescaled. rewrite map_length. split; auto. intros E. apply map_eq_nil in E. auto. Qed.

Lemma scaled_trimmed argsort c xs s q t : 0 < c -> sorts argsort -> sample xs -> sorted_as xs s -> mk_trimmed argsort [data xs] q = Ok t ->
  exists t', mk_trimmed argsort [data (rescaled c xs)] q = Ok t' /\
    vec (t_mean argsort t') 0 = nscale c (vec (t_mean argsort t) 0) /\
    vec (t_var argsort t' 1) 0 = nscale (c * c) (vec (t_var argsort t 1) 0) /\ t_len argsort t' = t_len argsort t.
Proof.
  intros Hc HS Sx Px Ht.
  assert (A : array (List.length xs) [data xs]).
  { apply (sample_array xs [xs]); auto; [intros r0 [<-|[]]; auto|discriminate]. }
  assert (A' : array (List.length xs) [data (rescaled c xs)]).
  { destruct A as (_ & _ & A3 & A4). split; [discriminate|]. split; auto. intros r0 [<-|[]]. unfold data, rescaled. now rewrite !map_length. }
  assert (Q : is_finite q = true /\ 0 <= B2R q < 1 / 2) by (apply (c43_accepts_exactly_quantiles_below_half argsort _ q _ HS A); eauto).
  apply (c43_accepts_exactly_quantiles_below_half argsort _ q _ HS A') in Q as (t' & Ht').
  exists t'. split; auto.
  destruct (one_sample_moments argsort xs s q t HS Sx Px Ht) as (K & K2 & M & L & V).
  destruct (one_sample_moments argsort _ _ q t' HS (sample_rescaled c xs Sx) (sorted_as_scale c xs s Hc Px) Ht') as (K' & _ & M' & L' & V').
  unfold rescaled at 1 in K'. rewrite map_length in K'. assert (EK : t_k t' = t_k t) by lia. rewrite EK in *.
  destruct (scale_moments c xs s (t_k t) Hc Px K2) as [E1 E2]. rewrite E1 in M'. rewrite E2 in V'.
  assert (LR : List.length (rescaled c xs) = List.length xs) by (unfold rescaled; apply map_length). rewrite LR in *.
  split; [now rewrite M, M'|]. split; [|congruence].
  rewrite V, V', (nscale_ndiv_l (c * c)) by nra. reflexivity.
Qed.

Theorem c54_changing_the_unit :
  forall T argsort xs ys c q equal_var alternative alpha r,
    sorts argsort -> sample xs -> sample ys -> 0 < c ->
    yuens_t_test_ind T argsort (data xs) (data ys) q None None equal_var alternative alpha = Ok r ->
    exists r', yuens_t_test_ind T argsort (data (rescaled c xs)) (data (rescaled c ys)) q None None equal_var alternative alpha = Ok r' /\
      in_unit c r r' /\ bounds_in_unit c r r' /\ r_rel r' = r_rel r.
Proof.
  intros T argsort xs ys c q ev alternative alpha r HS Sx Sy Hc H.
  destruct (sorted_real xs) as (sx & Px & SSx). destruct (sorted_real ys) as (sy & Py & SSy).
  unfold yuens_t_test_ind in *. cbn [ratio_arguments bind] in *.
  apply bind_ok in H as (t1 & B1 & H). apply bind_ok in H as (t2 & B2 & H).
  destruct (scaled_trimmed argsort c xs sx q t1 Hc HS Sx (conj Px SSx) B1) as (t1' & -> & M1 & V1 & L1).
  destruct (scaled_trimmed argsort c ys sy q t2 Hc HS Sy (conj Py SSy) B2) as (t2' & -> & M2 & V2 & L2).
  cbn [bind]. rewrite M1, M2, V1, V2, L1, L2. now apply finish_ind_scale.
Qed.

Theorem c54_changing_the_unit_paired :
  forall T argsort xs ys c q alternative alpha r r',
    sorts argsort -> sample xs -> 0 < c ->
    yuens_t_test_paired T argsort (data xs) (data ys) q None None alternative alpha = Ok r ->
    yuens_t_test_paired T argsort (data (rescaled c xs)) (data (rescaled c ys)) q None None alternative alpha = Ok r' ->
    in_unit c r r' /\
    (0 < alpha < 1 -> (exists s, r_standard_error r = Fin s) ->
     r_abs_lower r <> NaN -> r_abs_upper r <> NaN -> r_abs_lower r' <> NaN -> r_abs_upper r' <> NaN ->
     bounds_in_unit c r r').
Proof.
  intros T argsort xs ys c q alternative alpha r r' HS Sx Hc H H'.
  destruct (sorted_real (minus xs ys)) as (sd & P & SS). assert (Sd : sorted_as (minus xs ys) sd) by (split; auto).
  assert (Sd' : sorted_as (minus (rescaled c xs) (rescaled c ys)) (rescaled c sd)) by (rewrite minus_scale; now apply sorted_as_scale).
  assert (Sx' := sample_rescaled c xs Sx).
  destruct (paired_key T argsort xs ys q alternative alpha r sd HS Sx Sd H) as (L & k & K & K2 & A1 & A2 & A3 & A4 & A5 & A6).
  destruct (paired_key T argsort _ _ q alternative alpha r' _ HS Sx' Sd' H') as (_ & k' & K' & _ & B1 & B2 & B3 & B4 & B5 & B6).
  assert (LR : List.length (rescaled c xs) = List.length xs) by (unfold rescaled; apply map_length). rewrite LR in K', B2, B3, B4, B5.
  assert (k' = k) by lia. subst k'. clear K'. rewrite minus_scale in B2, B5.
  assert (LM : List.length (minus xs ys) = List.length xs) by (now apply minus_length).
  destruct (scale_moments c (minus xs ys) sd k Hc Sd ltac:(lia)) as [E1 E2]. rewrite E1 in B1, B5. rewrite E2 in B2, B5. clear E1 E2.
  assert (ED : r_df r' = r_df r) by congruence. rewrite ED in B5.
  assert (C2 : 0 < c * c) by nra.
  set (h := (List.length xs - 2 * k)%nat) in *.
  set (se := one_sample_standard_error (nsqrt (ndiv (Fin (tdev k (minus xs ys) sd)) (Fin (IZR (Z.of_nat h - 1))))) (nnat h)) in *.
  assert (SE : one_sample_standard_error (nsqrt (ndiv (Fin (c * c * tdev k (minus xs ys) sd)) (Fin (IZR (Z.of_nat h - 1))))) (nnat h) = nscale c se).
  { unfold se, one_sample_standard_error. rewrite (nscale_ndiv_l c Hc), <- nsqrt_nscale, (nscale_ndiv_l (c * c) C2) by auto. reflexivity. }
  rewrite SE in B2, B5. rewrite <- nscale_fin in B1, B5. rewrite ttest_scale in B5 by auto.
  assert (S1 : r_statistic r' = r_statistic r) by congruence. assert (P1 : r_p_value r' = r_p_value r) by congruence.
  assert (KN : known alternative) by (eapply ttest_known; exact A5).
  assert (M : in_unit c r r').
  { split; [now rewrite A1, B1|]. split; [now rewrite A2, B2|]. split; auto. split; auto. split; [congruence|]. split; congruence. }
  split; auto. intros Ha (s & ES) N1 N2 N3 N4.
  assert (ES' : r_standard_error r' = Fin (c * s)) by (rewrite B2, <- A2, ES; reflexivity).
  destruct (c52_significant_iff_interval_excludes_zero T argsort xs ys None None q alternative alpha r s HS Sx H ES Ha N1 N2) as [(d & s1 & D1 & D2 & D3 & D4) _].
  destruct (c52_significant_iff_interval_excludes_zero T argsort _ _ None None q _ alpha r' (c * s) HS Sx' H' ES' Ha N3 N4) as [(d' & s2 & D1' & D2' & D3' & D4') _].
  assert (s1 = s) by congruence. assert (s2 = c * s) by congruence. subst s1 s2.
  assert (d' = c * d). { destruct M as (M & _). rewrite D1, D1' in M. rewrite nscale_fin in M. congruence. } subst d'.
  unfold bounds_in_unit. rewrite D3, D4, D3', D4', ED.
  destruct (known_cases _ KN) as [-> | [-> | ->]]; cbn [String.eqb Ascii.eqb Bool.eqb];
    rewrite ?nscale_fin, ?(proj1 (nscale_inf c Hc)), ?(proj2 (nscale_inf c Hc)); split; auto; f_equal; ring.
Qed.

(** *** C59: when a relative difference is reported *)

Theorem c59_relative_difference_independent :
  forall T argsort xs ys q equal_var alternative alpha sx sy,
    sorts argsort -> usable (List.length xs) q -> usable (List.length ys) q -> sorted_as xs sx -> sorted_as ys sy ->
    known alternative ->
    let m1 := tmean (Z.to_nat (trim_each (List.length xs) q)) sx in
    let m2 := tmean (Z.to_nat (trim_each (List.length ys) q)) sy in
    let result := yuens_t_test_ind T argsort (data xs) (data ys) q None None equal_var alternative alpha in
    (0 <= m1 -> m2 = 0 -> result = Err (ZeroDivisionError "float division by zero")) /\
    (0 <= m1 -> 0 < m2 -> exists r lower upper, result = Ok r /\ r_rel r = Some (Fin (m1 / m2 - 1)) /\
       r_rel_lower r = Some lower /\ r_rel_upper r = Some upper) /\
    (m1 < 0 \/ m2 < 0 -> exists r, result = Ok r /\ r_rel r = None /\ r_rel_lower r = None /\ r_rel_upper r = None).
Proof.
  intros T argsort xs ys q ev alternative alpha sx sy HS U1 U2 Px Py HK m1 m2 result.
  assert (SU : forall zs, usable (List.length zs) q -> sample zs).
  { intros zs (A & B & _). split; auto. destruct zs; simpl in *; [lia|discriminate]. }
  assert (LL : forall zs, usable (List.length zs) q -> exists t, mk_trimmed argsort [data zs] q = Ok t).
  { intros zs U. destruct (mk_trimmed_usable argsort [data zs] q (List.length zs) HS U) as (t & -> & _); eauto; [discriminate|].
    intros r [<-|[]]. unfold data. now rewrite map_length. }
  destruct (LL xs U1) as (t1 & E1). destruct (LL ys U2) as (t2 & E2).
  destruct (one_sample_moments argsort xs sx q t1 HS (SU _ U1) Px E1) as (K1 & _ & M1 & L1 & V1).
  destruct (one_sample_moments argsort ys sy q t2 HS (SU _ U2) Py E2) as (K2 & _ & M2 & L2 & V2).
  assert (T1 : t_k t1 = Z.to_nat (trim_each (List.length xs) q)) by lia.
  assert (T2 : t_k t2 = Z.to_nat (trim_each (List.length ys) q)) by lia.
  rewrite T1 in M1. rewrite T2 in M2. fold m1 in M1. fold m2 in M2.
  unfold result, yuens_t_test_ind. cbn [ratio_arguments bind]. rewrite E1, E2. cbn [bind]. rewrite M1, M2.
  match goal with |- context [finish_ind T py_div (Fin m1) (Fin m2) ?v1 ?v2 ?n1 ?n2 ev alternative alpha] =>
    set (w1 := v1); set (w2 := v2); set (h1 := n1); set (h2 := n2) end.
  assert (RUN : (0 <= m1 -> 0 <= m2 -> m2 <> 0) -> exists r, finish_ind T py_div (Fin m1) (Fin m2) w1 w2 h1 h2 ev alternative alpha = Ok r).
  { intros G. unfold finish_ind. destruct (two_sample_standard_errors _ _ _ _ _) as [[a b] d]. apply finish_test_total; auto.
    intros Q1 Q2. apply nleb_fin in Q1, Q2. specialize (G Q1 Q2). unfold py_div. destruct (neqb _ _) eqn:E; eauto. apply neqb_fin in E. contradiction. }
  split; [|split].
  - intros P1 P2. unfold finish_ind. destruct (two_sample_standard_errors _ _ _ _ _) as [[a b] d]. unfold finish_test.
    assert (A : exists sp, ttest_from_stats T (nsub (Fin m1) (Fin m2)) a (two_sample_degrees_of_freedom (nsqrt w1) (nsqrt w2) (nnat h1) (nnat h2) ev) alternative = Ok sp)
      by (unfold ttest_from_stats; destruct (known_cases _ HK) as [-> | [-> | ->]]; cbn [String.eqb Ascii.eqb Bool.eqb]; eauto).
    destruct A as (sp & ->). cbn [bind].
    assert (B : exists ci, absolute_difference_confidence_interval T (Fin m1) (Fin m2) b d (Fin 0) (two_sample_degrees_of_freedom (nsqrt w1) (nsqrt w2) (nnat h1) (nnat h2) ev) alternative alpha = Ok ci)
      by (unfold absolute_difference_confidence_interval; destruct (known_cases _ HK) as [-> | [-> | ->]]; cbn [String.eqb Ascii.eqb Bool.eqb]; eauto).
    destruct B as (ci & ->). cbn [bind].
    rewrite (proj2 (nleb_fin 0 m1)), (proj2 (nleb_fin 0 m2)) by lra. cbn [andb].
    unfold py_div. rewrite (proj2 (neqb_fin m2 0)) by auto. reflexivity.
  - intros P1 P2. destruct RUN as (r & H); [intros; lra|]. rewrite H. apply finish_ind_ok in H as (se & e1 & e2 & _ & F).
    assert (R := fi_rel _ _ _ _ _ _ _ _ _ _ _ _ _ _ F). rewrite (proj2 (nleb_fin 0 m1)), (proj2 (nleb_fin 0 m2)) in R by lra. cbn [andb] in R.
    destruct R as (x & lo & hi & D & _ & R1 & R2 & R3). exists r, lo, hi. split; auto. split; auto. rewrite R1.
    unfold py_div in D. destruct (neqb (Fin m2) (Fin 0)) eqn:E; [discriminate|]. rewrite ndiv_fin in D by lra.
    assert (x = Fin (m1 / m2)) by congruence. subst x. now rewrite nsub_fin.
  - intros P. destruct RUN as (r & H); [intros; lra|]. rewrite H. apply finish_ind_ok in H as (se & e1 & e2 & _ & F).
    assert (R := fi_rel _ _ _ _ _ _ _ _ _ _ _ _ _ _ F). exists r. split; auto.
    destruct (nleb (Fin 0) (Fin m1)) eqn:Q1, (nleb (Fin 0) (Fin m2)) eqn:Q2; cbn [andb] in R; auto.
    apply nleb_fin in Q1, Q2. exfalso. lra.
Qed.

(** paired: the two means of the same kept items; dividing by 0 gives an infinite or NaN lift *)
Theorem c59_relative_difference_paired :
  forall T argsort xs ys q alternative alpha,
    sorts argsort -> usable (List.length xs) q -> List.length ys = List.length xs -> known alternative ->
    exists r m1 m2, yuens_t_test_paired T argsort (data xs) (data ys) q None None alternative alpha = Ok r /\
      (exists kept, incl kept (seq 0 (List.length xs)) /\ NoDup kept /\ List.length kept = r_sample_size r /\
        m1 = avg (map (fun i => nth i xs 0) kept) /\ m2 = avg (map (fun i => nth i ys 0) kept)) /\
      r_abs r = Fin (m1 - m2) /\ r_control_average r = Fin m2 /\
      (0 <= m1 /\ 0 <= m2 -> exists lower upper, r_rel_lower r = Some lower /\ r_rel_upper r = Some upper /\
         r_rel r = Some (if Req_bool m2 0 then if Req_bool m1 0 then NaN else PInf else Fin (m1 / m2 - 1))) /\
      (m1 < 0 \/ m2 < 0 -> r_rel r = None /\ r_rel_lower r = None /\ r_rel_upper r = None).
Proof.
  intros T argsort xs ys q alternative alpha HS U L HK.
  assert (Sx : sample xs). { destruct U as (A & B & _). split; auto. destruct xs; simpl in *; [lia|discriminate]. }
  destruct (paired_runs T argsort xs ys q alternative alpha HS U (eq_sym L) HK) as (r & H).
  destruct (paired_plain argsort HS T xs ys q alternative alpha r Sx H) as (_ & t & Ht & FT & _ & _ & F).
  set (rows := [minus xs ys; xs; ys]) in *.
  exists r, (avg (rtake (t_kept argsort t) xs)), (avg (rtake (t_kept argsort t) ys)). split; auto.
  destruct F. split.
  { exists (t_kept argsort t). split.
    - intros i Hi. apply in_seq. apply (kept_bound argsort HS t rows _ _ FT) in Hi. lia.
    - split; [|split; [rewrite fi_n, (len_real argsort HS t rows _ _ FT); apply (kept_len argsort HS t rows _ _ FT)|split; reflexivity]].
      unfold t_kept. eapply Permutation_NoDup; [symmetry; apply kept_perm; exact HS|].
      apply middle_NoDup. destruct (HS (hd [] (t_rows t))) as [P _].
      eapply Permutation_NoDup; [symmetry; exact P|apply seq_NoDup]. }
  split; auto. split; auto.
  set (m1 := avg (rtake (t_kept argsort t) xs)) in *. set (m2 := avg (rtake (t_kept argsort t) ys)) in *.
  split.
  - intros [P1 P2]. rewrite (proj2 (nleb_fin 0 m1)), (proj2 (nleb_fin 0 m2)) in fi_rel by lra. cbn [andb] in fi_rel.
    destruct fi_rel as (x & lo & hi & D & _ & R1 & R2 & R3). exists lo, hi. split; auto. split; auto. rewrite R1.
    unfold np_div in D. assert (EX : x = ndiv (Fin m1) (Fin m2)) by congruence. subst x. f_equal.
    case (Req_bool_spec m2 0); intros K2; [|rewrite ndiv_fin by auto; apply nsub_fin].
    cbn [ndiv]. rewrite Req_bool_true by auto. case (Req_bool_spec m1 0); intros K1.
    + rewrite K1, ninf_of_0. reflexivity.
    + rewrite ninf_of_pos by lra. reflexivity.
  - intros P. destruct (nleb (Fin 0) (Fin m1)) eqn:Q1, (nleb (Fin 0) (Fin m2)) eqn:Q2; cbn [andb] in fi_rel; auto.
    apply nleb_fin in Q1, Q2. exfalso. lra.
Qed.

(** *** Concrete cases *)
Lemma sorted_id (l : list R) : StronglySorted Rle l -> sorted_as l l.
Proof. split; auto. Qed.
Ltac sorts3 := apply sorted_id; repeat constructor; lra.

(** C51, C53, C54: three treated and three control items *)
Example ex_independent : exists r s,
  yuens_t_test_ind cauchy argsort_ref (data [2; 4; 9]) (data [1; 2; 3]) f0 None None false "two-sided" (1 / 10) = Ok r /\
  r_standard_error r = Fin s /\ 0 < s /\ r_abs r = Fin 3 /\ s ^ 2 = 14 / 3 /\
  sample [2; 4; 9] /\ sample [1; 2; 3].
Proof.
  destruct ex3 as [U U0].
  assert (S1 : sorted_as [2; 4; 9] [2; 4; 9]) by sorts3. assert (S2 : sorted_as [1; 2; 3] [1; 2; 3]) by sorts3.
  assert (A1 : sample [2; 4; 9]) by (split; [discriminate|simpl; lia]).
  assert (A2 : sample [1; 2; 3]) by (split; [discriminate|simpl; lia]).
  destruct (c59_relative_difference_independent cauchy argsort_ref [2; 4; 9] [1; 2; 3] f0 false "two-sided" (1 / 10) _ _
    argsort_ref_sorts U U S1 S2 ltac:(now left)) as (_ & H & _).
  cbn [List.length] in H. rewrite U0 in H. change (Z.to_nat 0) with 0%nat in H. rewrite (tmean_0 _ _ S1), (tmean_0 _ _ S2) in H.
  assert (M1 : avg [2; 4; 9] = 5) by (unfold avg, total; simpl; lra). assert (M2 : avg [1; 2; 3] = 2) by (unfold avg, total; simpl; lra).
  destruct H as (r & _ & _ & H & _); [rewrite M1; lra|rewrite M2; lra|].
  destruct (c51_what_the_test_computes cauchy argsort_ref _ _ f0 false "two-sided" (1 / 10) r _ _ argsort_ref_sorts A1 A2 S1 S2 H)
    as (k1 & k2 & K1 & K2 & G). cbn [List.length] in K1, K2. rewrite U0 in K1, K2. assert (k1 = 0%nat) by lia. assert (k2 = 0%nat) by lia. subst.
  cbn [List.length Nat.mul Nat.sub Nat.add] in G. destruct G as (_ & _ & GA & _ & _ & G).
  destruct (G ltac:(lia) ltac:(lia)) as (s & ES & Ps & Sq & _).
  rewrite (tdev_0 _ _ S1), (tdev_0 _ _ S2) in Sq. rewrite (tmean_0 _ _ S1), (tmean_0 _ _ S2), M1, M2 in GA.
  assert (V1 : sqdev [2; 4; 9] = 26) by (unfold sqdev; rewrite M1; unfold total; simpl; lra).
  assert (V2 : sqdev [1; 2; 3] = 2) by (unfold sqdev; rewrite M2; unfold total; simpl; lra).
  rewrite V1, V2 in Sq. simpl INR in Sq.
  exists r, s. split; auto. split; auto.
  assert (Q : s ^ 2 = 14 / 3) by (rewrite Sq; field). split; [nra|]. split; [rewrite GA; f_equal; lra|]. auto.
Qed.

(** C52: the hypotheses of [c52_untrimmed] for three items *)
Example ex_paired : usable 3 f0 /\ trim_each 3 f0 = 0%Z /\
  0 < sqdev [1; 2; 4] /\ 0 < sqdev [1; 3; 2] /\ 0 < sqdev (minus [1; 2; 4] [1; 3; 2]).
Proof.
  destruct ex3 as [U U0]. split; auto. split; auto.
  unfold minus, sqdev, avg, total. simpl. repeat split; lra.
Qed.

(** C53, C54: the paired test of these items has finite bounds; so have the swapped and the rescaled one *)
Example ex_paired_bounds : exists r r' r'' s,
  yuens_t_test_paired cauchy argsort_ref (data [1; 2; 4]) (data [1; 3; 2]) f0 None None "two-sided" (1 / 10) = Ok r /\
  yuens_t_test_paired cauchy argsort_ref (data [1; 3; 2]) (data [1; 2; 4]) f0 None None (flip "two-sided") (1 / 10) = Ok r' /\
  yuens_t_test_paired cauchy argsort_ref (data (rescaled 2 [1; 2; 4])) (data (rescaled 2 [1; 3; 2])) f0 None None "two-sided" (1 / 10) = Ok r'' /\
  r_standard_error r = Fin s /\
  (r_abs_lower r <> NaN /\ r_abs_upper r <> NaN) /\ (r_abs_lower r' <> NaN /\ r_abs_upper r' <> NaN) /\
  (r_abs_lower r'' <> NaN /\ r_abs_upper r'' <> NaN).
Proof.
  destruct ex_paired as (U & U0 & V1 & V2 & V0).
  assert (V0' : 0 < sqdev (minus [1; 3; 2] [1; 2; 4])) by (unfold minus, sqdev, avg, total; simpl; lra).
  assert (W1 : 0 < sqdev (rescaled 2 [1; 2; 4])) by (unfold sqdev, avg, total; simpl; lra).
  assert (W2 : 0 < sqdev (rescaled 2 [1; 3; 2])) by (unfold sqdev, avg, total; simpl; lra).
  assert (W0 : 0 < sqdev (minus (rescaled 2 [1; 2; 4]) (rescaled 2 [1; 3; 2]))) by (unfold minus, sqdev, avg, total; simpl; lra).
  assert (NN : forall r, spread cauchy "two-sided" (1 / 10) r -> r_abs_lower r <> NaN /\ r_abs_upper r <> NaN).
  { intros r (d & s & _ & _ & E1 & E2). cbn [String.eqb Ascii.eqb Bool.eqb] in E1, E2. rewrite E1, E2. split; discriminate. }
  destruct (c52_untrimmed cauchy argsort_ref [1; 2; 4] [1; 3; 2] f0 "two-sided" (1 / 10)) as (r & H & SP & _); auto using argsort_ref_sorts; [now left|lra|].
  destruct (c52_untrimmed cauchy argsort_ref [1; 3; 2] [1; 2; 4] f0 (flip "two-sided") (1 / 10)) as (r' & H' & SP' & _); auto using argsort_ref_sorts; [now left|lra|].
  destruct (c52_untrimmed cauchy argsort_ref (rescaled 2 [1; 2; 4]) (rescaled 2 [1; 3; 2]) f0 "two-sided" (1 / 10)) as (r'' & H'' & SP'' & _); auto using argsort_ref_sorts; [now left|lra|].
  assert (SP0 := SP). destruct SP0 as (_ & s & _ & ES & _).
  exists r, r', r'', s. auto 10.
Qed.

(** C59: control average 0 *)
Theorem c59_always_returns_refuted :
  exists T argsort xs ys q equal_var alternative alpha e,
    sorts argsort /\ usable (List.length xs) q /\ usable (List.length ys) q /\ known alternative /\ 0 < alpha < 1 /\
    yuens_t_test_ind T argsort (data xs) (data ys) q None None equal_var alternative alpha = Err e.
Proof.
  destruct ex3 as [U U0].
  assert (S1 : sorted_as [2; 4; 9] [2; 4; 9]) by sorts3. assert (S2 : sorted_as [-1; 0; 1] [-1; 0; 1]) by sorts3.
  exists cauchy, argsort_ref, [2; 4; 9], [-1; 0; 1], f0, true, "two-sided", (1 / 10), (ZeroDivisionError "float division by zero").
  split; [apply argsort_ref_sorts|]. split; auto. split; auto. split; [now left|]. split; [lra|].
  destruct (c59_relative_difference_independent cauchy argsort_ref [2; 4; 9] [-1; 0; 1] f0 true "two-sided" (1 / 10) _ _
    argsort_ref_sorts U U S1 S2 ltac:(now left)) as (H & _).
  cbn [List.length] in H. rewrite U0 in H. change (Z.to_nat 0) with 0%nat in H. rewrite (tmean_0 _ _ S1), (tmean_0 _ _ S2) in H.
  apply H; unfold avg, total; simpl; lra.
Qed.

Print Assumptions c53_swapping_independent_samples.
Print Assumptions c53_swapping_paired_samples.
Print Assumptions c54_changing_the_unit.
Print Assumptions c54_changing_the_unit_paired.
Print Assumptions c59_relative_difference_independent.
Print Assumptions c59_relative_difference_paired.
Print Assumptions c59_always_returns_refuted.
