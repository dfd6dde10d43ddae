(** C99: what the confidence intervals contain.  The absolute interval is the set of differences
    that the test of the data with this difference taken away does not reject, and the intervals
    contain the true difference for as many deviations as the confidence level says. *)
From Coq Require Import ZArith Reals Lra Lia List String Bool Permutation Sorting.Sorted.
From Flocq Require Import Core BinarySingleNaN.
Require Import Verif.Base Verif.Num Verif.NumOrd Verif.F64 Verif.ListLib
  Verif.Trimmed_Model Verif.Trimmed_Spec Verif.Moments Verif.Trimmed_Proofs Verif.Trimmed_Real Verif.Trimmed_Props
  Verif.Cuped_Props Verif.Stats_Model Verif.Stats_Num Verif.Stats_Props Verif.Tests_Proofs Verif.Tests_Props
  Verif.Tests_Props2 Verif.Fieller_Props.
Import ListNotations.
Open Scope string_scope.
Open Scope list_scope.
Open Scope R_scope.

(** the sample with [d] taken away from every value *)
Definition less_by (d : R) (xs : list R) : list R := map (fun x => x - d) xs.

(** [x] is in the reported interval of the absolute difference *)
Definition in_absolute (r : tresult) (x : R) : Prop := in_interval (r_abs_lower r, r_abs_upper r) x.

(** the probability [u] below a deviation is not in the tails that the alternative looks at *)
Definition central (alternative : string) (alpha u : R) : Prop :=
  (alternative <> "less" -> u <= 1 - level alternative alpha) /\
  (alternative <> "greater" -> level alternative alpha <= u).

(** *** The shifted sample *)
Lemma sorted_as_less d xs s : sorted_as xs s -> sorted_as (less_by d xs) (less_by d s).
Proof.
  intros [P SS]. split; [now apply Permutation_map|]. clear P.
  induction SS as [|a l SS IH F]; simpl; constructor; auto.
  apply Forall_map. eapply Forall_impl; [|exact F]. simpl. intros; lra.
Qed.
Lemma sample_less d xs : sample xs -> sample (less_by d xs).
Proof. intros [A B]. unfold sample, less_by. rewrite map_length. split; auto. intros E. apply map_eq_nil in E. auto. Qed.
Lemma less_moments d xs s k : sorted_as xs s -> (2 * k < List.length xs)%nat ->
  tmean k (less_by d s) = tmean k s - d /\ tdev k (less_by d xs) (less_by d s) = tdev k xs s.
Proof.
  intros [P SS] H. assert (L := Permutation_length P). unfold less_by. split.
  - unfold tmean. rewrite middle_map.
    transitivity (avg (map (fun x => 1 * x + - d) (middle k s))); [f_equal; apply map_ext; intros; ring|].
    rewrite avg_affine by (apply middle_nonempty; lia). ring.
  - unfold tdev. rewrite map_length.
    rewrite !(nth_indep (map (fun x => x - d) s) 0 (0 - d)) by (rewrite map_length; lia).
    rewrite !(map_nth (fun x => x - d)). rewrite map_map.
    set (lo := nth k s 0). set (hi := nth (List.length xs - 1 - k) s 0).
    transitivity (sqdev (map (fun x => 1 * x + - d) (map (clip lo hi) xs))).
    + f_equal. rewrite map_map. apply map_ext. intros x. unfold clip, Rmin, Rmax.
      repeat destruct (Rle_dec _ _); lra.
    + rewrite sqdev_affine; [ring|]. destruct xs; [simpl in H; lia|discriminate].
Qed.
Lemma minus_less d xs ys : minus (less_by d xs) ys = less_by d (minus xs ys).
Proof.
  unfold minus, less_by. revert ys. induction xs as [|x xs IH]; intros [|y ys]; simpl; auto. rewrite IH. f_equal. ring.
Qed.

Lemma less_trimmed argsort d xs q t : sorts argsort -> sample xs -> mk_trimmed argsort [data xs] q = Ok t ->
  exists t' m, mk_trimmed argsort [data (less_by d xs)] q = Ok t' /\
    vec (t_mean argsort t) 0 = Fin m /\ vec (t_mean argsort t') 0 = Fin (m - d) /\
    vec (t_var argsort t' 1) 0 = vec (t_var argsort t 1) 0 /\ t_len argsort t' = t_len argsort t.
Proof.
  intros HS Sx Ht. destruct (sorted_real xs) as (s & P & SS). assert (Px : sorted_as xs s) by (split; auto).
  assert (A : array (List.length xs) [data xs]).
  { apply (sample_array xs [xs]); auto; [intros r0 [<-|[]]; auto|discriminate]. }
  assert (A' : array (List.length xs) [data (less_by d xs)]).
  { destruct A as (_ & _ & A3 & A4). split; [discriminate|]. split; auto. intros r0 [<-|[]]. unfold data, less_by. now rewrite !map_length. }
  assert (Q : is_finite q = true /\ 0 <= B2R q < 1 / 2) by (apply (c43_accepts_exactly_quantiles_below_half argsort _ q _ HS A); eauto).
  apply (c43_accepts_exactly_quantiles_below_half argsort _ q _ HS A') in Q as (t' & Ht').
  exists t', (tmean (t_k t) s). split; auto.
  destruct (one_sample_moments argsort xs s q t HS Sx Px Ht) as (K & K2 & M & L & V).
  destruct (one_sample_moments argsort _ _ q t' HS (sample_less d xs Sx) (sorted_as_less d xs s Px) Ht') as (K' & _ & M' & L' & V').
  unfold less_by at 1 in K'. rewrite map_length in K'. assert (EK : t_k t' = t_k t) by lia. rewrite EK in *.
  destruct (less_moments d xs s (t_k t) Px K2) as [E1 E2]. rewrite E1 in M'. rewrite E2 in V'.
  assert (LR : List.length (less_by d xs) = List.length xs) by (unfold less_by; apply map_length). rewrite LR in *.
  split; auto. split; auto. split; congruence.
Qed.

(** *** The test and the interval *)
Lemma finish_ind_finite T div mean1 mean2 v1 v2 n1 n2 ev alternative alpha r s :
  finish_ind T div mean1 mean2 v1 v2 n1 n2 ev alternative alpha = Ok r ->
  (forall a, v1 = Fin a -> (2 <= n1)%nat /\ exists m, mean1 = Fin m) ->
  (forall a, v2 = Fin a -> (2 <= n2)%nat /\ exists m, mean2 = Fin m) ->
  r_standard_error r = Fin s -> 0 < s -> 0 < alpha < 1 ->
  exists m1 m2 e1 e2, mean1 = Fin m1 /\ mean2 = Fin m2 /\
    s * s = e1 * e1 + e2 * e2 - 2 * (e1 * e2 * 0) /\ valid_df (r_df r) = true /\
    finished T div (Fin (m1 - m2)) (Fin s) (Fin m1) (Fin m2) (Fin e1) (Fin e2) (Fin 0) (r_df r) (n1 + n2) alternative alpha r.
Proof.
  intros H H1 H2 HS Ps Ha.
  assert (V := proj2 (finish_ind_consistent T div mean1 mean2 v1 v2 n1 n2 ev alternative alpha r s H H1 H2 HS Ps Ha)).
  apply finish_ind_ok in H as (se & e1 & e2 & ES & F).
  assert (Ese := fi_se _ _ _ _ _ _ _ _ _ _ _ _ _ _ F). rewrite HS in Ese. symmetry in Ese.
  destruct (two_se_fin v1 v2 (nnat n1) (nnat n2) ev se e1 e2 s ES Ese ltac:(eexists; reflexivity) ltac:(eexists; reflexivity))
    as (a & b & -> & -> & Pa & Pb).
  destruct (H1 a eq_refl) as (N1 & m1 & ->). destruct (H2 b eq_refl) as (N2 & m2 & ->).
  rewrite !nsqrt_fin in * by auto.
  assert (R1 : 1 < INR n1) by (apply (lt_INR 1); lia). assert (R2 : 1 < INR n2) by (apply (lt_INR 1); lia).
  assert (Sa := sqrt_pos a). assert (Sb := sqrt_pos b).
  destruct (c55_standard_errors (sqrt a) (sqrt b) (INR n1) (INR n2) ev R1 R2 Sa Sb)
    as (se' & e1' & e2' & E & Q0 & Q1 & Q2 & QS & QV).
  fold (nnat n1) (nnat n2) in E. rewrite E in ES.
  assert (X : se = Fin se') by congruence. assert (X1 : e1 = Fin e1') by congruence. assert (X2 : e2 = Fin e2') by congruence.
  clear ES. subst e1 e2. rewrite X in F, Ese. assert (se' = s) by congruence. subst se'. clear X Ese.
  exists m1, m2, e1', e2'. rewrite nsub_fin in F.
  rewrite (fi_df _ _ _ _ _ _ _ _ _ _ _ _ _ _ F) in V |- *.
  split; auto. split; auto. split; [simpl in QS; lra|]. split; auto.
Qed.

(** the reported interval *)
Lemma finished_spread T div m1 m2 e1 e2 rho s n alternative alpha r :
  finished T div (Fin (m1 - m2)) (Fin s) (Fin m1) (Fin m2) (Fin e1) (Fin e2) (Fin rho) (r_df r) n alternative alpha r ->
  valid_df (r_df r) = true -> 0 < alpha < 1 -> 0 < s -> s * s = e1 * e1 + e2 * e2 - 2 * (e1 * e2 * rho) ->
  known alternative /\ spread T alternative alpha r.
Proof.
  intros F V Ha Hs ES. destruct F. split; auto.
  rewrite (abs_ci_fin T m1 m2 e1 e2 rho _ s) in fi_ci by (auto; lra).
  exists (m1 - m2), s. split; auto. split; auto. split; congruence.
Qed.

(** the interval against the test of the difference less [x] *)
Lemma spread_inverts T alternative alpha r x d s sp : known alternative -> valid_df (r_df r) = true -> 0 < alpha < 1 -> 0 < s ->
  spread T alternative alpha r -> r_abs r = Fin d -> r_standard_error r = Fin s ->
  ttest_from_stats T (Fin (d - x)) (Fin s) (r_df r) alternative = Ok sp ->
  (nltb (snd sp) (Fin alpha) = false <-> in_absolute r x).
Proof.
  intros HK V Ha Hs (d0 & s0 & E1 & E2 & EL & EU) Ed Es HT.
  assert (d0 = d) by congruence. assert (s0 = s) by congruence. subst d0 s0.
  destruct (core_duality T (d - x) s (r_df r) alternative alpha sp HK V Ha Hs HT) as [D _].
  unfold in_absolute, in_interval. cbn [fst snd]. rewrite EL, EU. cbv zeta in *.
  set (t := td_ppf T (r_df r) (1 - level alternative alpha)) in *.
  rewrite <- Bool.not_true_iff_false, D. unfold outside0.
  destruct (known_cases _ HK) as [-> | [-> | ->]]; cbn [String.eqb Ascii.eqb Bool.eqb]; rewrite ?nltb_fin, ?nleb_fin; cbn [nltb nleb].
  - split; [intros H; split; apply Rnot_lt_le; intros C; apply H; [left|right]; lra|intros [A B] [C|C]; lra].
  - split; [intros H; split; [|reflexivity]; apply Rnot_lt_le; intros C; apply H; left; lra|intros [A _] [C|C]; [lra|discriminate]].
  - split; [intros H; split; [reflexivity|]; apply Rnot_lt_le; intros C; apply H; right; lra|intros [_ A] [C|C]; [discriminate|lra]].
Qed.

Lemma spread_covers T alternative alpha r x d s : known alternative -> valid_df (r_df r) = true -> 0 < alpha < 1 -> 0 < s ->
  spread T alternative alpha r -> r_abs r = Fin d -> r_standard_error r = Fin s ->
  (in_absolute r x <-> central alternative alpha (td_cdf T (r_df r) ((d - x) / s))).
Proof.
  intros HK V Ha Hs (d0 & s0 & E1 & E2 & EL & EU) Ed Es.
  assert (d0 = d) by congruence. assert (s0 = s) by congruence. subst d0 s0.
  unfold in_absolute, in_interval. cbn [fst snd]. rewrite EL, EU. cbv zeta in *.
  assert (HL : 0 < level alternative alpha < 1) by (unfold level; destruct (alternative =? "two-sided"); lra).
  set (a := level alternative alpha) in *. set (t := td_ppf T (r_df r) (1 - a)) in *.
  assert (Ct : td_cdf T (r_df r) t = 1 - a) by (apply td_inv; auto; lra).
  assert (Cn : td_cdf T (r_df r) (- t) = a) by (rewrite td_sym by auto; lra).
  assert (LE : forall y z, td_cdf T (r_df r) y <= td_cdf T (r_df r) z <-> y <= z).
  { intros y z. split; intros H.
    - apply Rnot_lt_le. intros C. apply (td_incr T (r_df r)) in C; auto. lra.
    - destruct (Rle_lt_or_eq_dec y z H) as [C|C]; [apply (td_incr T (r_df r)) in C; auto; lra|rewrite C; lra]. }
  assert (Q : (d - x) / s * s = d - x) by (field; lra). set (z := (d - x) / s) in *.
  assert (UP : td_cdf T (r_df r) z <= 1 - a <-> d - t * s <= x) by (rewrite <- Ct, LE; split; intros; nra).
  assert (DN : a <= td_cdf T (r_df r) z <-> x <= d + t * s) by (rewrite <- Cn at 1; rewrite LE; split; intros; nra).
  unfold central. fold a. rewrite UP, DN.
  destruct (known_cases _ HK) as [-> | [-> | ->]]; cbn [String.eqb Ascii.eqb Bool.eqb]; rewrite ?nleb_fin; cbn [nleb].
  - split; [intros [A B]; auto|intros [A B]; split; [apply A|apply B]; discriminate].
  - split; [intros [A B]; split; auto; congruence|intros [A B]; split; [apply A; discriminate|reflexivity]].
  - split; [intros [A B]; split; auto; congruence|intros [A B]; split; [reflexivity|apply B; discriminate]].
Qed.

Lemma ind_finite T argsort xs ys q ev alternative alpha r s : sorts argsort -> sample xs -> sample ys ->
  yuens_t_test_ind T argsort (data xs) (data ys) q None None ev alternative alpha = Ok r ->
  r_standard_error r = Fin s -> 0 < s -> 0 < alpha < 1 ->
  known alternative /\ valid_df (r_df r) = true /\ spread T alternative alpha r.
Proof.
  intros HS Sx Sy H ES Ps Ha. unfold yuens_t_test_ind in H. cbn [ratio_arguments bind] in H.
  apply bind_ok in H as (t1 & B1 & H). apply bind_ok in H as (t2 & B2 & H).
  assert (ONE : forall zs t, sample zs -> mk_trimmed argsort [data zs] q = Ok t ->
    forall a, vec (t_var argsort t 1) 0 = Fin a -> (2 <= t_len argsort t)%nat /\ exists m, vec (t_mean argsort t) 0 = Fin m).
  { intros zs t Sz Ht a E.
    assert (FT : finite_trimmed t [zs] (List.length zs) (t_k t)).
    { eapply (rows_finite argsort HS q); eauto; [|discriminate]. intros r0 [<-|[]]; auto. }
    split; [|rewrite (mean_entry argsort HS t [zs] _ 0 zs FT eq_refl); eauto].
    rewrite (var_entry argsort HS t [zs] _ 0 zs FT eq_refl) in E. eapply (len_two argsort HS); eauto. }
  destruct (finish_ind_finite _ _ _ _ _ _ _ _ _ _ _ _ _ H (ONE xs t1 Sx B1) (ONE ys t2 Sy B2) ES Ps Ha)
    as (m1 & m2 & e1 & e2 & _ & _ & SS & V & F).
  destruct (finished_spread _ _ _ _ _ _ _ _ _ _ _ _ F V Ha Ps SS). auto.
Qed.

(** the difference [x] is in the interval of the independent test iff the test of the treatment
    values less [x] is not significant *)
Theorem c99_interval_holds_what_the_independent_test_does_not_reject :
  forall T argsort xs ys x q equal_var alternative alpha r r' s,
    sorts argsort -> sample xs -> sample ys -> 0 < alpha < 1 ->
    yuens_t_test_ind T argsort (data xs) (data ys) q None None equal_var alternative alpha = Ok r ->
    r_standard_error r = Fin s -> 0 < s ->
    yuens_t_test_ind T argsort (data (less_by x xs)) (data ys) q None None equal_var alternative alpha = Ok r' ->
    (r_significant r' = false <-> in_absolute r x) /\ r_standard_error r' = r_standard_error r.
Proof.
  intros T argsort xs ys x q ev alternative alpha r r' s HS Sx Sy Ha H ES Ps H'.
  destruct (ind_finite _ _ _ _ _ _ _ _ _ _ HS Sx Sy H ES Ps Ha) as (HK & V & SP).
  unfold yuens_t_test_ind in *. cbn [ratio_arguments bind] in *.
  apply bind_ok in H as (t1 & B1 & H). apply bind_ok in H as (t2 & B2 & H).
  destruct (less_trimmed argsort x xs q t1 HS Sx B1) as (t1' & m & B1' & M & M' & VV & LL).
  destruct (less_trimmed argsort 0 ys q t2 HS Sy B2) as (_ & m2 & _ & M2 & _).
  rewrite B1', B2 in H'. cbn [bind] in H'. rewrite M', VV, LL in H'. rewrite M in H. rewrite M2 in H, H'.
  apply finish_ind_ok in H as (se & e1 & e2 & E & F). apply finish_ind_ok in H' as (se' & e1' & e2' & E' & F').
  assert (se' = se) by congruence. subst se'. clear E E'.
  assert (SE : se = Fin s) by (rewrite <- ES; symmetry; exact (fi_se _ _ _ _ _ _ _ _ _ _ _ _ _ _ F)). subst se.
  assert (DF := fi_df _ _ _ _ _ _ _ _ _ _ _ _ _ _ F). rewrite <- DF in F'.
  assert (EA := fi_abs _ _ _ _ _ _ _ _ _ _ _ _ _ _ F). destruct F'.
  split; [|congruence]. rewrite nsub_fin in *. rewrite fi_sig.
  replace (m - x - m2) with (m - m2 - x) in fi_test by ring.
  exact (spread_inverts T alternative alpha r x _ s _ HK V Ha Ps SP EA ES fi_test).
Qed.

Lemma paired_valid T argsort xs ys q alternative alpha r s : sorts argsort -> sample xs ->
  yuens_t_test_paired T argsort (data xs) (data ys) q None None alternative alpha = Ok r ->
  r_standard_error r = Fin s -> valid_df (r_df r) = true.
Proof.
  intros HS Sx H ES.
  destruct (sorted_real (minus xs ys)) as (sd & P & SS). assert (Sd : sorted_as (minus xs ys) sd) by (split; auto).
  destruct (paired_key T argsort xs ys q alternative alpha r sd HS Sx Sd H) as (L & k & K & K2 & A1 & A2 & A3 & A4 & A5 & A6).
  rewrite A3. set (h := (List.length xs - 2 * k)%nat) in *. assert (Hh : (1 <= h)%nat) by (unfold h; lia).
  destruct (Nat.eq_dec h 1) as [E|E].
  - exfalso. rewrite A2, E in ES. unfold one_sample_standard_error, nnat in ES. rewrite (nsqrt_fin (INR 1)) in ES by (simpl; lra).
    apply ndiv_is_fin in ES as (a & Ea & _). change (Z.of_nat 1 - 1)%Z with 0%Z in Ea.
    destruct (ndiv (Fin (tdev k (minus xs ys) sd)) (Fin (IZR 0))) eqn:Z0; try discriminate.
    apply ndiv_is_fin in Z0 as (b & _ & Z0 & _). now apply Z0.
  - unfold one_sample_degrees_of_freedom, nnat. rewrite nsub_fin. simpl. apply Rlt_bool_true.
    assert (1 < INR h) by (apply (lt_INR 1); lia). lra.
Qed.

(** the same for the paired test, when it reports bounds *)
Theorem c99_interval_holds_what_the_paired_test_does_not_reject :
  forall T argsort xs ys x q alternative alpha r r' s,
    sorts argsort -> sample xs -> 0 < alpha < 1 ->
    yuens_t_test_paired T argsort (data xs) (data ys) q None None alternative alpha = Ok r ->
    r_standard_error r = Fin s -> 0 < s -> r_abs_lower r <> NaN -> r_abs_upper r <> NaN ->
    yuens_t_test_paired T argsort (data (less_by x xs)) (data ys) q None None alternative alpha = Ok r' ->
    (r_significant r' = false <-> in_absolute r x) /\ r_standard_error r' = r_standard_error r.
Proof.
  intros T argsort xs ys x q alternative alpha r r' s HS Sx Ha H ES Ps N1 N2 H'.
  destruct (sorted_real (minus xs ys)) as (sd & P & SS). assert (Sd : sorted_as (minus xs ys) sd) by (split; auto).
  assert (Sd' : sorted_as (minus (less_by x xs) ys) (less_by x sd)) by (rewrite minus_less; now apply sorted_as_less).
  assert (Sx' := sample_less x xs Sx).
  destruct (c52_significant_iff_interval_excludes_zero T argsort xs ys None None q alternative alpha r s HS Sx H ES Ha N1 N2) as [SP _].
  destruct (paired_key T argsort xs ys q alternative alpha r sd HS Sx Sd H) as (L & k & K & K2 & A1 & A2 & A3 & A4 & A5 & A6).
  destruct (paired_key T argsort _ _ q alternative alpha r' _ HS Sx' Sd' H') as (_ & k' & K' & _ & B1 & B2 & B3 & B4 & B5 & B6).
  assert (LR : List.length (less_by x xs) = List.length xs) by (unfold less_by; apply map_length). rewrite LR in K', B2, B3, B4, B5.
  assert (k' = k) by lia. subst k'. clear K'. rewrite minus_less in B2, B5.
  assert (LM : List.length (minus xs ys) = List.length xs) by (now apply minus_length).
  destruct (less_moments x (minus xs ys) sd k Sd ltac:(lia)) as [E1 E2]. rewrite E1 in B1, B5. rewrite E2 in B2, B5. clear E1 E2.
  rewrite <- A2 in B2, B5. split; [|auto]. rewrite ES in B5. rewrite B3, <- A3 in B5. rewrite B6.
  assert (KN : known alternative) by (eapply ttest_known; exact A5).
  assert (V := paired_valid T argsort xs ys q alternative alpha r s HS Sx H ES).
  exact (spread_inverts T alternative alpha r x _ s _ KN V Ha Ps SP A1 ES B5).
Qed.

(** *** How often the intervals contain the truth *)

(** if the estimate is the true difference plus the standard error times a deviation, then the
    interval of the absolute difference contains the true difference exactly for the deviations
    outside of the tails of total probability alpha *)
Theorem c99_absolute_interval_covers_the_true_difference :
  forall T argsort xs ys x q equal_var alternative alpha r s z,
    sorts argsort -> sample xs -> 0 < alpha < 1 -> r_standard_error r = Fin s -> 0 < s -> r_abs r = Fin (x + s * z) ->
    (sample ys /\ yuens_t_test_ind T argsort (data xs) (data ys) q None None equal_var alternative alpha = Ok r) \/
    (yuens_t_test_paired T argsort (data xs) (data ys) q None None alternative alpha = Ok r /\
     r_abs_lower r <> NaN /\ r_abs_upper r <> NaN) ->
    (in_absolute r x <-> central alternative alpha (td_cdf T (r_df r) z)).
Proof.
  intros T argsort xs ys x q ev alternative alpha r s z HS Sx Ha ES Ps EA H.
  assert (G : known alternative /\ valid_df (r_df r) = true /\ spread T alternative alpha r).
  { destruct H as [(Sy & H)|(H & N1 & N2)]; [exact (ind_finite _ _ _ _ _ _ _ _ _ _ HS Sx Sy H ES Ps Ha)|].
    destruct (sorted_real (minus xs ys)) as (sd & P & SS). assert (Sd : sorted_as (minus xs ys) sd) by (split; auto).
    destruct (paired_key T argsort xs ys q alternative alpha r sd HS Sx Sd H) as (L & k & K & K2 & A1 & A2 & A3 & A4 & A5 & A6).
    split; [eapply ttest_known; exact A5|]. split; [exact (paired_valid T argsort xs ys q alternative alpha r s HS Sx H ES)|].
    exact (proj1 (c52_significant_iff_interval_excludes_zero T argsort xs ys None None q alternative alpha r s HS Sx H ES Ha N1 N2)). }
  destruct G as (HK & V & SP). rewrite (spread_covers T alternative alpha r x _ s HK V Ha Ps SP EA ES).
  replace ((x + s * z - x) / s) with z by (field; lra). reflexivity.
Qed.

(** the estimate of m1 - (1 + lift) m2 in standard errors *)
Definition lift_deviation (m1 m2 e1 e2 rho lift : R) : R :=
  (m1 - (1 + lift) * m2) / sqrt (e1 ^ 2 - 2 * (1 + lift) * (e1 * e2 * rho) + (1 + lift) ^ 2 * e2 ^ 2).

Lemma cdf_le T df y z : valid_df df = true -> (td_cdf T df y <= td_cdf T df z <-> y <= z).
Proof.
  intros V. split; intros H.
  - apply Rnot_lt_le. intros C. apply (td_incr T df) in C; auto. lra.
  - destruct (Rle_lt_or_eq_dec y z H) as [C|C]; [apply (td_incr T df) in C; auto; lra|rewrite C; lra].
Qed.

(** where the relative interval is bounded it contains the true relative difference exactly for the
    deviations outside of the tails *)
Theorem c99_relative_interval_covers_the_true_lift :
  forall T m1 m2 e1 e2 rho df alternative alpha ci lift,
    0 <= m1 -> 0 <= m2 -> -1 <= rho <= 1 -> valid_df df = true -> 0 < alpha < 1 ->
    alternative = "two-sided" \/ alpha <= 1 / 2 -> -1 <= lift ->
    td_ppf T df (1 - level alternative alpha) ^ 2 * e2 ^ 2 < m2 ^ 2 ->
    0 < e1 ^ 2 - 2 * (1 + lift) * (e1 * e2 * rho) + (1 + lift) ^ 2 * e2 ^ 2 ->
    relative_difference_confidence_interval T (Fin m1) (Fin m2) (Fin e1) (Fin e2) (Fin rho) df alternative alpha = Ok ci ->
    (in_interval ci lift <-> central alternative alpha (td_cdf T df (lift_deviation m1 m2 e1 e2 rho lift))).
Proof.
  intros T m1 m2 e1 e2 rho df alternative alpha ci lift M1 M2 R1 V Ha HT HL HB HW E.
  assert (K : known alternative).
  { unfold relative_difference_confidence_interval in E. unfold known. simpl.
    destruct (String.eqb_spec alternative "two-sided"); [auto|]. destruct (String.eqb_spec alternative "greater"); [auto|].
    destruct (String.eqb_spec alternative "less"); [auto|].
    apply bind_ok in E as (u & _ & E). apply bind_ok in E as (t & Et & _). cbn in Et. discriminate. }
  destruct (bounded_case T m1 m2 e1 e2 rho alpha df alternative M1 M2 R1 V K Ha HB) as (lo & hi & EI & F & B1 & B2 & B3).
  rewrite EI in E. injection E as <-. clear EI.
  set (a := level alternative alpha) in *. set (t := td_ppf T df (1 - a)) in *.
  assert (HLv : 0 < a < 1) by (unfold a, level; destruct (alternative =? "two-sided"); lra).
  assert (TP : 0 <= t).
  { unfold t, a, level. destruct (known_cases _ K) as [X|[X|X]]; rewrite X in *; cbn [String.eqb Ascii.eqb Bool.eqb]; apply ppf_nonneg; auto;
      destruct HT as [Y|Y]; try discriminate; lra. }
  assert (Ct : td_cdf T df t = 1 - a) by (apply td_inv; auto; lra).
  assert (Cn : td_cdf T df (- t) = a) by (rewrite td_sym by auto; lra).
  assert (P2 : 0 < m2). { assert (0 <= t ^ 2 * e2 ^ 2) by (apply Rmult_le_pos; apply pow2_ge_0). destruct (Req_dec m2 0); [subst; simpl in HB; lra|lra]. }
  specialize (F (1 + lift) ltac:(lra)). replace (1 + lift - 1) with lift in F by ring.
  unfold fieller in F. fold t in F.
  set (W := e1 ^ 2 - 2 * (1 + lift) * (e1 * e2 * rho) + (1 + lift) ^ 2 * e2 ^ 2) in *.
  unfold lift_deviation. fold W. assert (Sp := sqrt_lt_R0 W HW). assert (SS := sqrt_sqrt W (Rlt_le _ _ HW)).
  set (w := sqrt W) in *. set (n := m1 - (1 + lift) * m2) in *.
  assert (Q : n / w * w = n) by (field; lra). set (z := n / w) in *.
  assert (NL : lift <= m1 / m2 - 1 <-> 0 <= n).
  { unfold n. assert (m1 / m2 * m2 = m1) by (field; lra). split; intros; nra. }
  assert (F2 : lo <= lift <= hi <-> - t <= z <= t).
  { rewrite F. rewrite <- SS. rewrite <- Q. split; intros H.
    - assert (z ^ 2 <= t ^ 2) by (apply Rmult_le_reg_r with (w * w); [nra|]; nra). split; nra.
    - assert (z ^ 2 <= t ^ 2) by nra. assert (0 <= w * w) by nra. nra. }
  assert (LO : lo <= lift <-> z <= t).
  { destruct (Rle_dec lift (m1 / m2 - 1)) as [C|C].
    - assert (N0 := proj1 NL C). assert (0 <= z) by (apply Rmult_le_reg_r with w; lra). split; intros H0.
      + apply F2. lra.
      + apply F2. lra.
    - assert (N0 : n < 0) by (apply Rnot_le_lt; intros N0; apply C; tauto). assert (z < 0) by nra. split; intros; lra. }
  assert (HI : lift <= hi <-> - t <= z).
  { destruct (Rle_dec (m1 / m2 - 1) lift) as [C|C].
    - assert (N0 : n <= 0). { unfold n. assert (m1 / m2 * m2 = m1) by (field; lra). nra. } assert (z <= 0) by nra. split; intros H0; apply F2; lra.
    - assert (N0 : 0 <= n) by (apply NL; lra). assert (0 <= z) by (apply Rmult_le_reg_r with w; lra). split; intros; lra. }
  assert (UP : td_cdf T df z <= 1 - a <-> lo <= lift) by (rewrite <- Ct, cdf_le by auto; tauto).
  assert (DN : a <= td_cdf T df z <-> lift <= hi) by (rewrite <- Cn at 1; rewrite cdf_le by auto; tauto).
  unfold central. fold a. rewrite UP, DN. unfold in_interval. cbn [fst snd].
  destruct (known_cases _ K) as [X|[X|X]]; rewrite X; cbn [String.eqb Ascii.eqb Bool.eqb]; rewrite ?nleb_fin; cbn [nleb].
  - split; [intros [A B]; auto|intros [A B]; split; [apply A|apply B]; discriminate].
  - split; [intros [A B]; split; auto; congruence|intros [A B]; split; [apply A; discriminate|reflexivity]].
  - split; [intros [A B]; split; auto; congruence|intros [A B]; split; [lra|apply B; discriminate]].
Qed.

(** non-trivial cases: two independent samples and the first of them less 3, their difference, ... *)
Example c99_independent_example : exists r r' s,
  yuens_t_test_ind cauchy argsort_ref (data [2; 4; 9]) (data [1; 2; 3]) f0 None None false "two-sided" (1 / 10) = Ok r /\
  yuens_t_test_ind cauchy argsort_ref (data (less_by 3 [2; 4; 9])) (data [1; 2; 3]) f0 None None false "two-sided" (1 / 10) = Ok r' /\
  r_standard_error r = Fin s /\ 0 < s /\ in_absolute r 3 /\ r_significant r' = false.
Proof.
  destruct ex_independent as (r & s & H & ES & Ps & EA & _ & A1 & A2). destruct ex3 as [U U0].
  assert (S1 : sorted_as (less_by 3 [2; 4; 9]) (less_by 3 [2; 4; 9])) by (split; [reflexivity|]; repeat constructor; lra).
  assert (S2 : sorted_as [1; 2; 3] [1; 2; 3]) by (split; [reflexivity|]; repeat constructor; lra).
  destruct (c59_relative_difference_independent cauchy argsort_ref (less_by 3 [2; 4; 9]) [1; 2; 3] f0 false "two-sided" (1 / 10) _ _
    argsort_ref_sorts U U S1 S2 ltac:(now left)) as (_ & G & _).
  change (List.length (less_by 3 [2; 4; 9])) with 3%nat in G. change (List.length [1; 2; 3]) with 3%nat in G.
  rewrite U0 in G. change (Z.to_nat 0) with 0%nat in G. rewrite (tmean_0 _ _ S1), (tmean_0 _ _ S2) in G.
  assert (M1 : avg (less_by 3 [2; 4; 9]) = 2) by (unfold less_by, avg, total; simpl; lra). assert (M2 : avg [1; 2; 3] = 2) by (unfold avg, total; simpl; lra).
  rewrite M1, M2 in G. destruct (G ltac:(lra) ltac:(lra)) as (r' & _ & _ & H' & _).
  exists r, r', s. split; [exact H|]. split; [exact H'|]. split; auto. split; auto.
  destruct (c99_interval_holds_what_the_independent_test_does_not_reject cauchy argsort_ref [2; 4; 9] [1; 2; 3] 3 f0 false "two-sided" (1 / 10) r r' s argsort_ref_sorts A1 A2
    ltac:(lra) H ES Ps H') as [E _].
  assert (IN : in_absolute r 3).
  { apply (c99_absolute_interval_covers_the_true_difference cauchy argsort_ref [2; 4; 9] [1; 2; 3] 3 f0 false "two-sided" (1 / 10) r s 0
      argsort_ref_sorts A1 ltac:(lra) ES Ps); [rewrite EA; f_equal; lra|left; auto|].
    destruct (ind_finite _ _ _ _ _ _ _ _ _ _ argsort_ref_sorts A1 A2 H ES Ps ltac:(lra)) as (_ & V & _).
    rewrite (cdf_0 cauchy _ V). unfold central, level. cbn [String.eqb Ascii.eqb Bool.eqb]. lra. }
  split; auto. now apply E.
Qed.
(** ... three pairs ... *)
Example c99_paired_example : exists r r' s,
  yuens_t_test_paired cauchy argsort_ref (data [1; 2; 4]) (data [1; 3; 2]) f0 None None "two-sided" (1 / 10) = Ok r /\
  yuens_t_test_paired cauchy argsort_ref (data (less_by 1 [1; 2; 4])) (data [1; 3; 2]) f0 None None "two-sided" (1 / 10) = Ok r' /\
  r_standard_error r = Fin s /\ r_abs_lower r <> NaN /\ r_abs_upper r <> NaN.
Proof.
  destruct ex_paired_bounds as (r & _ & _ & s & H & _ & _ & ES & (N1 & N2) & _). destruct ex3 as [U _].
  destruct (paired_runs cauchy argsort_ref (less_by 1 [1; 2; 4]) [1; 3; 2] f0 "two-sided" (1 / 10) argsort_ref_sorts U eq_refl ltac:(now left)) as (r' & H').
  exists r, r', s. auto.
Qed.
(** ... and a bounded interval of the relative difference with a lift of a half *)
Example c99_relative_example : exists ci,
  relative_difference_confidence_interval cauchy (Fin 5) (Fin 4) (Fin 1) (Fin 1) (Fin (1 / 2)) (Fin 10) "two-sided" alpha2 = Ok ci /\
  (in_interval ci (1 / 2) <-> central "two-sided" alpha2 (td_cdf cauchy (Fin 10) (lift_deviation 5 4 1 1 (1 / 2) (1 / 2)))).
Proof.
  destruct bounded_example as (lo & hi & E & _). exists (Fin lo, Fin hi). split; [exact E|].
  apply c99_relative_interval_covers_the_true_lift; auto using alpha2_range; try lra.
  - exact df10.
  - change (level "two-sided" alpha2) with (alpha2 / 2). rewrite ppf_2. lra.
Qed.

Print Assumptions c99_interval_holds_what_the_independent_test_does_not_reject.
Print Assumptions c99_interval_holds_what_the_paired_test_does_not_reject.
Print Assumptions c99_absolute_interval_covers_the_true_difference.
Print Assumptions c99_relative_interval_covers_the_true_lift.
