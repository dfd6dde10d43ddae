(** Lemmas about the two t-tests. *)
From Coq Require Import ZArith Reals Lra Lia List String Bool Permutation Sorting.Sorted.
From Flocq Require Import Core BinarySingleNaN.
Require Import Verif.Base Verif.Num Verif.NumOrd Verif.F64 Verif.ListLib
  Verif.Trimmed_Model Verif.Trimmed_Spec Verif.Moments Verif.Trimmed_Proofs Verif.Trimmed_Real Verif.Trimmed_Props
  Verif.Cuped_Props Verif.Stats_Model Verif.Stats_Num Verif.Stats_Props.
Import ListNotations.
Open Scope string_scope.
Open Scope list_scope.
Open Scope R_scope.

(** 0 lies strictly outside the interval (never the case for NaN bounds) *)
Definition outside0 (lo hi : num) : Prop := nltb (Fin 0) lo = true \/ nltb hi (Fin 0) = true.

Section Tests.
Context (T : tdist).

Lemma abs_ci_fin m1 m2 e1 e2 rho df s alternative alpha :
  known alternative -> valid_df df = true -> 0 < alpha < 1 -> 0 <= s ->
  s * s = e1 * e1 + e2 * e2 - 2 * (e1 * e2 * rho) ->
  let t := td_ppf T df (1 - level alternative alpha) in
  absolute_difference_confidence_interval T (Fin m1) (Fin m2) (Fin e1) (Fin e2) (Fin rho) df alternative alpha =
  Ok (if alternative =? "less" then NInf else Fin (m1 - m2 - t * s),
      if alternative =? "greater" then PInf else Fin (m1 - m2 + t * s)).
Proof.
  intros HK V Ha Hs ES t. unfold absolute_difference_confidence_interval, nsq. cbn [nmul nadd nsub nneg].
  replace (e1 * e1 + e2 * e2 + - (2 * (e1 * e2 * rho))) with (s * s) by (rewrite ES; ring).
  rewrite nsqrt_fin by nra. rewrite sqrt_square by auto.
  unfold t, level.
  destruct HK as [<-|[<-|[<-|[]]]]; cbn [String.eqb Ascii.eqb Bool.eqb]; rewrite t_ppf_fin by (auto; lra); cbn [nmul nsub nneg nadd]; reflexivity.
Qed.

(** significance and the absolute interval *)
Lemma core_duality d s df alternative alpha sp :
  known alternative -> valid_df df = true -> 0 < alpha < 1 -> 0 < s ->
  ttest_from_stats T (Fin d) (Fin s) df alternative = Ok sp ->
  let t := td_ppf T df (1 - level alternative alpha) in
  let lo := if alternative =? "less" then NInf else Fin (d - t * s) in
  let hi := if alternative =? "greater" then PInf else Fin (d + t * s) in
  (nltb (snd sp) (Fin alpha) = true <-> outside0 lo hi) /\
  (alternative = "two-sided" \/ alpha <= 1 / 2 -> nleb lo (Fin d) = true /\ nleb (Fin d) hi = true).
Proof.
  intros HK V Ha Hs HT t lo hi.
  destruct (c50_p_values_are_coherent T df d s V Hs) as (pl & pg & EL & EG & ET & HS & HR & HO & _ ).
  assert (PL : pl = td_cdf T df (d / s)).
  { unfold ttest_from_stats in EL. rewrite ndiv_fin in EL by lra. cbn [String.eqb Ascii.eqb Bool.eqb] in EL.
    rewrite t_cdf_fin in EL by auto. congruence. }
  assert (CMP : forall u, (u < d / s <-> u * s < d)).
  { intros u. split; intros H.
    - apply Rmult_lt_compat_r with (r := s) in H; auto. unfold Rdiv in H. rewrite Rmult_assoc, Rinv_l, Rmult_1_r in H; lra.
    - apply Rmult_lt_reg_r with s; auto. unfold Rdiv. rewrite Rmult_assoc, Rinv_l, Rmult_1_r; lra. }
  assert (CMP' : forall u, (d / s < u <-> d < u * s)).
  { intros u. split; intros H.
    - apply Rmult_lt_compat_r with (r := s) in H; auto. unfold Rdiv in H. rewrite Rmult_assoc, Rinv_l, Rmult_1_r in H; lra.
    - apply Rmult_lt_reg_r with s; auto. unfold Rdiv. rewrite Rmult_assoc, Rinv_l, Rmult_1_r; lra. }
  assert (UP : forall a, 0 < a < 1 -> (pg < a <-> td_ppf T df (1 - a) * s < d)).
  { intros a H. rewrite <- CMP, <- (cdf_lt T df (td_ppf T df (1 - a)) (d / s)) by auto. rewrite td_inv by (auto; lra). rewrite <- PL. lra. }
  assert (DN : forall a, 0 < a < 1 -> (pl < a <-> d < - td_ppf T df (1 - a) * s)).
  { intros a H. rewrite <- (ppf_opp T df (1 - a)) by (auto; lra). replace (1 - (1 - a)) with a by ring.
    rewrite <- CMP', <- (cdf_lt T df (d / s) (td_ppf T df a)) by auto. rewrite td_inv by (auto; lra). now rewrite <- PL. }
  unfold outside0, lo, hi, t, level in *.
  destruct HK as [<-|[<-|[<-|[]]]]; cbn [String.eqb Ascii.eqb Bool.eqb] in *.
  - assert (E : sp = (Fin (d / s), Fin (2 * Rmin pl pg))) by congruence. rewrite E. cbn [fst snd].
    rewrite !nltb_fin. assert (A2 : 0 < alpha / 2 < 1) by lra. specialize (UP _ A2). specialize (DN _ A2).
    assert (TP := ppf_pos T df (1 - alpha / 2) V ltac:(lra)).
    split.
    + split.
      * intros H. unfold Rmin in H. destruct (Rle_dec pl pg).
        -- right. assert (pl < alpha / 2) by lra. apply DN in H0. nra.
        -- left. assert (pg < alpha / 2) by lra. apply UP in H0. lra.
      * intros [H|H].
        -- assert (pg < alpha / 2) by (apply UP; lra). generalize (Rmin_r pl pg). lra.
        -- assert (pl < alpha / 2) by (apply DN; lra). generalize (Rmin_l pl pg). lra.
    + intros _. rewrite !nleb_fin. nra.
  - assert (E : sp = (Fin (d / s), Fin pg)) by congruence. rewrite E. cbn [fst snd]. rewrite !nltb_fin.
    specialize (UP alpha Ha). split.
    + split; [intros H; left; apply UP in H; lra|]. intros [H|H]; [apply UP; lra|discriminate].
    + intros [K|K]; [discriminate|]. assert (TP := ppf_nonneg T df (1 - alpha) V ltac:(lra)). rewrite nleb_fin. split; [nra|reflexivity].
  - assert (E : sp = (Fin (d / s), Fin pl)) by congruence. rewrite E. cbn [fst snd]. rewrite !nltb_fin.
    specialize (DN alpha Ha). split.
    + split; [intros H; right; apply DN in H; lra|]. intros [H|H]; [discriminate|apply DN; lra].
    + intros [K|K]; [discriminate|]. assert (TP := ppf_nonneg T df (1 - alpha) V ltac:(lra)). rewrite nleb_fin. split; [reflexivity|nra].
Qed.

(** the fields of a result *)
Record finished (div : num -> num -> result num) (abs_diff se m1 m2 e1 e2 corr df : num) (n : nat)
  (alternative : string) (alpha : R) (r : tresult) : Prop := {
  fi_known : known alternative;
  fi_test : ttest_from_stats T abs_diff se df alternative = Ok (r_statistic r, r_p_value r);
  fi_sig : r_significant r = nltb (r_p_value r) (Fin alpha);
  fi_ci : absolute_difference_confidence_interval T m1 m2 e1 e2 corr df alternative alpha = Ok (r_abs_lower r, r_abs_upper r);
  fi_abs : r_abs r = abs_diff;
  fi_se : r_standard_error r = se;
  fi_df : r_df r = df;
  fi_n : r_sample_size r = n;
  fi_alpha : r_alpha r = alpha;
  fi_control : r_control_average r = m2;
  fi_rel : if (nleb (Fin 0) m1 && nleb (Fin 0) m2)%bool then
      exists ratio lo hi, div m1 m2 = Ok ratio /\
        relative_difference_confidence_interval T m1 m2 e1 e2 corr df alternative alpha = Ok (lo, hi) /\
        r_rel r = Some (nsub ratio (Fin 1)) /\ r_rel_lower r = Some lo /\ r_rel_upper r = Some hi
    else r_rel r = None /\ r_rel_lower r = None /\ r_rel_upper r = None
}.

Lemma ttest_known d s df a sp : ttest_from_stats T d s df a = Ok sp -> known a.
Proof.
  unfold ttest_from_stats, known. simpl.
  destruct (String.eqb_spec a "two-sided"); [auto|]. destruct (String.eqb_spec a "greater"); [auto|].
  destruct (String.eqb_spec a "less"); [auto|]. discriminate.
Qed.

Lemma finish_test_ok div abs_diff se m1 m2 e1 e2 corr df n alternative alpha r :
  finish_test T div abs_diff se m1 m2 e1 e2 corr df n alternative alpha = Ok r ->
  finished div abs_diff se m1 m2 e1 e2 corr df n alternative alpha r.
Proof.
  unfold finish_test. intros H. apply bind_ok in H as ([st p] & HT & H). apply bind_ok in H as ([lo hi] & HC & H).
  apply bind_ok in H as ([[rel rlo] rhi] & HR & H). cbn [fst snd] in *.
  match type of H with Ok ?x = _ => assert (HX : x = r) by congruence end. clear H. subst r.
  constructor; cbn [r_significant r_alpha r_p_value r_statistic r_abs r_abs_lower r_abs_upper r_rel r_rel_lower r_rel_upper r_standard_error r_sample_size r_df r_control_average]; auto.
  - eapply ttest_known; eauto.
  - destruct (nleb (Fin 0) m1 && nleb (Fin 0) m2)%bool.
    + apply bind_ok in HR as (ratio & HD & HR). apply bind_ok in HR as ([rl rh] & HI & HR). cbn [fst snd] in HR.
      exists ratio, rl, rh. repeat split; auto; congruence.
    + repeat split; congruence.
Qed.

(** two finite means and standard errors *)
Definition consistent (alternative : string) (alpha : R) (r : tresult) : Prop :=
  (r_significant r = true <-> nltb (r_p_value r) (Fin alpha) = true) /\
  (r_significant r = true <-> outside0 (r_abs_lower r) (r_abs_upper r)) /\
  (alternative = "two-sided" \/ alpha <= 1 / 2 ->
    nleb (r_abs_lower r) (r_abs r) = true /\ nleb (r_abs r) (r_abs_upper r) = true).

Lemma finished_consistent div m1 m2 e1 e2 rho s df n alternative alpha r :
  finished div (Fin (m1 - m2)) (Fin s) (Fin m1) (Fin m2) (Fin e1) (Fin e2) (Fin rho) df n alternative alpha r ->
  valid_df df = true -> 0 < alpha < 1 -> 0 < s -> s * s = e1 * e1 + e2 * e2 - 2 * (e1 * e2 * rho) ->
  consistent alternative alpha r.
Proof.
  intros F V Ha Hs ES. destruct F.
  rewrite (abs_ci_fin m1 m2 e1 e2 rho df s) in fi_ci0 by (auto; lra).
  destruct (core_duality (m1 - m2) s df alternative alpha _ fi_known0 V Ha Hs fi_test0) as [D E]. cbn [snd] in D.
  assert (E1 : r_abs_lower r = if alternative =? "less" then NInf else Fin (m1 - m2 - td_ppf T df (1 - level alternative alpha) * s)) by congruence.
  assert (E2 : r_abs_upper r = if alternative =? "greater" then PInf else Fin (m1 - m2 + td_ppf T df (1 - level alternative alpha) * s)) by congruence.
  unfold consistent. rewrite fi_sig0, fi_abs0, E1, E2. tauto.
Qed.
End Tests.

(** *** Data *)
Lemma fin_nsq x v : nmul x x = Fin v -> exists a, x = Fin a /\ v = a * a.
Proof.
  destruct x; simpl; try discriminate. intros E. exists r. split; congruence.
Qed.

Lemma two_se_fin v1 v2 n1 n2 ev se e1 e2 s :
  two_sample_standard_errors (nsqrt v1) (nsqrt v2) n1 n2 ev = (se, e1, e2) -> se = Fin s ->
  (exists a, n1 = Fin a) -> (exists b, n2 = Fin b) ->
  exists a b, v1 = Fin a /\ v2 = Fin b /\ 0 <= a /\ 0 <= b.
Proof.
  intros H HS [a ->] [b ->]. unfold two_sample_standard_errors, nsq in H.
  assert (X1 : forall x, notfin x -> notfin (nmul (nsqrt x) (nsqrt x))) by (intros; now apply notfin_nmul_l, notfin_nsqrt).
  assert (G : forall x, (notfin x -> False) -> (forall r, x = Fin r -> r < 0 -> False) -> exists r, x = Fin r /\ 0 <= r).
  { intros x A B. destruct x; try (exfalso; apply A; intros ?; discriminate). exists r. split; auto. apply Rnot_lt_le. eauto. }
  assert (NG : forall r, r < 0 -> nsqrt (Fin r) = NaN) by (intros; simpl; now rewrite Rlt_bool_true).
  assert (BAD : notfin NaN) by (intros ?; discriminate).
  assert (C1 : notfin (nmul (nsqrt v1) (nsqrt v1)) -> notfin se).
  { intros N. assert (ES := f_equal (fun p => fst (fst p)) H). cbv beta in ES. destruct ev; cbn [fst] in ES; rewrite <- ES; apply notfin_nsqrt, notfin_nadd_l, notfin_ndiv_l; auto.
    apply notfin_ndiv_l, notfin_nadd_l, notfin_nmul_r; auto. }
  assert (C2 : notfin (nmul (nsqrt v2) (nsqrt v2)) -> notfin se).
  { intros N. assert (ES := f_equal (fun p => fst (fst p)) H). cbv beta in ES. destruct ev; cbn [fst] in ES; rewrite <- ES; apply notfin_nsqrt, notfin_nadd_r, notfin_ndiv_l; auto.
    apply notfin_ndiv_l, notfin_nadd_r, notfin_nmul_r; auto. }
  destruct (G v1) as (r1 & -> & P1).
  { intros N. eapply C1; eauto. }
  { intros r -> K. rewrite NG in C1 by auto. eapply C1; eauto. }
  destruct (G v2) as (r2 & -> & P2).
  { intros N. eapply C2; eauto. }
  { intros r -> K. rewrite NG in C2 by auto. eapply C2; eauto. }
  exists r1, r2. auto.
Qed.

Section Ind.
Context (T : tdist).

(** what [finish_ind] computes for finite variances *)
Lemma finish_ind_ok div mean1 mean2 v1 v2 n1 n2 ev alternative alpha r :
  finish_ind T div mean1 mean2 v1 v2 n1 n2 ev alternative alpha = Ok r ->
  exists se e1 e2, two_sample_standard_errors (nsqrt v1) (nsqrt v2) (nnat n1) (nnat n2) ev = (se, e1, e2) /\
    finished T div (nsub mean1 mean2) se mean1 mean2 e1 e2 (Fin 0)
      (two_sample_degrees_of_freedom (nsqrt v1) (nsqrt v2) (nnat n1) (nnat n2) ev) (n1 + n2) alternative alpha r.
Proof.
  unfold finish_ind. intros H.
  destruct (two_sample_standard_errors (nsqrt v1) (nsqrt v2) (nnat n1) (nnat n2) ev) as [[se e1] e2].
  exists se, e1, e2. split; auto. now apply finish_test_ok.
Qed.

Lemma finish_ind_consistent div mean1 mean2 v1 v2 n1 n2 ev alternative alpha r s :
  finish_ind T div mean1 mean2 v1 v2 n1 n2 ev alternative alpha = Ok r ->
  (forall a, v1 = Fin a -> (2 <= n1)%nat /\ exists m, mean1 = Fin m) ->
  (forall a, v2 = Fin a -> (2 <= n2)%nat /\ exists m, mean2 = Fin m) ->
  r_standard_error r = Fin s -> 0 < s -> 0 < alpha < 1 ->
  consistent alternative alpha r /\ valid_df (r_df r) = true.
Proof.
  intros H H1 H2 HS Ps Ha. apply finish_ind_ok in H as (se & e1 & e2 & ES & F).
  assert (Ese := fi_se _ _ _ _ _ _ _ _ _ _ _ _ _ _ F). rewrite HS in Ese. symmetry in Ese.
  destruct (two_se_fin v1 v2 (nnat n1) (nnat n2) ev se e1 e2 s ES Ese ltac:(eexists; reflexivity) ltac:(eexists; reflexivity))
    as (a & b & -> & -> & Pa & Pb).
  destruct (H1 a eq_refl) as (N1 & m1 & ->). destruct (H2 b eq_refl) as (N2 & m2 & ->).
  rewrite !nsqrt_fin in * by auto.
  assert (R1 : 1 < INR n1) by (apply (lt_INR 1); lia). assert (R2 : 1 < INR n2) by (apply (lt_INR 1); lia).
  assert (Sa := sqrt_pos a). assert (Sb := sqrt_pos b).
  destruct (c55_standard_errors (sqrt a) (sqrt b) (INR n1) (INR n2) ev R1 R2 Sa Sb)
    as (se' & e1' & e2' & E & Q0 & Q1 & Q2 & QS & QV).
  fold (nnat n1) (nnat n2) in E. rewrite E in ES.
  assert (X : se = Fin se') by congruence. assert (X1 : e1 = Fin e1') by congruence. assert (X2 : e2 = Fin e2') by congruence.
  clear ES. subst e1 e2. rewrite X in F, Ese. assert (se' = s) by congruence. subst se'. clear X Ese.
  set (df := two_sample_degrees_of_freedom (Fin (sqrt a)) (Fin (sqrt b)) (nnat n1) (nnat n2) ev) in *.
  assert (V : valid_df df = true).
  { destruct (c55_degrees_of_freedom (sqrt a) (sqrt b) (INR n1) (INR n2) R1 R2 Sa Sb) as (D1 & D2 & _).
    unfold df, nnat. destruct ev.
    - rewrite D1. simpl. apply Rlt_bool_true. lra.
    - destruct D2 as (d & -> & B & _).
      + destruct (Rle_lt_or_eq_dec 0 (sqrt a) Sa) as [K|K]; [lra|].
        destruct (Rle_lt_or_eq_dec 0 (sqrt b) Sb) as [K'|K']; [lra|exfalso].
        destruct QV as [V1 V2]. rewrite <- K in V1. rewrite <- K' in V2.
        assert (s ^ 2 = 0) by (rewrite QS, V1, V2; unfold Rdiv; ring). nra.
      + simpl. apply Rlt_bool_true. assert (1 < Rmin (INR n1) (INR n2)) by (now apply Rmin_glb_lt). lra. }
  split.
  - rewrite nsub_fin in F. eapply (finished_consistent T div m1 m2 e1' e2' 0 s); eauto.
    simpl in QS. lra.
  - now rewrite (fi_df _ _ _ _ _ _ _ _ _ _ _ _ _ _ F).
Qed.
End Ind.
