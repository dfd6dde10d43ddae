(** C50, C55, C61: p-values, degrees of freedom, minimum detectable effects; C51 core. *)
From Coq Require Import ZArith Reals Lra Lia List String Bool.
From Flocq Require Import Core BinarySingleNaN.
Require Import Verif.Base Verif.Num Verif.NumOrd Verif.F64 Verif.ListLib
  Verif.Trimmed_Model Verif.Stats_Model Verif.Stats_Num.
Import ListNotations.
Open Scope string_scope.
Open Scope R_scope.

(** *** An instance of the t distribution: Cauchy (t with one degree of freedom) at every df *)
Lemma cauchy_incr x y : x < y -> 1 / 2 + atan x / PI < 1 / 2 + atan y / PI.
Proof.
  intros H. assert (K := atan_increasing _ _ H). assert (P := PI_RGT_0).
  assert (atan x / PI < atan y / PI); [|lra]. apply Rmult_lt_compat_r; auto. now apply Rinv_0_lt_compat.
Qed.
Lemma cauchy_range x : 0 < 1 / 2 + atan x / PI < 1.
Proof.
  assert (P := PI_RGT_0). destruct (atan_bound x) as [A B].
  assert (- (1 / 2) < atan x / PI < 1 / 2); [|lra].
  split; apply Rmult_lt_reg_r with PI; auto; unfold Rdiv; rewrite ?Rmult_assoc, Rinv_l, ?Rmult_1_r by lra; lra.
Qed.
Definition cauchy : tdist.
Proof.
  refine (mkTD (fun _ x => 1 / 2 + atan x / PI) (fun _ q => tan (PI * (q - 1 / 2))) _ _ _ _).
  - intros df x y _. apply cauchy_incr.
  - intros df x _. rewrite atan_opp. field. apply PI_neq0.
  - intros df x _. apply cauchy_range.
  - intros df q _ Hq. assert (P := PI_RGT_0). rewrite atan_tan by (split; nra). field. lra.
Defined.

Section Props.
Context (T : tdist).

Lemma cdf_lt df x y : valid_df df = true -> (td_cdf T df x < td_cdf T df y <-> x < y).
Proof.
  intros V. split; [|now apply td_incr]. intros H. destruct (Rtotal_order x y) as [K|[K|K]]; auto.
  - subst. lra.
  - apply (td_incr T df) in K; auto. lra.
Qed.
Lemma cdf_0 df : valid_df df = true -> td_cdf T df 0 = 1 / 2.
Proof. intros V. assert (H := td_sym T df 0 V). rewrite Ropp_0 in H. lra. Qed.
Lemma ppf_pos df q : valid_df df = true -> 1 / 2 < q < 1 -> 0 < td_ppf T df q.
Proof. intros V H. apply (cdf_lt df); auto. rewrite cdf_0, td_inv; auto; lra. Qed.
Lemma ppf_nonneg df q : valid_df df = true -> 1 / 2 <= q < 1 -> 0 <= td_ppf T df q.
Proof.
  intros V H. apply Rnot_lt_le. intros K. apply (td_incr T df) in K; auto. rewrite cdf_0, td_inv in K; auto; lra.
Qed.
Lemma ppf_lt df p q : valid_df df = true -> 0 < p < 1 -> 0 < q < 1 -> (td_ppf T df p < td_ppf T df q <-> p < q).
Proof. intros V Hp Hq. rewrite <- (cdf_lt df) by auto. now rewrite !td_inv. Qed.
Lemma ppf_opp df q : valid_df df = true -> 0 < q < 1 -> td_ppf T df (1 - q) = - td_ppf T df q.
Proof.
  intros V Hq.
  assert (E : td_cdf T df (td_ppf T df (1 - q)) = td_cdf T df (- td_ppf T df q)).
  { rewrite td_sym, !td_inv; auto; lra. }
  destruct (Rtotal_order (td_ppf T df (1 - q)) (- td_ppf T df q)) as [K|[K|K]]; auto;
    apply (td_incr T df) in K; auto; lra.
Qed.
Lemma t_ppf_fin df q : valid_df df = true -> 0 < q < 1 -> t_ppf T df q = Fin (td_ppf T df q).
Proof. intros V H. unfold t_ppf. now rewrite V, !Rlt_bool_true by lra. Qed.
Lemma t_cdf_fin df x : valid_df df = true -> t_cdf T df (Fin x) = Fin (td_cdf T df x).
Proof. intros V. unfold t_cdf. now rewrite V. Qed.

(** C50: the p-values of an estimate [x] with standard error [s] *)
Theorem c50_p_values_are_coherent :
  forall df x s, valid_df df = true -> 0 < s ->
    exists less greater,
      ttest_from_stats T (Fin x) (Fin s) df "less" = Ok (Fin (x / s), Fin less) /\
      ttest_from_stats T (Fin x) (Fin s) df "greater" = Ok (Fin (x / s), Fin greater) /\
      ttest_from_stats T (Fin x) (Fin s) df "two-sided" = Ok (Fin (x / s), Fin (2 * Rmin less greater)) /\
      less + greater = 1 /\ 0 < less < 1 /\ (less < greater <-> x < 0) /\ (less = greater <-> x = 0) /\
      (* sign change *)
      ttest_from_stats T (Fin (- x)) (Fin s) df "less" = Ok (Fin (- (x / s)), Fin greater) /\
      ttest_from_stats T (Fin (- x)) (Fin s) df "greater" = Ok (Fin (- (x / s)), Fin less) /\
      ttest_from_stats T (Fin (- x)) (Fin s) df "two-sided" = Ok (Fin (- (x / s)), Fin (2 * Rmin less greater)) /\
      (* a larger estimate is less compatible with "greater" being false *)
      forall y, x < y -> exists less' greater',
        ttest_from_stats T (Fin y) (Fin s) df "less" = Ok (Fin (y / s), Fin less') /\ less < less' /\
        ttest_from_stats T (Fin y) (Fin s) df "greater" = Ok (Fin (y / s), Fin greater') /\ greater' < greater.
Proof.
  intros df x s V Hs.
  assert (D : forall y, ndiv (Fin y) (Fin s) = Fin (y / s)) by (intros; apply ndiv_fin; lra).
  assert (OP : forall y, - y / s = - (y / s)) by (intros; field; lra).
  assert (LS : forall y, ttest_from_stats T (Fin y) (Fin s) df "less" = Ok (Fin (y / s), Fin (td_cdf T df (y / s)))).
  { intros y. unfold ttest_from_stats. rewrite D. cbn [String.eqb Ascii.eqb Bool.eqb]. now rewrite t_cdf_fin. }
  assert (GR : forall y, ttest_from_stats T (Fin y) (Fin s) df "greater" = Ok (Fin (y / s), Fin (1 - td_cdf T df (y / s)))).
  { intros y. unfold ttest_from_stats. rewrite D. cbn [String.eqb Ascii.eqb Bool.eqb]. rewrite nmul_neg1. cbn [nneg].
    now rewrite t_cdf_fin, td_sym. }
  assert (TS : forall y, ttest_from_stats T (Fin y) (Fin s) df "two-sided" =
    Ok (Fin (y / s), Fin (2 * Rmin (td_cdf T df (y / s)) (1 - td_cdf T df (y / s))))).
  { intros y. unfold ttest_from_stats. rewrite D. cbn [String.eqb Ascii.eqb Bool.eqb nabs]. rewrite nmul_neg1. cbn [nneg].
    rewrite t_cdf_fin by auto. cbn [nmul]. do 4 f_equal.
    unfold Rabs. destruct (Rcase_abs (y / s)) as [K|K].
    - rewrite Ropp_involutive. assert (H := td_incr T df _ _ V K). rewrite cdf_0 in H by auto. rewrite Rmin_left; lra.
    - rewrite td_sym by auto. assert (H : 1 / 2 <= td_cdf T df (y / s)).
      { rewrite <- (cdf_0 df V). destruct (Rge_le _ _ K) as [K'|K'].
        - now apply Rlt_le, td_incr.
        - rewrite <- K'. lra. }
      rewrite Rmin_right; lra. }
  assert (QS : forall y z, y < z -> y / s < z / s) by (intros; apply Rmult_lt_compat_r; auto; now apply Rinv_0_lt_compat).
  assert (Q0 : forall y, y = 0 -> y / s = 0) by (intros y ->; unfold Rdiv; ring).
  assert (C0 := cdf_0 df V).
  exists (td_cdf T df (x / s)), (1 - td_cdf T df (x / s)).
  assert (HN := td_range T df (x / s) V).
  split; [apply LS|]. split; [apply GR|]. split; [apply TS|]. split; [ring|]. split; [exact HN|].
  assert (TRI : (x < 0 -> td_cdf T df (x / s) < 1 / 2) /\ (x = 0 -> td_cdf T df (x / s) = 1 / 2) /\ (0 < x -> 1 / 2 < td_cdf T df (x / s))).
  { split; [|split].
    - intros H. rewrite <- C0. apply td_incr; auto. rewrite <- (Q0 0 eq_refl). auto.
    - intros H. now rewrite (Q0 x H).
    - intros H. rewrite <- C0. apply td_incr; auto. rewrite <- (Q0 0 eq_refl). auto. }
  destruct TRI as (T1 & T2 & T3).
  split. { split; intros H; [|specialize (T1 H); lra].
    destruct (Rtotal_order x 0) as [K|[K|K]]; auto; [specialize (T2 K)|specialize (T3 K)]; lra. }
  split. { split; intros H; [|specialize (T2 H); lra].
    destruct (Rtotal_order x 0) as [K|[K|K]]; auto; [specialize (T1 K)|specialize (T3 K)]; lra. }
  split. { rewrite LS, OP, td_sym by auto. reflexivity. }
  split. { rewrite GR, OP, td_sym by auto. do 3 f_equal. ring. }
  split. { rewrite TS, OP, td_sym by auto. do 4 f_equal. rewrite Rmin_comm. f_equal. ring. }
  intros y H. exists (td_cdf T df (y / s)), (1 - td_cdf T df (y / s)).
  assert (K := td_incr T df _ _ V (QS _ _ H)).
  split; [apply LS|]. split; [exact K|]. split; [apply GR|lra].
Qed.

Theorem c50_other_alternatives_are_rejected :
  forall df x s alternative, ~ In alternative ["two-sided"; "greater"; "less"] ->
    exists msg, ttest_from_stats T x s df alternative = Err (ValueError msg).
Proof.
  intros df x s a H. unfold ttest_from_stats.
  destruct (String.eqb_spec a "two-sided"); [exfalso; apply H; left; auto|].
  destruct (String.eqb_spec a "greater"); [exfalso; apply H; right; left; auto|].
  destruct (String.eqb_spec a "less"); [exfalso; apply H; right; right; left; auto|].
  eexists. reflexivity.
Qed.

(** *** C55 *)

Lemma welch_bounds a b p q : 0 <= a -> 0 <= b -> 0 < a + b -> 0 < p -> 0 < q ->
  Rmin p q <= (a + b) * (a + b) / (a * a / p + b * b / q) <= p + q.
Proof.
  intros Ha Hb Hab Hp Hq.
  assert (Ia : 0 <= a * a / p) by (apply Rmult_le_pos; [nra|]; apply Rlt_le, Rinv_0_lt_compat; lra).
  assert (Ib : 0 <= b * b / q) by (apply Rmult_le_pos; [nra|]; apply Rlt_le, Rinv_0_lt_compat; lra).
  assert (Ea : a * a / p * p = a * a) by (field; lra). assert (Eb : b * b / q * q = b * b) by (field; lra).
  set (u := a * a / p) in *. set (v := b * b / q) in *.
  assert (D : 0 < u + v).
  { destruct (Rle_lt_or_eq_dec 0 (u + v)) as [|K]; auto; [lra|exfalso].
    assert (u = 0) by lra. assert (v = 0) by lra.
    assert (a * a = 0) by (rewrite <- Ea, H; ring). assert (b * b = 0) by (rewrite <- Eb, H0; ring).
    assert (a = 0) by (destruct (Rmult_integral a a); auto). assert (b = 0) by (destruct (Rmult_integral b b); auto). lra. }
  split; apply Rmult_le_reg_r with (u + v); auto; unfold Rdiv; rewrite ?Rmult_assoc, Rinv_l, ?Rmult_1_r by lra.
  - apply Rle_trans with (a * a + b * b); [|nra].
    assert (M1 := Rmin_l p q). assert (M2 := Rmin_r p q). rewrite <- Ea, <- Eb. nra.
  - (* Cauchy-Schwarz *)
    replace ((p + q) * (u + v)) with (a * a + b * b + (u * q + v * p)) by (rewrite <- Ea, <- Eb; ring).
    assert (K : 2 * (a * b) <= u * q + v * p); [|nra].
    apply Rmult_le_reg_r with (p * q); [nra|].
    replace ((u * q + v * p) * (p * q)) with ((a * q) * (a * q) + (b * p) * (b * p)) by
      (replace ((u * q + v * p) * (p * q)) with (u * p * (q * q) + v * q * (p * p)) by ring; rewrite Ea, Eb; ring).
    apply Rminus_le. replace (2 * (a * b) * (p * q) - (a * q * (a * q) + b * p * (b * p))) with (- Rsqr (a * q - b * p)) by (unfold Rsqr; ring).
    generalize (Rle_0_sqr (a * q - b * p)). lra.
Qed.

(** sample sizes are real numbers above 1: the code also uses half sample sizes *)
Theorem c55_degrees_of_freedom :
  forall s1 s2 n1 n2, 1 < n1 -> 1 < n2 -> 0 <= s1 -> 0 <= s2 ->
    two_sample_degrees_of_freedom (Fin s1) (Fin s2) (Fin n1) (Fin n2) true = Fin (n1 + n2 - 2) /\
    (0 < s1 + s2 -> exists df,
      two_sample_degrees_of_freedom (Fin s1) (Fin s2) (Fin n1) (Fin n2) false = Fin df /\
      Rmin n1 n2 - 1 <= df <= n1 + n2 - 2) /\
    (s1 = 0 -> s2 = 0 -> two_sample_degrees_of_freedom (Fin s1) (Fin s2) (Fin n1) (Fin n2) false = NaN) /\
    one_sample_degrees_of_freedom (Fin n1) = Fin (n1 - 1).
Proof.
  intros s1 s2 n1 n2 H1 H2 P1 P2.
  split; [reflexivity|].
  assert (EX : two_sample_degrees_of_freedom (Fin s1) (Fin s2) (Fin n1) (Fin n2) false =
    ndiv (Fin ((s1 * s1 / n1 + s2 * s2 / n2) * (s1 * s1 / n1 + s2 * s2 / n2)))
         (Fin (s1 * s1 / n1 * (s1 * s1 / n1) / (n1 - 1) + s2 * s2 / n2 * (s2 * s2 / n2) / (n2 - 1)))).
  { unfold two_sample_degrees_of_freedom, nsq. cbn [nmul]. rewrite !ndiv_fin by lra. cbn [nadd nmul nsub nneg].
    rewrite !ndiv_fin by lra. reflexivity. }
  split; [|split; [|reflexivity]].
  - intros HS.
    set (a := s1 * s1 / n1) in *. set (b := s2 * s2 / n2) in *.
    assert (A : 0 <= a) by (apply Rmult_le_pos; [nra|]; apply Rlt_le, Rinv_0_lt_compat; lra).
    assert (B : 0 <= b) by (apply Rmult_le_pos; [nra|]; apply Rlt_le, Rinv_0_lt_compat; lra).
    assert (AB : 0 < a + b).
    { destruct (Rlt_dec 0 s1) as [K|K].
      - assert (0 < a) by (apply Rmult_lt_0_compat; [nra|]; apply Rinv_0_lt_compat; lra). lra.
      - assert (0 < s2) by lra. assert (0 < b) by (apply Rmult_lt_0_compat; [nra|]; apply Rinv_0_lt_compat; lra). lra. }
    assert (W := welch_bounds a b (n1 - 1) (n2 - 1) A B AB ltac:(lra) ltac:(lra)).
    assert (D : a * a / (n1 - 1) + b * b / (n2 - 1) <> 0).
    { assert (0 < Rmin (n1 - 1) (n2 - 1)) by (apply Rmin_glb_lt; lra). intros E. rewrite E in W. unfold Rdiv in W. rewrite Rinv_0 in W. lra. }
    exists ((a + b) * (a + b) / (a * a / (n1 - 1) + b * b / (n2 - 1))).
    split; [rewrite EX; now apply ndiv_fin|].
    replace (Rmin n1 n2 - 1) with (Rmin (n1 - 1) (n2 - 1)) by (unfold Rmin; destruct (Rle_dec (n1 - 1) (n2 - 1)), (Rle_dec n1 n2); lra).
    lra.
  - intros -> ->. rewrite EX. unfold Rdiv. rewrite !Rmult_0_l, !Rplus_0_r, !Rmult_0_l. cbn [ndiv].
    rewrite Req_bool_true by reflexivity. apply ninf_of_0.
Qed.

Theorem c55_standard_errors :
  forall s1 s2 n1 n2 equal_var, 1 < n1 -> 1 < n2 -> 0 <= s1 -> 0 <= s2 ->
    exists se e1 e2,
      two_sample_standard_errors (Fin s1) (Fin s2) (Fin n1) (Fin n2) equal_var = (Fin se, Fin e1, Fin e2) /\
      0 <= se /\ 0 <= e1 /\ 0 <= e2 /\ se ^ 2 = e1 ^ 2 + e2 ^ 2 /\
      if equal_var then
        let pooled := ((n1 - 1) * s1 ^ 2 + (n2 - 1) * s2 ^ 2) / (n1 + n2 - 2) in
        e1 ^ 2 = pooled / n1 /\ e2 ^ 2 = pooled / n2
      else e1 ^ 2 = s1 ^ 2 / n1 /\ e2 ^ 2 = s2 ^ 2 / n2.
Proof.
  intros s1 s2 n1 n2 ev H1 H2 P1 P2.
  assert (POS : forall v n, 0 <= v -> 1 < n -> 0 <= v / n) by (intros; apply Rmult_le_pos; auto; apply Rlt_le, Rinv_0_lt_compat; lra).
  unfold two_sample_standard_errors, nsq. destruct ev.
  - cbn [nmul nadd nsub nneg]. rewrite ndiv_fin by lra.
    set (p := ((n1 + - (1)) * (s1 * s1) + (n2 + - (1)) * (s2 * s2)) / (n1 + n2 + - (2))).
    assert (Pp : 0 <= p).
    { unfold p. apply Rmult_le_pos; [|apply Rlt_le, Rinv_0_lt_compat; lra].
      assert (0 <= (n1 + -(1)) * (s1 * s1)) by (apply Rmult_le_pos; [lra|nra]).
      assert (0 <= (n2 + -(1)) * (s2 * s2)) by (apply Rmult_le_pos; [lra|nra]). lra. }
    rewrite !ndiv_fin by lra. cbn [nadd].
    assert (A := POS p n1 Pp H1). assert (B := POS p n2 Pp H2).
    rewrite !nsqrt_fin by lra.
    exists (sqrt (p / n1 + p / n2)), (sqrt (p / n1)), (sqrt (p / n2)).
    split; [reflexivity|]. do 3 (split; [apply sqrt_pos|]). rewrite !pow2_sqrt by lra. split; [reflexivity|].
    cbv zeta. replace (((n1 - 1) * s1 ^ 2 + (n2 - 1) * s2 ^ 2) / (n1 + n2 - 2)) with p by (unfold p; f_equal; ring).
    split; reflexivity.
  - cbn [nmul]. rewrite !ndiv_fin by lra. cbn [nadd].
    assert (A := POS (s1 * s1) n1 ltac:(nra) H1). assert (B := POS (s2 * s2) n2 ltac:(nra) H2).
    rewrite !nsqrt_fin by lra.
    exists (sqrt (s1 * s1 / n1 + s2 * s2 / n2)), (sqrt (s1 * s1 / n1)), (sqrt (s2 * s2 / n2)).
    split; [reflexivity|]. do 3 (split; [apply sqrt_pos|]). rewrite !pow2_sqrt by lra.
    split; [reflexivity|]. split; f_equal; ring.
Qed.

(** *** C61 *)

(** the level at which the critical value is taken *)
Definition level (alternative : string) (alpha : R) : R := if alternative =? "two-sided" then alpha / 2 else alpha.
Definition known (alternative : string) : Prop := In alternative ["two-sided"; "greater"; "less"].

Theorem c61_minimum_detectable_effect :
  forall df se alternative power alpha, known alternative -> valid_df df = true ->
    0 < power < 1 -> 0 < level alternative alpha < 1 -> 0 <= se ->
    exists mde, minimum_detectable_effect_from_stats T (Fin se) df alternative power alpha = Ok (Fin mde) /\
      mde = se * (td_ppf T df (1 - level alternative alpha) + td_ppf T df power) /\
      (* "always positive" holds exactly when the power exceeds the level *)
      (0 < se -> (0 < mde <-> level alternative alpha < power)) /\
      (* increasing in power, decreasing in alpha, linear in the standard error *)
      (forall power' alpha', 0 < power' < 1 -> 0 < level alternative alpha' < 1 -> power <= power' ->
        level alternative alpha' <= level alternative alpha ->
        exists mde', minimum_detectable_effect_from_stats T (Fin se) df alternative power' alpha' = Ok (Fin mde') /\
          mde <= mde' /\ (0 < se -> power < power' \/ level alternative alpha' < level alternative alpha -> mde < mde')) /\
      (forall c, minimum_detectable_effect_from_stats T (Fin (c * se)) df alternative power alpha = Ok (Fin (c * mde))).
Proof.
  intros df se a power alpha HK V HP HL Hs.
  assert (FORM : forall s p al, 0 < p < 1 -> 0 < level a al < 1 ->
    minimum_detectable_effect_from_stats T (Fin s) df a p al = Ok (Fin (s * (td_ppf T df (1 - level a al) + td_ppf T df p)))).
  { intros s p al Hp Hl. unfold minimum_detectable_effect_from_stats, level in *.
    destruct HK as [<-|[<-|[<-|[]]]]; cbn [String.eqb Ascii.eqb Bool.eqb orb bind] in *; now rewrite !t_ppf_fin by (auto; lra). }
  assert (MON : forall p q, 0 < p < 1 -> 0 < q < 1 -> p <= q -> td_ppf T df p <= td_ppf T df q).
  { intros p q Hp Hq H. destruct H as [H|H]; [|subst; lra]. apply Rlt_le. now apply ppf_lt. }
  exists (se * (td_ppf T df (1 - level a alpha) + td_ppf T df power)).
  split; [now apply FORM|]. split; [reflexivity|]. split; [|split].
  - intros Ps. rewrite ppf_opp by auto.
    assert (E := ppf_lt df (level a alpha) power V HL HP).
    split; intros H.
    + apply E. nra.
    + apply E in H. nra.
  - intros p' a' Hp' Ha' Hpp Hll.
    exists (se * (td_ppf T df (1 - level a a') + td_ppf T df p')). split; [now apply FORM|].
    assert (M1 := MON power p' HP Hp' Hpp). assert (M2 := MON (1 - level a alpha) (1 - level a a') ltac:(lra) ltac:(lra) ltac:(lra)).
    split; [nra|]. intros Ps [H|H].
    + assert (td_ppf T df power < td_ppf T df p') by (now apply ppf_lt). nra.
    + assert (td_ppf T df (1 - level a alpha) < td_ppf T df (1 - level a a')) by (apply ppf_lt; auto; lra). nra.
  - intros c. rewrite FORM by auto. do 2 f_equal. ring.
Qed.

(** standard errors and degrees of freedom used for the two designs *)
Theorem c61_standard_errors_of_the_designs :
  forall sd n alternative power alpha, 0 <= sd -> 2 < n ->
    ind_minimum_detectable_effect T (Fin sd) (Fin n) alternative power alpha =
      minimum_detectable_effect_from_stats T (Fin (2 * sd / sqrt n)) (Fin (n - 2)) alternative power alpha /\
    paired_minimum_detectable_effect T (Fin sd) (Fin n) alternative power alpha =
      minimum_detectable_effect_from_stats T (Fin (sd / sqrt n)) (Fin (n - 1)) alternative power alpha.
Proof.
  intros sd n a power alpha Hs Hn. assert (SQ : 0 < sqrt n) by (apply sqrt_lt_R0; lra). split.
  - unfold ind_minimum_detectable_effect, two_sample_standard_errors, two_sample_degrees_of_freedom, nsq.
    cbn [nmul nsub nneg nadd]. rewrite (ndiv_fin _ (1 / 2 * n + 1 / 2 * n + - (2))) by lra.
    rewrite !ndiv_fin by lra. cbn [nadd].
    set (pv := ((1 / 2 * n + - (1)) * (sd * sd) + (1 / 2 * n + - (1)) * (sd * sd)) / (1 / 2 * n + 1 / 2 * n + - (2))).
    assert (Ep : pv = sd * sd) by (unfold pv; field; lra). rewrite Ep.
    assert (ES : sd * sd / (1 / 2 * n) + sd * sd / (1 / 2 * n) = (2 * sd / sqrt n) * (2 * sd / sqrt n)).
    { transitivity (4 * (sd * sd) / (sqrt n * sqrt n)); [rewrite sqrt_sqrt by lra; field; lra|field; lra]. }
    rewrite ES.
    assert (P : 0 <= 2 * sd / sqrt n) by (apply Rmult_le_pos; [lra|]; now apply Rlt_le, Rinv_0_lt_compat).
    assert (EF : forall x y : R, x = y -> Fin x = Fin y) by congruence.
    rewrite nsqrt_fin by nra. rewrite sqrt_square by auto.
    f_equal. apply EF. lra.
  - unfold paired_minimum_detectable_effect, one_sample_standard_error, one_sample_degrees_of_freedom.
    rewrite nsqrt_fin by lra. rewrite ndiv_fin by lra. reflexivity.
Qed.
End Props.

(** "the minimum detectable effect is always positive" fails when the power is below the level *)
Theorem c61_always_positive_refuted :
  exists T df se power alpha mde, valid_df df = true /\ 0 < power < 1 /\ 0 < alpha < 1 /\ 0 < se /\
    minimum_detectable_effect_from_stats T (Fin se) df "two-sided" power alpha = Ok (Fin mde) /\ mde < 0.
Proof.
  exists cauchy, (Fin 10), 1, (1 / 100), (1 / 10).
  assert (V : valid_df (Fin 10) = true) by (simpl; apply Rlt_bool_true; lra).
  destruct (c61_minimum_detectable_effect cauchy (Fin 10) 1 "two-sided" (1 / 100) (1 / 10)) as (mde & E & EM & HP & _);
    try (now left); auto; unfold level; cbn [String.eqb Ascii.eqb Bool.eqb]; try lra.
  exists mde. split; auto. split; [lra|]. split; [lra|]. split; [lra|]. split; auto.
  rewrite EM. unfold level. cbn [String.eqb Ascii.eqb Bool.eqb].
  rewrite (ppf_opp cauchy (Fin 10) (1 / 10 / 2)) by (auto; lra).
  assert (K : td_ppf cauchy (Fin 10) (1 / 100) < td_ppf cauchy (Fin 10) (1 / 10 / 2)) by (apply ppf_lt; auto; lra). lra.
Qed.

Example c50_example : valid_df (Fin 10) = true /\ 0 < 2.
Proof. split; [simpl; apply Rlt_bool_true|]; lra. Qed.
Example c55_example : (1 < 5 /\ 1 < 7 /\ 0 <= 2 /\ 0 <= 3 /\ 0 < 2 + 3)%R.
Proof. lra. Qed.
Example c61_example : known "two-sided" /\ valid_df (Fin 18) = true /\ 0 < level "two-sided" (1 / 20) < 8 / 10.
Proof. split; [now left|]. split; [simpl; apply Rlt_bool_true|unfold level; cbn [String.eqb Ascii.eqb Bool.eqb]]; lra. Qed.

Print Assumptions c50_p_values_are_coherent.
Print Assumptions c50_other_alternatives_are_rejected.
Print Assumptions c55_degrees_of_freedom.
Print Assumptions c55_standard_errors.
Print Assumptions c61_minimum_detectable_effect.
Print Assumptions c61_standard_errors_of_the_designs.
Print Assumptions c61_always_positive_refuted.
