(** C56-C58: the relative confidence interval. *)
From Coq Require Import ZArith Reals Lra Lia List String Bool.
From Flocq Require Import Core BinarySingleNaN.
Require Import Verif.Base Verif.Num Verif.NumOrd Verif.F64 Verif.ListLib
  Verif.Trimmed_Model Verif.Stats_Model Verif.Stats_Num Verif.Stats_Props Verif.Tests_Proofs Verif.Tests_Props.
Import ListNotations.
Open Scope string_scope.
Open Scope list_scope.
Open Scope R_scope.

(** Fieller's criterion: the ratio [x] of the means is compatible with the data at the critical value
    [t] when the estimate of m1 - x m2 is within t standard errors of 0 *)
Definition fieller (t m1 m2 v1 v2 v12 x : R) : Prop :=
  (m1 - x * m2) ^ 2 <= t ^ 2 * (v1 - 2 * x * v12 + x ^ 2 * v2).

(** *** The algebra *)
Section Algebra.
Context (t m1 m2 v1 v2 v12 : R) (P1 : 0 <= v1) (P2 : 0 <= v2) (CS : v12 ^ 2 <= v1 * v2).
Let A1 := m1 ^ 2 - t ^ 2 * v1.
Let A2 := m2 ^ 2 - t ^ 2 * v2.
Let A12 := m1 * m2 - t ^ 2 * v12.
Let D := A12 ^ 2 - A1 * A2.
Let N := m1 ^ 2 * v2 - 2 * m2 * m1 * v12 + m2 ^ 2 * v1.
Let Delta := v1 * v2 - v12 ^ 2.

Lemma disc : D = t ^ 2 * (N - t ^ 2 * Delta).
Proof. unfold D, A12, A1, A2, N, Delta. ring. Qed.
Lemma numer : v2 * N = m2 ^ 2 * Delta + (m1 * v2 - m2 * v12) ^ 2.
Proof. unfold N, Delta. ring. Qed.
Lemma numer1 : v1 * N = m1 ^ 2 * Delta + (m2 * v1 - m1 * v12) ^ 2.
Proof. unfold N, Delta. ring. Qed.
Lemma fieller_quadratic x : fieller t m1 m2 v1 v2 v12 x <-> A2 * x ^ 2 - 2 * A12 * x + A1 <= 0.
Proof. unfold fieller, A1, A2, A12. split; intros H; nra. Qed.

Lemma numer_nonneg : 0 <= N.
Proof.
  assert (DP : 0 <= Delta) by (unfold Delta; lra).
  destruct P2 as [Q|Q].
  - assert (H := numer). assert (0 <= m2 ^ 2 * Delta) by (apply Rmult_le_pos; [apply pow2_ge_0|lra]).
    assert (0 <= (m1 * v2 - m2 * v12) ^ 2) by apply pow2_ge_0. nra.
  - assert (v12 = 0) by (rewrite <- Q in CS; nra). unfold N. rewrite <- Q, H. assert (0 <= m2 ^ 2 * v1) by (apply Rmult_le_pos; [apply pow2_ge_0|lra]). lra.
Qed.

(** bounded case *)
Lemma disc_nonneg : 0 < A2 -> 0 <= N - t ^ 2 * Delta.
Proof.
  intros H. assert (DP : 0 <= Delta) by (unfold Delta; lra). unfold A2 in H.
  destruct P2 as [Q|Q].
  - assert (E := numer). assert (0 <= (m1 * v2 - m2 * v12) ^ 2) by apply pow2_ge_0.
    assert (t ^ 2 * v2 * Delta <= m2 ^ 2 * Delta) by (apply Rmult_le_compat_r; lra).
    assert (0 <= v2 * (N - t ^ 2 * Delta)) by lra. nra.
  - assert (v12 = 0) by (rewrite <- Q in CS; nra). assert (NN := numer_nonneg). unfold Delta. rewrite <- Q, H0. lra.
Qed.

Lemma roots x : 0 < A2 -> (A2 * x ^ 2 - 2 * A12 * x + A1 <= 0 <-> (A12 - sqrt D) / A2 <= x <= (A12 + sqrt D) / A2).
Proof.
  intros H. assert (D0 : 0 <= D) by (rewrite disc; apply Rmult_le_pos; [apply pow2_ge_0|now apply disc_nonneg]).
  assert (SD := sqrt_sqrt D D0). assert (S0 := sqrt_pos D). set (s := sqrt D) in *.
  assert (E : A2 * (A2 * x ^ 2 - 2 * A12 * x + A1) = (A2 * x - A12) ^ 2 - s * s) by (rewrite SD; unfold D; ring).
  assert (Q : A2 * x ^ 2 - 2 * A12 * x + A1 <= 0 <-> (A2 * x - A12) ^ 2 <= s * s) by (split; intros; nra).
  rewrite Q.
  assert (Q1 : (A12 - s) / A2 <= x <-> A12 - s <= A2 * x).
  { split; intros K.
    - apply Rmult_le_compat_l with (r := A2) in K; [|lra]. replace (A2 * ((A12 - s) / A2)) with (A12 - s) in K by (field; lra). lra.
    - apply Rmult_le_reg_l with A2; auto. replace (A2 * ((A12 - s) / A2)) with (A12 - s) by (field; lra). lra. }
  assert (Q2 : x <= (A12 + s) / A2 <-> A2 * x <= A12 + s).
  { split; intros K.
    - apply Rmult_le_compat_l with (r := A2) in K; [|lra]. replace (A2 * ((A12 + s) / A2)) with (A12 + s) in K by (field; lra). lra.
    - apply Rmult_le_reg_l with A2; auto. replace (A2 * ((A12 + s) / A2)) with (A12 + s) by (field; lra). lra. }
  rewrite Q1, Q2. split; [intros K; split; nra|intros [K1 K2]; nra].
Qed.
End Algebra.

(** *** The code *)
Lemma nsq_fin x : nsq (Fin x) = Fin (x ^ 2).
Proof. unfold nsq. simpl nmul. f_equal. ring. Qed.
Lemma nclip0_fin x : nclip0 (Fin x) = Fin (Rmax 0 x).
Proof.
  unfold nclip0. cbn [nltb]. case Rlt_bool_spec; intros H; f_equal; [rewrite Rmax_left|rewrite Rmax_right]; lra.
Qed.

(** the common formula, when the region is not everything *)
Definition rel_bounds (t m1 m2 v1 v2 v12 : R) : R * R :=
  let A1 := m1 ^ 2 - t ^ 2 * v1 in
  let A2 := m2 ^ 2 - t ^ 2 * v2 in
  let A12 := m1 * m2 - t ^ 2 * v12 in
  let D := A12 ^ 2 - A1 * A2 in
  ((A12 - sqrt D) / A2, (A12 + sqrt D) / A2).

Definition in_interval (ci : num * num) (x : R) : Prop := nleb (fst ci) (Fin x) = true /\ nleb (Fin x) (snd ci) = true.

(** np.isclose(v, 0.0) for a variance *)
Lemma close0 v : 0 <= v -> nisclose (Fin v) (Fin 0) = Rle_bool v (1 / 100000000).
Proof. intros H. simpl. rewrite Rminus_0_r, Rabs_R0, Rmult_0_r, Rplus_0_r, Rabs_pos_eq by auto. reflexivity. Qed.

Section Interval.
Context (T : tdist) (m1 m2 e1 e2 rho alpha : R) (df : num) (alternative : string).
Context (M1 : 0 <= m1) (M2 : 0 <= m2) (R1 : -1 <= rho <= 1) (V : valid_df df = true)
  (K : known alternative) (Ha : 0 < alpha < 1).
Let t := td_ppf T df (1 - level alternative alpha).
Let v1 := e1 ^ 2.
Let v2 := e2 ^ 2.
Let v12 := e1 * e2 * rho.
Let A1 := m1 ^ 2 - t ^ 2 * v1.
Let A2 := m2 ^ 2 - t ^ 2 * v2.
Let A12 := m1 * m2 - t ^ 2 * v12.
Let D := A12 ^ 2 - A1 * A2.
Let N := m1 ^ 2 * v2 - 2 * m2 * m1 * v12 + m2 ^ 2 * v1.
Let Delta := v1 * v2 - v12 ^ 2.

Lemma v1_nonneg : 0 <= v1. Proof. apply pow2_ge_0. Qed.
Lemma v2_nonneg : 0 <= v2. Proof. apply pow2_ge_0. Qed.
Lemma v12_cs : v12 ^ 2 <= v1 * v2.
Proof.
  unfold v12, v1, v2. replace ((e1 * e2 * rho) ^ 2) with (e1 ^ 2 * e2 ^ 2 * rho ^ 2) by ring.
  assert (rho ^ 2 <= 1) by nra. assert (0 <= e1 ^ 2 * e2 ^ 2) by (apply Rmult_le_pos; apply pow2_ge_0). nra.
Qed.

(** what the code computes, with the guards as conditions on reals *)
Definition texc : num := if nisclose (Fin v2) (Fin 0) then PInf else ndiv (Fin (m2 ^ 2)) (Fin v2).
Definition tcom : num := if orb (nisclose (Fin v1) (Fin 0)) (nisclose (Fin v2) (Fin 0)) then PInf else ndiv (Fin N) (Fin Delta).

Lemma relative_unfold :
  relative_difference_confidence_interval T (Fin m1) (Fin m2) (Fin e1) (Fin e2) (Fin rho) df alternative alpha =
  let root := nsqrt (Fin D) in
  let b := if nleb tcom (Fin (t ^ 2)) then (Fin 0, PInf)
           else (nclip0 (ndiv (nsub (Fin A12) root) (Fin A2)),
                 if nleb texc (Fin (t ^ 2)) then PInf else ndiv (nadd (Fin A12) root) (Fin A2)) in
  Ok (if alternative =? "less" then Fin (-1) else nsub (fst b) (Fin 1),
      if alternative =? "greater" then PInf else nsub (snd b) (Fin 1)).
Proof.
  unfold relative_difference_confidence_interval.
  rewrite (proj2 (nltb_fin_false m1 0)), (proj2 (nltb_fin_false m2 0)) by auto. cbn [orb raise_if bind].
  assert (TQ : (if alternative =? "two-sided" then Ok (t_ppf T df (1 - alpha / 2)) else
     if alternative =? "greater" then Ok (t_ppf T df (1 - alpha)) else
     if alternative =? "less" then Ok (t_ppf T df (1 - alpha)) else Err bad_alternative) = Ok (Fin t)).
  { unfold t, level. destruct (known_cases _ K) as [E|[E|E]]; rewrite E; cbn [String.eqb Ascii.eqb Bool.eqb];
      rewrite t_ppf_fin by (auto; lra); reflexivity. }
  rewrite TQ. cbn [bind]. repeat (rewrite ?nsq_fin, ?nsub_fin; cbn [nmul nadd]). cbv zeta.
  unfold texc, tcom, D, A1, A2, A12, N, Delta, v1, v2, v12.
  destruct (known_cases _ K) as [E|[E|E]]; rewrite E; reflexivity.
Qed.

Lemma texc_iff : 1 / 100000000 < v2 -> (nleb texc (Fin (t ^ 2)) = true <-> A2 <= 0).
Proof.
  intros H. unfold texc. rewrite close0, Rle_bool_false by lra. rewrite ndiv_fin, nleb_fin by lra. unfold A2.
  split; intros Q.
  - apply Rmult_le_compat_r with (r := v2) in Q; [|lra]. replace (m2 ^ 2 / v2 * v2) with (m2 ^ 2) in Q by (field; lra). lra.
  - apply Rmult_le_reg_r with v2; [lra|]. replace (m2 ^ 2 / v2 * v2) with (m2 ^ 2) by (field; lra). lra.
Qed.
Lemma texc_pos : 0 < A2 -> nleb texc (Fin (t ^ 2)) = false.
Proof.
  intros H. unfold texc. rewrite close0 by apply v2_nonneg. case Rle_bool_spec; intros Q; [reflexivity|].
  assert (E := proj1 (texc_iff Q)). unfold texc in E. rewrite close0, Rle_bool_false in E by (auto; apply v2_nonneg).
  destruct (nleb _ _); auto. specialize (E eq_refl). lra.
Qed.
Lemma tcom_true : nleb tcom (Fin (t ^ 2)) = true ->
  1 / 100000000 < v1 /\ 1 / 100000000 < v2 /\ 0 < Delta /\ N <= t ^ 2 * Delta.
Proof.
  unfold tcom. rewrite !close0 by (apply v1_nonneg || apply v2_nonneg).
  case Rle_bool_spec; intros Q1; [discriminate|]. case Rle_bool_spec; intros Q2; [discriminate|]. cbn [orb].
  assert (DP : 0 <= Delta) by (unfold Delta; assert (X := v12_cs); lra).
  assert (NP : 0 <= N) by (apply (numer_nonneg m1 m2 v1 v2 v12); [apply v1_nonneg|apply v2_nonneg|apply v12_cs]).
  destruct DP as [DP|DP].
  - rewrite ndiv_fin, nleb_fin by lra. intros H. repeat split; auto.
    apply Rmult_le_compat_r with (r := Delta) in H; [|lra]. replace (N / Delta * Delta) with N in H by (field; lra). lra.
  - rewrite <- DP. cbn [ndiv]. rewrite Req_bool_true by reflexivity. unfold ninf_of. rewrite (Rlt_bool_false N 0) by auto.
    destruct (Rlt_bool 0 N); discriminate.
Qed.
Lemma tcom_intro : 1 / 100000000 < v1 -> 1 / 100000000 < v2 -> 0 < Delta -> N <= t ^ 2 * Delta -> nleb tcom (Fin (t ^ 2)) = true.
Proof.
  intros Q1 Q2 DP H. unfold tcom. rewrite !close0, !Rle_bool_false by lra. cbn [orb]. rewrite ndiv_fin, nleb_fin by lra.
  apply Rmult_le_reg_r with Delta; auto. replace (N / Delta * Delta) with N by (field; lra). lra.
Qed.
Lemma tcom_pos : 0 < A2 -> nleb tcom (Fin (t ^ 2)) = false.
Proof.
  intros H. destruct (nleb tcom (Fin (t ^ 2))) eqn:E; auto. exfalso. apply tcom_true in E as (Q1 & Q2 & DP & L).
  assert (X := numer m1 m2 v1 v2 v12). fold N Delta in X. unfold A2 in H.
  assert (0 <= (m1 * v2 - m2 * v12) ^ 2) by apply pow2_ge_0.
  assert (t ^ 2 * v2 * Delta < m2 ^ 2 * Delta) by (apply Rmult_lt_compat_r; lra).
  assert (v2 * N <= v2 * (t ^ 2 * Delta)) by (apply Rmult_le_compat_l; lra). lra.
Qed.

Lemma var_nonneg x : 0 <= v1 - 2 * x * v12 + x ^ 2 * v2.
Proof.
  unfold v1, v12, v2. replace (e1 ^ 2 - 2 * x * (e1 * e2 * rho) + x ^ 2 * e2 ^ 2) with ((e1 - x * e2 * rho) ^ 2 + (x * e2) ^ 2 * (1 - rho ^ 2)) by ring.
  assert (0 <= (e1 - x * e2 * rho) ^ 2) by apply pow2_ge_0. assert (0 <= (x * e2) ^ 2) by apply pow2_ge_0.
  assert (rho ^ 2 <= 1) by nra. nra.
Qed.

(** the estimate always meets the criterion *)
Lemma estimate_in : m2 <> 0 -> fieller t m1 m2 v1 v2 v12 (m1 / m2).
Proof.
  intros H. unfold fieller. replace (m1 - m1 / m2 * m2) with 0 by (field; auto).
  assert (W := var_nonneg (m1 / m2)). assert (0 <= t ^ 2) by apply pow2_ge_0. nra.
Qed.

(** C56: the bounded case *)
Lemma bounded_case : t ^ 2 * v2 < m2 ^ 2 ->
  exists lo hi,
    relative_difference_confidence_interval T (Fin m1) (Fin m2) (Fin e1) (Fin e2) (Fin rho) df alternative alpha =
      Ok (if alternative =? "less" then Fin (-1) else Fin lo, if alternative =? "greater" then PInf else Fin hi) /\
    (forall x, 0 <= x -> (lo <= x - 1 <= hi <-> fieller t m1 m2 v1 v2 v12 x)) /\
    -1 <= lo /\ lo <= m1 / m2 - 1 <= hi.
Proof.
  intros HA. assert (H : 0 < A2) by (unfold A2; lra).
  assert (X1 := v1_nonneg). assert (X2 := v2_nonneg). assert (X3 := v12_cs).
  assert (D0 : 0 <= D).
  { unfold D. assert (E := disc t m1 m2 v1 v2 v12). fold A1 A2 A12 D N Delta in E. fold D. rewrite E.
    apply Rmult_le_pos; [apply pow2_ge_0|]. apply (disc_nonneg t m1 m2 v1 v2 v12); auto. }
  rewrite relative_unfold. rewrite tcom_pos, texc_pos by auto. rewrite nsqrt_fin by auto. cbv zeta. cbn [fst snd nadd].
  rewrite nsub_fin, !ndiv_fin by lra. rewrite nclip0_fin, !nsub_fin.
  set (L := (A12 - sqrt D) / A2). set (U := (A12 + sqrt D) / A2).
  exists (Rmax 0 L - 1), (U - 1). split; [reflexivity|].
  assert (RT : forall x, fieller t m1 m2 v1 v2 v12 x <-> L <= x <= U).
  { intros x. rewrite fieller_quadratic. apply (roots t m1 m2 v1 v2 v12 X1 X2 X3 x H). }
  assert (N2 : m2 <> 0) by (intros E; rewrite E in HA; assert (0 <= t ^ 2 * v2) by (apply Rmult_le_pos; [apply pow2_ge_0|auto]); lra).
  assert (Pm : 0 <= m1 / m2) by (apply Rmult_le_pos; auto; apply Rlt_le, Rinv_0_lt_compat; lra).
  split.
  - intros x Hx. rewrite RT. unfold Rmax. destruct (Rle_dec 0 L); split; intros; lra.
  - split; [generalize (Rmax_l 0 L); lra|]. assert (E := proj1 (RT _) (estimate_in N2)).
    unfold Rmax. destruct (Rle_dec 0 L); lra.
Qed.

(** C57: all cases, for variances the code does not call zero *)
Lemma whole_case : alternative = "two-sided" ->
  1 / 100000000 < v1 -> 1 / 100000000 < v2 -> m2 ^ 2 <> t ^ 2 * v2 -> t ^ 2 * v12 <= m1 * m2 ->
  exists lo hi,
    relative_difference_confidence_interval T (Fin m1) (Fin m2) (Fin e1) (Fin e2) (Fin rho) df alternative alpha = Ok (lo, hi) /\
    forall x, 0 <= x -> (in_interval (lo, hi) (x - 1) <-> fieller t m1 m2 v1 v2 v12 x).
Proof.
  intros EA Q1 Q2 NE PA. assert (X3 := v12_cs).
  assert (NP : 0 <= N) by (apply (numer_nonneg m1 m2 v1 v2 v12); lra).
  assert (ED := disc t m1 m2 v1 v2 v12). fold A1 A2 A12 D N Delta in ED.
  destruct (Rlt_le_dec 0 A2) as [H|H].
  - destruct (bounded_case ltac:(unfold A2 in H; lra)) as (lo & hi & E & F & _). rewrite E. rewrite EA. cbn [String.eqb Ascii.eqb Bool.eqb].
    exists (Fin lo), (Fin hi). split; [reflexivity|]. intros x Hx. rewrite <- (F x Hx). unfold in_interval. cbn [fst snd]. rewrite !nleb_fin. tauto.
  - assert (HN : A2 < 0) by (unfold A2 in *; lra). clear H.
    assert (SQ : forall x, A2 * (A2 * x ^ 2 - 2 * A12 * x + A1) = (A2 * x - A12) ^ 2 - D) by (intros; unfold D; ring).
    assert (EQ : forall x, fieller t m1 m2 v1 v2 v12 x <-> D <= (A2 * x - A12) ^ 2).
    { intros x. rewrite fieller_quadratic. fold A1 A2 A12. specialize (SQ x). split; intros; nra. }
    rewrite relative_unfold. rewrite EA. cbn [String.eqb Ascii.eqb Bool.eqb]. cbv zeta.
    destruct (nleb tcom (Fin (t ^ 2))) eqn:EC.
    + apply tcom_true in EC as (_ & _ & DP & L). exists (nsub (Fin 0) (Fin 1)), (nsub PInf (Fin 1)). split; [reflexivity|].
      intros x Hx. rewrite EQ. split; intros _.
      * assert (0 <= t ^ 2) by apply pow2_ge_0. assert (0 <= (A2 * x - A12) ^ 2) by apply pow2_ge_0.
        assert (t ^ 2 * (N - t ^ 2 * Delta) <= 0) by nra. lra.
      * unfold in_interval. cbn [fst snd]. rewrite nsub_fin, nleb_fin. split; [lra|reflexivity].
    + assert (D0 : 0 <= D).
      { rewrite ED. apply Rmult_le_pos; [apply pow2_ge_0|]. destruct (Rle_lt_or_eq_dec 0 Delta ltac:(unfold Delta; lra)) as [DP|DP].
        - apply Rnot_lt_le. intros C. rewrite tcom_intro in EC; auto; [discriminate|lra].
        - rewrite <- DP. lra. }
      rewrite (proj2 (texc_iff Q2)) by lra. rewrite nsqrt_fin by auto. rewrite nsub_fin, ndiv_fin by lra. rewrite nclip0_fin. cbn [fst snd].
      eexists. eexists. split; [reflexivity|]. intros x Hx. rewrite EQ. unfold in_interval. cbn [fst snd]. rewrite nsub_fin, nleb_fin.
      assert (S0 := sqrt_pos D). assert (SS := sqrt_sqrt D D0). set (s := sqrt D) in *.
      assert (HA12 : 0 <= A12) by (unfold A12; lra).
      set (L := (A12 - s) / A2). assert (EL : A2 * L = A12 - s) by (unfold L; field; lra).
      split.
      * intros [G _]. assert (L <= x) by (generalize (Rmax_r 0 L); lra). assert (A2 * x <= A12 - s) by (rewrite <- EL; nra).
        rewrite <- SS. nra.
      * intros G. split; [|reflexivity]. apply Rplus_le_compat_r. apply Rmax_lub; auto. apply Rnot_lt_le. intros C.
        assert (A12 - s < A2 * x) by (rewrite <- EL; nra). assert (A2 * x - A12 <= 0) by nra. rewrite <- SS in G. nra.
Qed.

Lemma upper_not_below : 1 / 100000000 < v2 \/ t ^ 2 * v2 < m2 ^ 2 -> forall lo hi,
  relative_difference_confidence_interval T (Fin m1) (Fin m2) (Fin e1) (Fin e2) (Fin rho) df alternative alpha = Ok (lo, hi) ->
  nltb hi lo = false.
Proof.
  intros Q lo hi E. destruct (Rlt_le_dec 0 A2) as [H|H].
  - destruct (bounded_case ltac:(unfold A2 in H; lra)) as (a & b & E' & _ & B1 & B2). rewrite E in E'.
    assert (X1 : lo = if alternative =? "less" then Fin (-1) else Fin a) by congruence.
    assert (X2 : hi = if alternative =? "greater" then PInf else Fin b) by congruence.
    rewrite X1, X2. destruct (alternative =? "greater"); [destruct (alternative =? "less"); reflexivity|].
    destruct (alternative =? "less"); apply nltb_fin_false; lra.
  - destruct Q as [Q|Q]; [|unfold A2 in H; lra]. rewrite relative_unfold in E. cbv zeta in E.
    rewrite (proj2 (texc_iff Q) H) in E.
    assert (X2 : hi = PInf).
    { assert (X : hi = if alternative =? "greater" then PInf else nsub (snd (if nleb tcom (Fin (t ^ 2)) then (Fin 0, PInf) else
        (nclip0 (ndiv (nsub (Fin A12) (nsqrt (Fin D))) (Fin A2)), PInf))) (Fin 1)) by congruence. rewrite X.
      destruct (alternative =? "greater"); auto. destruct (nleb tcom (Fin (t ^ 2))); reflexivity. }
    rewrite X2. destruct lo; reflexivity.
Qed.
End Interval.

Theorem c56_bounded_interval_is_fiellers_set :
  forall T m1 m2 e1 e2 rho df alternative alpha,
    0 <= m1 -> 0 <= m2 -> -1 <= rho <= 1 -> valid_df df = true -> known alternative -> 0 < alpha < 1 ->
    let t := td_ppf T df (1 - level alternative alpha) in
    t ^ 2 * e2 ^ 2 < m2 ^ 2 ->
    exists lo hi,
      relative_difference_confidence_interval T (Fin m1) (Fin m2) (Fin e1) (Fin e2) (Fin rho) df alternative alpha =
        Ok (if alternative =? "less" then Fin (-1) else Fin lo, if alternative =? "greater" then PInf else Fin hi) /\
      (forall lift, -1 <= lift ->
        (lo <= lift <= hi <-> fieller t m1 m2 (e1 ^ 2) (e2 ^ 2) (e1 * e2 * rho) (1 + lift))) /\
      -1 <= lo /\ lo <= m1 / m2 - 1 <= hi.
Proof.
  intros T m1 m2 e1 e2 rho df alternative alpha M1 M2 R1 V K Ha t HA.
  destruct (bounded_case T m1 m2 e1 e2 rho alpha df alternative M1 M2 R1 V K Ha HA) as (lo & hi & E & F & B).
  exists lo, hi. split; auto. split; auto. intros x Hx. specialize (F (1 + x) ltac:(lra)). replace (1 + x - 1) with x in F by ring. exact F.
Qed.

(** in the bounded case the relative interval lies above 0 iff the absolute one does, and the same below 0 *)
Theorem c56_agrees_with_the_absolute_interval :
  forall T m1 m2 e1 e2 rho df alternative alpha rlo rhi alo ahi,
    0 <= m1 -> 0 <= m2 -> -1 <= rho <= 1 -> valid_df df = true -> 0 < alpha < 1 ->
    alternative = "two-sided" \/ alpha <= 1 / 2 ->
    let t := td_ppf T df (1 - level alternative alpha) in
    t ^ 2 * e2 ^ 2 < m2 ^ 2 ->
    relative_difference_confidence_interval T (Fin m1) (Fin m2) (Fin e1) (Fin e2) (Fin rho) df alternative alpha = Ok (rlo, rhi) ->
    absolute_difference_confidence_interval T (Fin m1) (Fin m2) (Fin e1) (Fin e2) (Fin rho) df alternative alpha = Ok (alo, ahi) ->
    (nltb (Fin 0) rlo = true <-> nltb (Fin 0) alo = true) /\ (nltb rhi (Fin 0) = true <-> nltb ahi (Fin 0) = true).
Proof.
  intros T m1 m2 e1 e2 rho df alternative alpha rlo rhi alo ahi M1 M2 R1 V Ha HT t HA HR HB.
  assert (K : known alternative).
  { unfold absolute_difference_confidence_interval in HB. unfold known. simpl.
    destruct (String.eqb_spec alternative "two-sided"); [auto|]. destruct (String.eqb_spec alternative "greater"); [auto|].
    destruct (String.eqb_spec alternative "less"); [auto|]. discriminate. }
  destruct (bounded_case T m1 m2 e1 e2 rho alpha df alternative M1 M2 R1 V K Ha HA) as (lo & hi & E & F & B1 & B2).
  set (W := e1 ^ 2 - 2 * 1 * (e1 * e2 * rho) + 1 ^ 2 * e2 ^ 2).
  assert (W0 : 0 <= W) by (apply (var_nonneg e1 e2 rho R1)).
  assert (TP : 0 <= t).
  { unfold t, level. destruct (known_cases _ K) as [X|[X|X]]; rewrite X in *; cbn [String.eqb Ascii.eqb Bool.eqb]; apply ppf_nonneg; auto;
      destruct HT as [Y|Y]; try discriminate; lra. }
  rewrite (abs_ci_fin T m1 m2 e1 e2 rho df (sqrt W)) in HB; auto; [|apply sqrt_pos|rewrite sqrt_sqrt by auto; unfold W; ring].
  fold t in HB. specialize (F 1 ltac:(lra)). unfold fieller in F. fold t in F. fold W in F. rewrite Rmult_1_l in F.
  assert (Q : (m1 - m2) ^ 2 <= t ^ 2 * W <-> - (t * sqrt W) <= m1 - m2 <= t * sqrt W).
  { assert (S0 := sqrt_pos W). assert (SS := sqrt_sqrt W W0). set (s := sqrt W) in *.
    replace (t ^ 2 * W) with ((t * s) * (t * s)) by (rewrite <- SS; ring). assert (0 <= t * s) by nra.
    split; [intros; split; nra|intros; nra]. }
  rewrite Q in F. clear Q. rewrite HR in E.
  assert (PM : 0 < m2). { destruct M2 as [|<-]; auto. assert (0 <= t ^ 2 * e2 ^ 2) by (apply Rmult_le_pos; apply pow2_ge_0). lra. }
  assert (CM : m1 / m2 - 1 = (m1 - m2) / m2) by (field; lra). rewrite CM in B2.
  assert (IP : 0 < / m2) by (now apply Rinv_0_lt_compat).
  set (s := sqrt W) in *. assert (TS : 0 <= t * s) by (apply Rmult_le_pos; auto; apply sqrt_pos).
  assert (G1 : 0 < lo <-> t * s < m1 - m2).
  { split; intros G.
    - apply Rnot_le_lt. intros C. assert (~ (lo <= 1 - 1 <= hi)) by lra. rewrite F in H.
      assert (m1 - m2 < 0) by lra. assert ((m1 - m2) / m2 < 0) by (unfold Rdiv; nra). lra.
    - apply Rnot_le_lt. intros C. assert (~ (lo <= 1 - 1 <= hi)) by (rewrite F; lra).
      assert (0 < (m1 - m2) / m2) by (unfold Rdiv; nra). lra. }
  assert (G2 : hi < 0 <-> m1 - m2 < - (t * s)).
  { split; intros G.
    - apply Rnot_le_lt. intros C. assert (~ (lo <= 1 - 1 <= hi)) by lra. rewrite F in H.
      assert (0 < m1 - m2) by lra. assert (0 < (m1 - m2) / m2) by (unfold Rdiv; nra). lra.
    - apply Rnot_le_lt. intros C. assert (~ (lo <= 1 - 1 <= hi)) by (rewrite F; lra).
      assert ((m1 - m2) / m2 < 0) by (unfold Rdiv; nra). lra. }
  assert (ER : rlo = if alternative =? "less" then Fin (-1) else Fin lo) by congruence.
  assert (ER' : rhi = if alternative =? "greater" then PInf else Fin hi) by congruence.
  assert (EA : alo = if alternative =? "less" then NInf else Fin (m1 - m2 - t * s)) by congruence.
  assert (EA' : ahi = if alternative =? "greater" then PInf else Fin (m1 - m2 + t * s)) by congruence.
  rewrite ER, ER', EA, EA'. clear - G1 G2 K.
  split.
  - destruct (alternative =? "less").
    + split; intros X; [apply nltb_fin in X; lra|discriminate].
    + rewrite !nltb_fin, G1. lra.
  - destruct (alternative =? "greater"); [split; discriminate|]. rewrite !nltb_fin, G2. lra.
Qed.

(** ** C57 *)
Lemma nclip0_not_negative x : nltb (nsub (nclip0 x) (Fin 1)) (Fin (-1)) = false.
Proof.
  destruct x; try reflexivity.
  - rewrite nclip0_fin, nsub_fin. apply nltb_fin_false. generalize (Rmax_l 0 r). lra.
  - unfold nclip0. simpl. apply nltb_fin_false. lra.
Qed.
Theorem c57_lower_bound_at_least_minus_one : forall T m1 m2 e1 e2 rho df alternative alpha lo hi,
  relative_difference_confidence_interval T m1 m2 e1 e2 rho df alternative alpha = Ok (lo, hi) ->
  nltb lo (Fin (-1)) = false.
Proof.
  intros T m1 m2 e1 e2 rho df alternative alpha lo hi H. unfold relative_difference_confidence_interval in H.
  apply bind_ok in H as (_ & _ & H). apply bind_ok in H as (t & _ & H).
  assert (M1 : nltb (Fin (-1)) (Fin (-1)) = false) by (apply nltb_fin_false; lra).
  assert (M0 : nltb (nsub (Fin 0) (Fin 1)) (Fin (-1)) = false) by (rewrite nsub_fin; apply nltb_fin_false; lra).
  cbv zeta in H.
  match type of H with context [if nleb ?A ?B then (Fin 0, PInf) else ?P] => destruct (nleb A B) end;
    cbn [fst snd] in H; destruct (alternative =? "greater"); try (destruct (alternative =? "less"));
    assert (Y := f_equal (fun r => match r with Ok (a, _) => a | _ => NaN end) H); cbn in Y; rewrite <- Y; auto;
    apply nclip0_not_negative.
Qed.

Theorem c57_upper_not_below_lower : forall T m1 m2 e1 e2 rho df alternative alpha lo hi,
  0 <= m1 -> 0 <= m2 -> -1 <= rho <= 1 -> valid_df df = true -> known alternative -> 0 < alpha < 1 ->
  1 / 100000000 < e2 ^ 2 \/ td_ppf T df (1 - level alternative alpha) ^ 2 * e2 ^ 2 < m2 ^ 2 ->
  relative_difference_confidence_interval T (Fin m1) (Fin m2) (Fin e1) (Fin e2) (Fin rho) df alternative alpha = Ok (lo, hi) ->
  nltb hi lo = false.
Proof.
  intros T m1 m2 e1 e2 rho df alternative alpha lo hi M1 M2 R1 V K Ha Q E.
  exact (upper_not_below T m1 m2 e1 e2 rho alpha df alternative M1 M2 R1 V K Ha Q lo hi E).
Qed.

(** unless t^2 v2 = m2^2 exactly, the two-sided interval is the whole of Fieller's set, bounded or not, and so contains
    the estimate; for independent samples (rho = 0) the last hypothesis holds *)
Theorem c57_interval_is_fiellers_set : forall T m1 m2 e1 e2 rho df alpha,
  0 <= m1 -> 0 <= m2 -> -1 <= rho <= 1 -> valid_df df = true -> 0 < alpha < 1 ->
  let t := td_ppf T df (1 - alpha / 2) in
  1 / 100000000 < e1 ^ 2 -> 1 / 100000000 < e2 ^ 2 -> m2 ^ 2 <> t ^ 2 * e2 ^ 2 ->
  t ^ 2 * (e1 * e2 * rho) <= m1 * m2 ->
  exists ci,
    relative_difference_confidence_interval T (Fin m1) (Fin m2) (Fin e1) (Fin e2) (Fin rho) df "two-sided" alpha = Ok ci /\
    (forall lift, -1 <= lift ->
      (in_interval ci lift <-> fieller t m1 m2 (e1 ^ 2) (e2 ^ 2) (e1 * e2 * rho) (1 + lift))) /\
    (m2 <> 0 -> in_interval ci (m1 / m2 - 1)).
Proof.
  intros T m1 m2 e1 e2 rho df alpha M1 M2 R1 V Ha t Q1 Q2 NE PA.
  assert (K : known "two-sided") by now left.
  destruct (whole_case T m1 m2 e1 e2 rho alpha df "two-sided" M1 M2 R1 V K Ha eq_refl Q1 Q2 NE PA) as (lo & hi & E & F).
  exists (lo, hi). split; auto. split.
  - intros x Hx. specialize (F (1 + x) ltac:(lra)). replace (1 + x - 1) with x in F by ring. exact F.
  - intros N2. assert (Pm : 0 <= m1 / m2) by (apply Rmult_le_pos; auto; apply Rlt_le, Rinv_0_lt_compat; lra).
    apply F; auto. apply estimate_in; auto.
Qed.

(** *** Witnesses.  With Cauchy tails (one degree of freedom) the critical value is 2 at this alpha *)
Definition alpha2 : R := 1 - 2 * (atan 2 / PI).
Lemma alpha2_range : 0 < alpha2 < 1.
Proof.
  unfold alpha2. assert (P := PI_RGT_0). assert (B := atan_bound 2).
  assert (0 < atan 2) by (rewrite <- atan_0; apply atan_increasing; lra).
  assert (0 < atan 2 / PI) by (apply Rdiv_lt_0_compat; auto).
  assert (atan 2 / PI < 1 / 2).
  { apply Rmult_lt_reg_r with PI; auto. replace (atan 2 / PI * PI) with (atan 2) by (field; lra). lra. }
  lra.
Qed.
Lemma ppf_2 df : td_ppf cauchy df (1 - alpha2 / 2) = 2.
Proof.
  cbn [td_ppf cauchy]. assert (P := PI_RGT_0). replace (PI * (1 - alpha2 / 2 - 1 / 2)) with (atan 2); [apply tan_atan|].
  unfold alpha2. field. lra.
Qed.
Lemma df10 : valid_df (Fin 10) = true.
Proof. apply Rlt_bool_true. lra. Qed.
Lemma known_two : known "two-sided". Proof. now left. Qed.

(** positively correlated samples: the interval lies above the estimate, and above 0 although the estimate is -90%
    and the absolute interval lies below 0 *)
Theorem c57_correlated_interval_contains_estimate_refuted :
  exists T m1 m2 e1 e2 rho df alpha lo alo ahi,
    0 < m1 /\ 0 < m2 /\ -1 <= rho <= 1 /\ valid_df df = true /\ 0 < alpha < 1 /\
    1 / 100000000 < e1 ^ 2 /\ 1 / 100000000 < e2 ^ 2 /\
    relative_difference_confidence_interval T (Fin m1) (Fin m2) (Fin e1) (Fin e2) (Fin rho) df "two-sided" alpha = Ok (Fin lo, PInf) /\
    m1 / m2 - 1 < 0 < lo /\
    absolute_difference_confidence_interval T (Fin m1) (Fin m2) (Fin e1) (Fin e2) (Fin rho) df "two-sided" alpha = Ok (Fin alo, Fin ahi) /\
    ahi < 0.
Proof.
  exists cauchy, (1 / 10), 1, 1, 1, (9 / 10), (Fin 10), alpha2.
  assert (V := df10). assert (Ha := alpha2_range). assert (T2 := ppf_2 (Fin 10)).
  assert (L : level "two-sided" alpha2 = alpha2 / 2) by reflexivity.
  eexists. eexists. eexists.
  assert (R1 : -1 <= 9 / 10 <= 1) by lra.
  do 7 (split; [auto; lra|]). split; [|split; [|split]].
  - rewrite relative_unfold; auto using known_two; try lra. rewrite L, T2. cbv zeta.
    destruct (nleb (tcom (1 / 10) 1 1 1 (9 / 10)) (Fin (2 ^ 2))) eqn:EC.
    + exfalso. rewrite <- T2 in EC. change (alpha2 / 2) with (level "two-sided" alpha2) in EC.
      apply tcom_true in EC as (_ & _ & _ & X); auto using known_two; try lra. rewrite L, T2 in X. lra.
    + cbn [String.eqb Ascii.eqb Bool.eqb]. 
      assert (EX : nleb (texc 1 1) (Fin (2 ^ 2)) = true).
      { rewrite <- T2. change (alpha2 / 2) with (level "two-sided" alpha2).
        apply texc_iff; auto using known_two; try lra. rewrite L, T2. lra. }
      rewrite EX. rewrite nsqrt_fin by lra. rewrite nsub_fin, ndiv_fin by lra. rewrite nclip0_fin. cbn [fst snd]. rewrite nsub_fin. reflexivity.
  - split; [lra|]. match goal with |- 0 < Rmax 0 ((?a - sqrt ?d) / ?b) - 1 => assert (S0 := sqrt_pos d); set (s := sqrt d) in * end.
    eapply Rlt_le_trans; [|apply Rplus_le_compat_r, Rmax_r].
    match goal with |- 0 < ?q + _ => replace q with ((35 / 10 + s) / 3) by field end. lra.
  - rewrite (abs_ci_fin cauchy (1 / 10) 1 1 1 (9 / 10) (Fin 10) (sqrt (1 / 5)) "two-sided" alpha2); auto using known_two, sqrt_pos.
    + rewrite L, T2. reflexivity.
    + rewrite sqrt_sqrt; lra.
  - assert (X := sqrt_sqrt (1 / 5) ltac:(lra)). assert (Y := sqrt_pos (1 / 5)). cbn. set (s := sqrt (1 / 5)) in *. nra.
Qed.

(** variances the code calls zero: the lower bound is above the upper one *)
Theorem c57_upper_not_below_lower_for_tiny_variances_refuted :
  exists T m1 m2 e1 e2 df alpha lo hi,
    0 < m1 /\ 0 < m2 /\ 0 < e1 /\ 0 < e2 /\ valid_df df = true /\ 0 < alpha < 1 /\
    relative_difference_confidence_interval T (Fin m1) (Fin m2) (Fin e1) (Fin e2) (Fin 0) df "two-sided" alpha = Ok (Fin lo, Fin hi) /\
    hi < -1 /\ 0 < lo.
Proof.
  exists cauchy, 1, (1 / 100000), (3 / 100000), (3 / 100000), (Fin 10), alpha2.
  assert (V := df10). assert (Ha := alpha2_range). assert (T2 := ppf_2 (Fin 10)).
  assert (L : level "two-sided" alpha2 = alpha2 / 2) by reflexivity.
  eexists. eexists. do 6 (split; [auto; lra|]). split; [|split].
  - rewrite relative_unfold; auto using known_two; try lra. rewrite L, T2. cbv zeta.
    unfold tcom, texc. rewrite !close0 by lra. rewrite !Rle_bool_true by lra. cbn [orb nleb String.eqb Ascii.eqb Bool.eqb fst snd].
    rewrite nsqrt_fin by lra. rewrite nsub_fin. cbn [nadd]. rewrite !ndiv_fin by lra. rewrite nclip0_fin, !nsub_fin. reflexivity.
  - match goal with |- context [sqrt ?d] => assert (S0 := sqrt_pos d); set (s := sqrt d) in * end.
    match goal with |- ?q - _ < _ => replace q with (- ((1 / 100000 + s) * (10 ^ 10 / 35))) by field end. lra.
  - match goal with |- context [sqrt ?d] => assert (S0 := sqrt_pos d); assert (SS := sqrt_sqrt d ltac:(lra)); set (s := sqrt d) in * end.
    assert (5 / 100000 < s) by nra. eapply Rlt_le_trans; [|apply Rplus_le_compat_r, Rmax_r].
    match goal with |- 0 < ?q + _ => replace q with ((s - 1 / 100000) * (10 ^ 10 / 35)) by field end. lra.
Qed.

(** exactly at the threshold t^2 v2 = m2^2 the lower bound is NaN *)
Theorem c57_threshold_bound_is_a_number_refuted :
  exists T m1 m2 e1 e2 df alpha,
    0 < m1 /\ 0 < m2 /\ 1 / 100000000 < e1 ^ 2 /\ 1 / 100000000 < e2 ^ 2 /\ valid_df df = true /\ 0 < alpha < 1 /\
    relative_difference_confidence_interval T (Fin m1) (Fin m2) (Fin e1) (Fin e2) (Fin 0) df "two-sided" alpha = Ok (NaN, PInf).
Proof.
  exists cauchy, 2, 2, 1, 1, (Fin 10), alpha2.
  assert (V := df10). assert (Ha := alpha2_range). assert (T2 := ppf_2 (Fin 10)).
  assert (L : level "two-sided" alpha2 = alpha2 / 2) by reflexivity.
  do 6 (split; [auto; lra|]). rewrite relative_unfold; auto using known_two; try lra. rewrite L, T2. cbv zeta.
  unfold tcom, texc. rewrite !close0 by lra. rewrite !Rle_bool_false by lra. cbn [orb]. rewrite !ndiv_fin by lra.
  cbn [nleb]. rewrite Rle_bool_false by lra. rewrite Rle_bool_true by lra. cbn [String.eqb Ascii.eqb Bool.eqb fst snd].
  rewrite nsqrt_fin by lra. rewrite nsub_fin.
  match goal with |- context [sqrt ?d] => replace d with (4 * 4) by lra end. rewrite sqrt_square by lra.
  match goal with |- context [ndiv (Fin ?a) (Fin ?b)] => replace a with 0 by lra; replace b with 0 by lra end.
  cbn [ndiv]. rewrite Req_bool_true by reflexivity. rewrite ninf_of_0. reflexivity.
Qed.

(** ** C58 *)
Theorem c58_independent_of_the_unit : forall T c m1 m2 e1 e2 rho df alternative alpha,
  0 < c ->
  nisclose (nsq (nscale c e1)) (Fin 0) = nisclose (nsq e1) (Fin 0) ->
  nisclose (nsq (nscale c e2)) (Fin 0) = nisclose (nsq e2) (Fin 0) ->
  relative_difference_confidence_interval T (nscale c m1) (nscale c m2) (nscale c e1) (nscale c e2) rho df alternative alpha =
  relative_difference_confidence_interval T m1 m2 e1 e2 rho df alternative alpha.
Proof.
  intros T c m1 m2 e1 e2 rho df alternative alpha Hc F1 F2.
  assert (C2 : 0 < c * c) by nra. assert (C4 : 0 < c * c * (c * c)) by nra.
  unfold relative_difference_confidence_interval. rewrite F1, F2.
  assert (Z : forall m, nltb (nscale c m) (Fin 0) = nltb m (Fin 0)).
  { intros m. rewrite <- (nscale_0 c) at 1 by auto. apply nltb_nscale; auto. }
  rewrite !Z. destruct (raise_if _ _) as [u|x]; [|reflexivity]. cbn [bind].
  match goal with |- bind ?A _ = bind ?A _ => destruct A as [t|x]; [|reflexivity] end. cbn [bind]. cbv zeta.
  assert (SQ : forall x, nsq (nscale c x) = nscale (c * c) (nsq x)) by (intros; apply nscale_sq; auto).
  rewrite !SQ. rewrite !(nscale_prod c) by auto.
  rewrite <- !(nscale_nmul_l (c * c) C2).
  assert (E12 : nmul (nmul (Fin 2) (nscale c m2)) (nscale c m1) = nscale (c * c) (nmul (nmul (Fin 2) m2) m1)).
  { rewrite <- (nscale_nmul_r c Hc (Fin 2) m2). apply nscale_prod; auto. }
  rewrite E12.
  rewrite <- !(nscale_nmul_r (c * c) C2). rewrite <- !(nscale_nmul_l (c * c) C2). rewrite !(nscale_twice (c * c) (c * c)) by auto.
  assert (SQ2 : forall x, nsq (nscale (c * c) x) = nscale (c * c * (c * c)) (nsq x)) by (intros; apply nscale_sq; auto).
  rewrite !SQ2.
  rewrite <- !(nscale_nsub (c * c) C2). rewrite !SQ2. rewrite !(nscale_prod (c * c)) by auto.
  rewrite <- !(nscale_nsub _ C4). rewrite <- !(nscale_nadd _ C4). rewrite !(nsqrt_nscale (c * c)) by auto.
  rewrite <- !(nscale_nsub _ C2), <- !(nscale_nadd _ C2). rewrite !(ndiv_nscale _ C2), !(ndiv_nscale _ C4). reflexivity.
Qed.

(** across the threshold the unit matters: an unbounded interval becomes NaN *)
Theorem c58_unit_does_not_matter_refuted :
  exists T c m e df alpha,
    0 < c /\ 0 < m /\ 0 < e /\ valid_df df = true /\ 0 < alpha < 1 /\
    relative_difference_confidence_interval T (Fin m) (Fin m) (Fin e) (Fin e) (Fin 0) df "two-sided" alpha = Ok (Fin (-1), PInf) /\
    relative_difference_confidence_interval T (Fin (c * m)) (Fin (c * m)) (Fin (c * e)) (Fin (c * e)) (Fin 0) df "two-sided" alpha = Ok (NaN, NaN).
Proof.
  exists cauchy, (1 / 100000), 1, 1, (Fin 10), alpha2.
  assert (V := df10). assert (Ha := alpha2_range). assert (T2 := ppf_2 (Fin 10)).
  assert (L : level "two-sided" alpha2 = alpha2 / 2) by reflexivity.
  do 5 (split; [auto; lra|]). split.
  - rewrite relative_unfold; auto using known_two; try lra. rewrite L, T2. cbv zeta.
    unfold tcom, texc. rewrite !close0 by lra. rewrite !Rle_bool_false by lra. cbn [orb]. rewrite !ndiv_fin by lra.
    cbn [nleb]. rewrite Rle_bool_true by lra. cbn [String.eqb Ascii.eqb Bool.eqb fst snd]. rewrite nsub_fin. do 3 f_equal. lra.
  - rewrite relative_unfold; auto using known_two; try lra. rewrite L, T2. cbv zeta.
    unfold tcom, texc. rewrite !close0 by lra. rewrite !Rle_bool_true by lra. cbn [orb nleb String.eqb Ascii.eqb Bool.eqb fst snd].
    match goal with |- context [nsqrt (Fin ?d)] => assert (ES : nsqrt (Fin d) = NaN) by (cbn [nsqrt]; rewrite Rlt_bool_true by lra; reflexivity) end.
    rewrite ES. reflexivity.
Qed.

(** *** Non-trivial cases of the hypotheses: a bounded interval, a half line, everything *)
Example bounded_example : exists lo hi,
  relative_difference_confidence_interval cauchy (Fin 5) (Fin 4) (Fin 1) (Fin 1) (Fin (1 / 2)) (Fin 10) "two-sided" alpha2 = Ok (Fin lo, Fin hi) /\
  lo <= 1 / 4 <= hi.
Proof.
  assert (T2 := ppf_2 (Fin 10)). assert (Ha := alpha2_range).
  destruct (c56_bounded_interval_is_fiellers_set cauchy 5 4 1 1 (1 / 2) (Fin 10) "two-sided" alpha2) as (lo & hi & E & _ & _ & B);
    auto using df10, known_two; try lra.
  - change (level "two-sided" alpha2) with (alpha2 / 2). rewrite T2. lra.
  - exists lo, hi. split; [exact E|]. lra.
Qed.
Example half_line_example : exists ci,
  relative_difference_confidence_interval cauchy (Fin 5) (Fin 1) (Fin 1) (Fin 1) (Fin 0) (Fin 10) "two-sided" alpha2 = Ok ci /\
  in_interval ci 4 /\ ~ in_interval ci 0.
Proof.
  assert (T2 := ppf_2 (Fin 10)). assert (Ha := alpha2_range).
  destruct (c57_interval_is_fiellers_set cauchy 5 1 1 1 0 (Fin 10) alpha2) as (ci & E & F & B);
    auto using df10; try lra; try (rewrite T2; lra).
  exists ci. split; [exact E|]. split.
  - replace 4 with (5 / 1 - 1) by field. apply B. lra.
  - rewrite F by lra. rewrite T2. unfold fieller. lra.
Qed.
Example same_unit_example : exists c e, 0 < c /\ c <> 1 /\
  nisclose (nsq (nscale c (Fin e))) (Fin 0) = nisclose (nsq (Fin e)) (Fin 0) /\ nisclose (nsq (Fin e)) (Fin 0) = false.
Proof.
  exists 2, 1. split; [lra|]. split; [lra|]. rewrite nscale_fin, !nsq_fin, !close0 by lra. rewrite !Rle_bool_false by lra. auto.
Qed.

Print Assumptions c56_bounded_interval_is_fiellers_set.
Print Assumptions c56_agrees_with_the_absolute_interval.
Print Assumptions c57_lower_bound_at_least_minus_one.
Print Assumptions c57_upper_not_below_lower.
Print Assumptions c57_interval_is_fiellers_set.
Print Assumptions c57_correlated_interval_contains_estimate_refuted.
Print Assumptions c57_upper_not_below_lower_for_tiny_variances_refuted.
Print Assumptions c57_threshold_bound_is_a_number_refuted.
Print Assumptions c58_independent_of_the_unit.
Print Assumptions c58_unit_does_not_matter_refuted.
