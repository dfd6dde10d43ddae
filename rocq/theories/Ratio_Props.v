(** C60: ratio metrics and the delta method (statistics.py:735-777). *)
From Coq Require Import Reals List Bool String Lra Lia Psatz.
From Flocq Require Import Core.
From Verif Require Import Base Num Trimmed_Model Stats_Model Stats_Num Trimmed_Real Tests_Proofs.
Import ListNotations.
Open Scope R_scope.

(** *** Specification: first-order propagation of a covariance matrix through a smooth function.
    The gradient is pinned down by derivatives, not by the code's formula. *)
Definition gradient2 (f : R -> R -> R) (a b ga gb : R) : Prop :=
  derivable_pt_lim (fun x => f x b) a ga /\ derivable_pt_lim (fun y => f a y) b gb.
Definition gradient4 (f : R -> R -> R -> R -> R) (a b c d ga gb gc gd : R) : Prop :=
  derivable_pt_lim (fun x => f x b c d) a ga /\ derivable_pt_lim (fun x => f a x c d) b gb /\
  derivable_pt_lim (fun x => f a b x d) c gc /\ derivable_pt_lim (fun x => f a b c x) d gd.
Definition propagated2 (ga gb va vb cab : R) : R := ga * ga * va + gb * gb * vb + 2 * (ga * gb * cab).
(** sum over i, j of g_i g_j K_ij *)
Fixpoint rsum (l : list R) : R := match l with [] => 0 | x :: r => x + rsum r end.
Definition propagated (g : list R) (K : nat -> nat -> R) : R :=
  rsum (map (fun i => rsum (map (fun j => nth i g 0 * nth j g 0 * K i j) (seq 0 (List.length g)))) (seq 0 (List.length g))).
Definition semidefinite4 (K : nat -> nat -> R) : Prop := forall a b c d, 0 <= propagated [a; b; c; d] K.
Definition symmetric (K : nat -> nat -> R) : Prop := forall i j, K i j = K j i.
Definition matrix4 (K : nat -> nat -> R) : list (list num) :=
  map (fun i => map (fun j => Fin (K i j)) (seq 0 4)) (seq 0 4).

(** *** Derivatives of a quotient *)
Lemma d_num b a : derivable_pt_lim (fun x => x / b) a (/ b).
Proof.
  assert (H := derivable_pt_lim_scal id (/ b) a 1 (derivable_pt_lim_id a)). rewrite Rmult_1_r in H.
  intros e He. destruct (H e He) as [d Hd]. exists d. intros h Hh Hd'. specialize (Hd h Hh Hd').
  unfold mult_real_fct, id in Hd. unfold Rdiv at 2 3. rewrite (Rmult_comm (a + h)), (Rmult_comm a). exact Hd.
Qed.
Lemma d_den a b : b <> 0 -> derivable_pt_lim (fun y => a / y) b (- (a / b ^ 2)).
Proof.
  intros Hb. assert (H := derivable_pt_lim_div (fct_cte a) id b 0 1 (derivable_pt_lim_const a b) (derivable_pt_lim_id b) Hb).
  unfold fct_cte at 2, id at 2 3 in H. replace ((0 * b - 1 * a) / Rsqr b) with (- (a / b ^ 2)) in H by (unfold Rsqr; field; auto).
  exact H.
Qed.
Lemma d_ext f g x l : (forall y, f y = g y) -> derivable_pt_lim f x l -> derivable_pt_lim g x l.
Proof. intros E H e He. destruct (H e He) as [d Hd]. exists d. intros h. rewrite <- !E. apply Hd. Qed.
Lemma ratio_gradient a b ga gb : b <> 0 -> gradient2 (fun x y => x / y) a b ga gb -> ga = / b /\ gb = - (a / b ^ 2).
Proof.
  intros Hb [H1 H2]. split; eapply uniqueness_limite; eauto using d_num, d_den.
Qed.
Lemma ratios_gradient a b c d ga gb gc gd : b <> 0 -> d <> 0 ->
  gradient4 (fun a b c d => a / b - c / d) a b c d ga gb gc gd ->
  ga = / b /\ gb = - (a / b ^ 2) /\ gc = - / d /\ gd = c / d ^ 2.
Proof.
  intros Hb Hd (H1 & H2 & H3 & H4).
  assert (K : forall k x, derivable_pt_lim (fct_cte k) x 0) by (intros; apply derivable_pt_lim_const).
  repeat split; eapply uniqueness_limite; eauto.
  - replace (/ b) with (/ b - 0) by ring. apply (derivable_pt_lim_minus (fun x => x / b) (fct_cte (c / d))); auto using d_num.
  - replace (- (a / b ^ 2)) with (- (a / b ^ 2) - 0) by ring. apply (derivable_pt_lim_minus (fun x => a / x) (fct_cte (c / d))); auto using d_den.
  - replace (- / d) with (0 - / d) by ring. apply (derivable_pt_lim_minus (fct_cte (a / b)) (fun x => x / d)); auto using d_num.
  - replace (c / d ^ 2) with (0 - - (c / d ^ 2)) by ring. apply (derivable_pt_lim_minus (fct_cte (a / b)) (fun x => c / x)); auto using d_den.
Qed.

Theorem c60_variance_of_a_ratio : forall m1 m2 v1 v2 c ga gb,
  m1 <> 0 -> m2 <> 0 -> gradient2 (fun x y => x / y) m1 m2 ga gb ->
  ratio_mean_and_variance (Fin m1) (Fin m2) (Fin v1) (Fin v2) (Fin c) = (Fin (m1 / m2), Fin (propagated2 ga gb v1 v2 c)).
Proof.
  intros m1 m2 v1 v2 c ga gb N1 N2 G. destruct (ratio_gradient _ _ _ _ N2 G) as [-> ->].
  unfold ratio_mean_and_variance, nsq. cbn [nmul]. rewrite !ndiv_fin by (try apply Rmult_integral_contrapositive_currified; auto).
  cbn [nadd nmul]. rewrite nsub_fin. cbn [nmul]. do 2 f_equal. unfold propagated2. field. auto.
Qed.
Theorem c60_variance_of_a_ratio_not_negative : forall m1 m2 v1 v2 c,
  m1 <> 0 -> m2 <> 0 -> 0 <= v1 -> 0 <= v2 -> c ^ 2 <= v1 * v2 ->
  exists v, snd (ratio_mean_and_variance (Fin m1) (Fin m2) (Fin v1) (Fin v2) (Fin c)) = Fin v /\ 0 <= v.
Proof.
  intros m1 m2 v1 v2 c N1 N2 P1 P2 CS.
  rewrite (c60_variance_of_a_ratio m1 m2 v1 v2 c (/ m2) (- (m1 / m2 ^ 2))); auto.
  2:{ split; [apply d_num|apply d_den; auto]. }
  eexists. split; [reflexivity|]. unfold propagated2. set (p := / m2). set (q := - (m1 / m2 ^ 2)).
  destruct (Req_dec v1 0) as [->|N].
  - assert (c = 0) by nra. subst c. nra.
  - assert (0 < v1) by lra. apply Rmult_le_reg_l with v1; auto. rewrite Rmult_0_r.
    replace (v1 * (p * p * v1 + q * q * v2 + 2 * (p * q * c))) with ((p * v1 + q * c) ^ 2 + q ^ 2 * (v1 * v2 - c ^ 2)) by ring.
    assert (0 <= (p * v1 + q * c) ^ 2) by apply pow2_ge_0. assert (0 <= q ^ 2) by apply pow2_ge_0. nra.
Qed.

(** *** Difference of two ratios *)
Definition ratio_v (K : nat -> nat -> R) (m1 m2 : R) (i j : nat) : R :=
  propagated2 (/ m2) (- (m1 / m2 ^ 2)) (K i i) (K j j) (K i j).

Lemma difference_unfold a b c d K : a <> 0 -> b <> 0 -> c <> 0 -> d <> 0 ->
  difference_of_ratios [Fin a; Fin b; Fin c; Fin d] (matrix4 K) =
  (Fin (a / b - c / d), Fin (propagated [/ b; - (a / b ^ 2); - / d; c / d ^ 2] K), Fin (a / b), Fin (c / d),
   Fin (ratio_v K a b 0 1), Fin (ratio_v K c d 2 3),
   ndiv (Fin (ratio_v K a b 0 1 + ratio_v K c d 2 3 - propagated [/ b; - (a / b ^ 2); - / d; c / d ^ 2] K))
        (nmul (Fin 2) (nsqrt (Fin (ratio_v K a b 0 1 * ratio_v K c d 2 3))))).
Proof.
  intros Ha Hb Hc Hd. unfold difference_of_ratios. unfold mat, vec, matrix4. cbn [nth map seq].
  rewrite (c60_variance_of_a_ratio a b _ _ _ (/ b) (- (a / b ^ 2))) by (auto; (split; [apply d_num|apply d_den; auto])).
  rewrite (c60_variance_of_a_ratio c d _ _ _ (/ d) (- (c / d ^ 2))) by (auto; (split; [apply d_num|apply d_den; auto])).
  cbn [fst snd]. fold (ratio_v K a b 0 1) (ratio_v K c d 2 3).
  assert (E : quadratic_form [ndiv (Fin 1) (Fin b); ndiv (nneg (Fin a)) (nsq (Fin b)); ndiv (Fin (-1)) (Fin d); ndiv (Fin c) (nsq (Fin d))]
     [[Fin (K 0 0)%nat; Fin (K 0 1)%nat; Fin (K 0 2)%nat; Fin (K 0 3)%nat]; [Fin (K 1 0)%nat; Fin (K 1 1)%nat; Fin (K 1 2)%nat; Fin (K 1 3)%nat];
      [Fin (K 2 0)%nat; Fin (K 2 1)%nat; Fin (K 2 2)%nat; Fin (K 2 3)%nat]; [Fin (K 3 0)%nat; Fin (K 3 1)%nat; Fin (K 3 2)%nat; Fin (K 3 3)%nat]]
     = Fin (propagated [/ b; - (a / b ^ 2); - / d; c / d ^ 2] K)).
  { unfold nsq. cbn [nmul nneg]. rewrite !ndiv_fin by (try apply Rmult_integral_contrapositive_currified; auto).
    unfold quadratic_form, ndot, vec. cbn [List.length seq map nth combine nsum fst snd nmul nadd].
    f_equal. unfold propagated. cbn [List.length seq map nth rsum]. field. auto. }
  unfold nsq in E. unfold nsq. cbn [nmul nneg nsub nadd] in *. rewrite E. reflexivity.
Qed.

Theorem c60_variance_of_a_difference_of_ratios : forall a b c d K ga gb gc gd dm dv m1 m2 v1 v2 corr,
  a <> 0 -> b <> 0 -> c <> 0 -> d <> 0 ->
  gradient4 (fun a b c d => a / b - c / d) a b c d ga gb gc gd ->
  difference_of_ratios [Fin a; Fin b; Fin c; Fin d] (matrix4 K) = (dm, dv, m1, m2, v1, v2, corr) ->
  dm = Fin (a / b - c / d) /\ dv = Fin (propagated [ga; gb; gc; gd] K) /\ m1 = Fin (a / b) /\ m2 = Fin (c / d).
Proof.
  intros a b c d K ga gb gc gd dm dv m1 m2 v1 v2 corr Ha Hb Hc Hd G H.
  destruct (ratios_gradient _ _ _ _ _ _ _ _ Hb Hd G) as (-> & -> & -> & ->).
  rewrite difference_unfold in H by auto. repeat split; congruence.
Qed.

(** covariance of the two ratios, first order *)
Definition cross (K : nat -> nat -> R) (ga gb gc gd : R) : R :=
  ga * gc * K 0%nat 2%nat + ga * gd * K 0%nat 3%nat + gb * gc * K 1%nat 2%nat + gb * gd * K 1%nat 3%nat.
Lemma propagated_split K ga gb gc gd : symmetric K ->
  propagated [ga; gb; gc; gd] K =
  propagated2 ga gb (K 0 0)%nat (K 1 1)%nat (K 0 1)%nat + propagated2 gc gd (K 2 2)%nat (K 3 3)%nat (K 2 3)%nat + 2 * cross K ga gb gc gd.
Proof.
  intros HS. unfold propagated, propagated2, cross. cbn [List.length seq map nth rsum].
  rewrite (HS 1%nat 0%nat), (HS 2%nat 0%nat), (HS 3%nat 0%nat), (HS 2%nat 1%nat), (HS 3%nat 1%nat), (HS 3%nat 2%nat). ring.
Qed.

(** The reported correlation is a correlation, and the reported variance of the difference is
    var_1 + var_2 - 2 corr sd_1 sd_2: so the absolute interval, which is built from the latter
    expression, uses the delta-method variance. *)
Theorem c60_correlation_of_the_ratios : forall a b c d K dm dv m1 m2 v1 v2 corr,
  a <> 0 -> b <> 0 -> c <> 0 -> d <> 0 -> symmetric K -> semidefinite4 K ->
  difference_of_ratios [Fin a; Fin b; Fin c; Fin d] (matrix4 K) = (dm, dv, m1, m2, Fin v1, Fin v2, corr) ->
  0 <= v1 /\ 0 <= v2 /\
  (0 < v1 -> 0 < v2 -> exists rho, corr = Fin rho /\ -1 <= rho <= 1 /\
     dv = Fin (v1 + v2 - 2 * rho * sqrt v1 * sqrt v2)).
Proof.
  intros a b c d K dm dv m1 m2 v1 v2 corr Ha Hb Hc Hd HS HP H.
  rewrite difference_unfold in H by auto. revert H. rewrite propagated_split by auto.
  set (ga := / b). set (gb := - (a / b ^ 2)). set (gc := - / d). set (gd := c / d ^ 2).
  assert (EV : ratio_v K c d 2 3 = propagated2 gc gd (K 2 2)%nat (K 3 3)%nat (K 2 3)%nat).
  { unfold ratio_v, propagated2, gc, gd. ring. }
  rewrite EV. unfold ratio_v. fold ga gb.
  set (V1 := propagated2 ga gb _ _ _). set (V2 := propagated2 gc gd _ _ _). set (X := cross K ga gb gc gd). intros H.
  assert (E1 : v1 = V1) by congruence. assert (E2 : v2 = V2) by congruence.
  assert (Q : forall s t, 0 <= s ^ 2 * V1 + t ^ 2 * V2 + 2 * (s * t * X)).
  { intros s t. specialize (HP (s * ga) (s * gb) (t * gc) (t * gd)). rewrite propagated_split in HP by auto.
    unfold V1, V2, X. unfold propagated2, cross in *. nra. }
  split; [|split].
  - specialize (Q 1 0). lra.
  - specialize (Q 0 1). lra.
  - rewrite E1, E2. intros P1 P2. assert (S1 := sqrt_lt_R0 _ P1). assert (S2 := sqrt_lt_R0 _ P2).
    assert (M1 := sqrt_sqrt V1 (Rlt_le _ _ P1)). assert (M2 := sqrt_sqrt V2 (Rlt_le _ _ P2)).
    assert (EC : corr = Fin (- X / (sqrt V1 * sqrt V2))).
    { transitivity (ndiv (Fin (V1 + V2 - (V1 + V2 + 2 * X))) (nmul (Fin 2) (nsqrt (Fin (V1 * V2))))); [congruence|].
      rewrite nsqrt_fin by nra. cbn [nmul]. rewrite sqrt_mult by lra. rewrite ndiv_fin by nra. f_equal. field. lra. }
    exists (- X / (sqrt V1 * sqrt V2)). split; [exact EC|].
    set (s1 := sqrt V1) in *. set (s2 := sqrt V2) in *. assert (0 < s1 * s2) by nra.
    assert (L : - (s1 * s2) <= X <= s1 * s2).
    { assert (QA := Q s2 s1). assert (QB := Q s2 (- s1)). rewrite <- M1, <- M2 in QA, QB. split; nra. }
    split.
    + split; apply Rmult_le_reg_r with (s1 * s2); auto;
        [replace (-1 * (s1 * s2)) with (- (s1 * s2)) by ring | rewrite Rmult_1_l];
        replace (- X / (s1 * s2) * (s1 * s2)) with (- X) by (field; lra); lra.
    + transitivity (Fin (V1 + V2 + 2 * X)); [congruence|]. f_equal. field. lra.
Qed.

(** independent arms: the variances add up and the correlation is 0 *)
Theorem c60_independent_arms : forall a b c d K dm dv m1 m2 v1 v2 corr,
  a <> 0 -> b <> 0 -> c <> 0 -> d <> 0 -> symmetric K ->
  (forall i j, (i < 2)%nat -> (2 <= j < 4)%nat -> K i j = 0) ->
  difference_of_ratios [Fin a; Fin b; Fin c; Fin d] (matrix4 K) = (dm, dv, m1, m2, Fin v1, Fin v2, corr) ->
  dv = Fin (v1 + v2) /\ (0 < v1 -> 0 < v2 -> corr = Fin 0).
Proof.
  intros a b c d K dm dv m1 m2 v1 v2 corr Ha Hb Hc Hd HS HZ H.
  rewrite difference_unfold in H by auto. revert H. rewrite propagated_split by auto.
  assert (EX : cross K (/ b) (- (a / b ^ 2)) (- / d) (c / d ^ 2) = 0).
  { unfold cross. rewrite !HZ by lia. ring. }
  rewrite EX.
  assert (EV : propagated2 (- / d) (c / d ^ 2) (K 2 2)%nat (K 3 3)%nat (K 2 3)%nat = ratio_v K c d 2 3).
  { unfold ratio_v, propagated2. ring. }
  rewrite EV. fold (ratio_v K a b 0 1). set (V1 := ratio_v K a b 0 1). set (V2 := ratio_v K c d 2 3). intros H.
  assert (E1 : v1 = V1) by congruence. assert (E2 : v2 = V2) by congruence. rewrite E1, E2. split.
  - transitivity (Fin (V1 + V2 + 2 * 0)); [congruence|]. f_equal. ring.
  - intros P1 P2. assert (P := Rmult_lt_0_compat _ _ P1 P2). assert (S := sqrt_lt_R0 _ P).
    transitivity (ndiv (Fin (V1 + V2 - (V1 + V2 + 2 * 0))) (nmul (Fin 2) (nsqrt (Fin (V1 * V2))))); [congruence|].
    rewrite nsqrt_fin by lra. cbn [nmul]. rewrite ndiv_fin by lra. f_equal. field. lra.
Qed.

(** a numerator mean of 0: the code's formula divides by it, and returns NaN *)
Theorem c60_variance_with_zero_numerator_refuted :
  exists m2 v1 v2 c ga gb,
    m2 <> 0 /\ 0 < v1 /\ 0 < v2 /\ c ^ 2 <= v1 * v2 /\ gradient2 (fun x y => x / y) 0 m2 ga gb /\
    propagated2 ga gb v1 v2 c = 1 /\
    ratio_mean_and_variance (Fin 0) (Fin m2) (Fin v1) (Fin v2) (Fin c) = (Fin 0, NaN).
Proof.
  exists 1, 1, 1, 0, (/ 1), (- (0 / 1 ^ 2)).
  do 4 (split; [lra|]). split; [split; [apply d_num|apply d_den; lra]|]. split; [unfold propagated2; field|].
  unfold ratio_mean_and_variance, nsq. cbn [nmul]. rewrite ndiv_fin by lra. replace (0 / 1) with 0 by field. cbn [nmul].
  rewrite Rmult_0_l. f_equal. rewrite (ndiv_fin 1 (1 * 1)) by lra. cbn [ndiv]. rewrite Req_bool_true by reflexivity.
  replace (2 * 0) with 0 by ring. rewrite (Req_bool_true (0 * 1) 0) by ring. rewrite ninf_of_0. destruct (ninf_of 1); reflexivity.
Qed.

(** *** A non-trivial case of the hypotheses: two correlated arms *)
Definition exK (i j : nat) : R :=
  if Nat.eqb i j then 4 else if Nat.eqb (i + j) 2 then 1 else 0.
Example exK_ok : symmetric exK /\ semidefinite4 exK /\ exK 0 2 <> 0.
Proof.
  split; [|split].
  - intros i j. unfold exK. rewrite (Nat.eqb_sym j i), (Nat.add_comm j i). reflexivity.
  - intros a b c d. unfold propagated, exK. cbn [List.length seq map nth rsum Nat.eqb Nat.add]. nra.
  - unfold exK. cbn. lra.
Qed.
Example ratios_example : exists rho dv,
  difference_of_ratios [Fin 3; Fin 2; Fin 1; Fin 4] (matrix4 exK) =
    (Fin (3 / 2 - 1 / 4), Fin dv, Fin (3 / 2), Fin (1 / 4), Fin (13 / 4), Fin (17 / 64), Fin rho) /\ -1 <= rho <= 1.
Proof.
  destruct exK_ok as (S1 & S2 & _).
  assert (E1 : ratio_v exK 3 2 0 1 = 13 / 4) by (unfold ratio_v, propagated2, exK; cbn [Nat.eqb Nat.add]; field).
  assert (E2 : ratio_v exK 1 4 2 3 = 17 / 64) by (unfold ratio_v, propagated2, exK; cbn [Nat.eqb Nat.add]; field).
  assert (U := difference_unfold 3 2 1 4 exK ltac:(lra) ltac:(lra) ltac:(lra) ltac:(lra)). rewrite E1, E2 in U.
  destruct (c60_correlation_of_the_ratios 3 2 1 4 exK _ _ _ _ _ _ _ ltac:(lra) ltac:(lra) ltac:(lra) ltac:(lra) S1 S2 U) as (_ & _ & X).
  destruct (X ltac:(lra) ltac:(lra)) as (rho & E & B & _). exists rho. eexists. split; [|exact B]. rewrite U, E. reflexivity.
Qed.

Print Assumptions c60_variance_of_a_ratio.
Print Assumptions c60_variance_of_a_ratio_not_negative.
Print Assumptions c60_variance_of_a_difference_of_ratios.
Print Assumptions c60_correlation_of_the_ratios.
Print Assumptions c60_independent_arms.
Print Assumptions c60_variance_with_zero_numerator_refuted.
