(** C111: what rounding does to the standard errors of the independent test. *)
From Coq Require Import ZArith Reals Lra Lia List Bool.
From Flocq Require Import Core BinarySingleNaN.
Require Import Verif.Base Verif.Num Verif.F64 Verif.Table_Model Verif.Table_Props Verif.Stats_Model Verif.Fieller_Props
  Verif.Sums_Model Verif.Sums_Props Verif.Vars_Model Verif.Vars_Props Verif.Stderr_Model.
Import ListNotations.
Open Scope R_scope.

(** *** Specification *)
(** [computed] is the number [truth] >= 0 after at most [d] roundings in a row, of which squares may have
    lost at most [t] below the smallest doubles *)
Definition root_near (d : nat) (t computed truth : R) : Prop :=
  Rabs (computed - truth) <= ((1 + unit_error) ^ d - 1) * truth + (1 + unit_error) ^ d * sqrt (t * tiny) + tiny.

(** *** Square roots *)
Lemma fsqrt_finite x : is_finite (fsqrt x) = true -> is_finite x = true.
Proof.
  intros F. destruct (Bsqrt_correct 53 1024 prec_gt_0_53 prec_lt_1024 mode_NE x) as (_ & FS & _). unfold fsqrt in F. rewrite FS in F.
  destruct x as [s|s| |s m e B]; try discriminate; reflexivity.
Qed.
Lemma fsqrt_value x : B2R (fsqrt x) = rnd (sqrt (B2R x)).
Proof.
  destruct (Bsqrt_correct 53 1024 prec_gt_0_53 prec_lt_1024 mode_NE x) as (V & _). change (round_mode mode_NE) with ZnearestE in V. rewrite fexp_eq in V. exact V.
Qed.
Lemma le_of_squares a b : 0 <= b -> a * a <= b * b -> a <= b.
Proof. intros P H. apply Rsqr_incr_0_var; auto. Qed.

Lemma root_gap g v x e : 1 <= g -> 0 <= v -> 0 <= x -> 0 <= e -> Rabs (x - v) <= (g - 1) * v + e -> Rabs (sqrt x - sqrt v) <= (g - 1) * sqrt v + sqrt e.
Proof.
  intros G V X E H. apply Rabs_le_inv in H. assert (SV := sqrt_pos v). assert (SX := sqrt_pos x). assert (SE := sqrt_pos e).
  assert (QV := sqrt_sqrt v V). assert (QX := sqrt_sqrt x X). assert (QE := sqrt_sqrt e E).
  assert (M : 0 <= sqrt v * sqrt e) by now apply Rmult_le_pos. assert (M2 : 0 <= sqrt x * sqrt e) by now apply Rmult_le_pos.
  apply Rabs_le. split.
  - destruct (Rle_lt_dec 2 g) as [L|L]; [assert (0 <= (g - 2) * sqrt v) by (apply Rmult_le_pos; lra); lra|].
    enough ((2 - g) * sqrt v <= sqrt x + sqrt e) by lra. apply le_of_squares; [lra|].
    replace ((2 - g) * sqrt v * ((2 - g) * sqrt v)) with ((2 - g) * (2 - g) * (sqrt v * sqrt v)) by ring. rewrite QV.
    replace ((sqrt x + sqrt e) * (sqrt x + sqrt e)) with (sqrt x * sqrt x + sqrt e * sqrt e + 2 * (sqrt x * sqrt e)) by ring. rewrite QX, QE.
    assert ((2 - g) * (2 - g) * v <= (2 - g) * 1 * v) by (apply Rmult_le_compat_r; [auto|]; apply Rmult_le_compat_l; lra). lra.
  - enough (sqrt x <= g * sqrt v + sqrt e) by lra. apply le_of_squares; [assert (0 <= g * sqrt v) by (apply Rmult_le_pos; lra); lra|].
    replace ((g * sqrt v + sqrt e) * (g * sqrt v + sqrt e)) with (g * g * (sqrt v * sqrt v) + sqrt e * sqrt e + 2 * (g * (sqrt v * sqrt e))) by ring. rewrite QX, QV, QE.
    assert (g * 1 * v <= g * g * v) by (apply Rmult_le_compat_r; [auto|]; apply Rmult_le_compat_l; lra).
    assert (0 <= g * (sqrt v * sqrt e)) by (apply Rmult_le_pos; lra). lra.
Qed.

Lemma near_root d t (x : f64) v : near d t (B2R x) v v -> 0 <= t -> 0 <= v -> 0 <= B2R x -> root_near (S d) t (B2R (fsqrt x)) (sqrt v).
Proof.
  intros [_ H] PT PV PX. unfold root_near. rewrite fsqrt_value. assert (U := unit_error_pos). assert (TP := tiny_pos). assert (G := growth d). cbn [pow].
  set (g := (1 + unit_error) ^ d) in *. assert (PE : 0 <= t * tiny) by (apply Rmult_le_pos; lra).
  assert (K := root_gap g v (B2R x) (g * (t * tiny)) G PV PX ltac:(apply Rmult_le_pos; lra) H).
  assert (SG : sqrt (g * (t * tiny)) <= g * sqrt (t * tiny)).
  { rewrite sqrt_mult by lra. apply Rmult_le_compat_r; [apply sqrt_pos|]. apply le_of_squares; [lra|]. rewrite sqrt_sqrt by lra. rewrite <- (Rmult_1_l g) at 1. apply Rmult_le_compat_r; lra. }
  assert (RE := rnd_error (sqrt (B2R x))). fold unit_error tiny in RE. rewrite (Rabs_pos_eq (sqrt (B2R x))) in RE by apply sqrt_pos.
  set (b := (g - 1) * sqrt v + g * sqrt (t * tiny)). assert (KB : Rabs (sqrt (B2R x) - sqrt v) <= b) by (unfold b; lra).
  assert (X : sqrt (B2R x) <= sqrt v + b) by (apply Rabs_le_inv in KB; lra).
  assert (Y : unit_error * sqrt (B2R x) <= unit_error * (sqrt v + b)) by (apply Rmult_le_compat_l; lra).
  replace (rnd (sqrt (B2R x)) - sqrt v) with ((rnd (sqrt (B2R x)) - sqrt (B2R x)) + (sqrt (B2R x) - sqrt v)) by ring. eapply Rle_trans; [apply Rabs_triang|].
  replace (((1 + unit_error) * g - 1) * sqrt v + (1 + unit_error) * g * sqrt (t * tiny) + tiny) with (unit_error * (sqrt v + b) + b + tiny) by (unfold b; ring). lra.
Qed.
Lemma root_near_more d t c v d' t' : root_near d t c v -> 0 <= v -> (d <= d')%nat -> 0 <= t <= t' -> root_near d' t' c v.
Proof.
  intros H V LD LT. unfold root_near in *. assert (TP := tiny_pos). destruct (growth_le d d' LD) as [G1 G2].
  assert (S1 : sqrt (t * tiny) <= sqrt (t' * tiny)) by (apply sqrt_le_1_alt, Rmult_le_compat_r; lra). assert (S0 := sqrt_pos (t * tiny)).
  assert (((1 + unit_error) ^ d - 1) * v <= ((1 + unit_error) ^ d' - 1) * v) by (apply Rmult_le_compat_r; lra).
  assert ((1 + unit_error) ^ d * sqrt (t * tiny) <= (1 + unit_error) ^ d' * sqrt (t' * tiny)) by (apply Rmult_le_compat; lra). lra.
Qed.

(** *** The squared standard errors *)
Lemma fsq_near x : is_finite (fsq x) = true -> near 1 1 (B2R (fsq x)) (B2R x ^ 2) (B2R x ^ 2).
Proof.
  intros F. unfold fsq in *. rewrite (fmul_value _ _ F). rewrite <- (Rplus_0_l 1) at 1. apply near_rnd; [|lra].
  replace (B2R x ^ 2) with (B2R x * B2R x) by ring. assert (N := near_exact (B2R x * B2R x)). rewrite Rabs_pos_eq in N by apply Rle_0_sqr. exact N.
Qed.
Lemma fsq_pos x : is_finite (fsq x) = true -> 0 <= B2R (fsq x).
Proof. apply fmul_self_pos. Qed.
Lemma scaled_pos z (x : f64) : (0 <= z <= 2 ^ 53)%Z -> is_finite (fmul (of_Z z) x) = true -> 0 <= B2R x -> 0 <= B2R (fmul (of_Z z) x).
Proof.
  intros L F P. rewrite (fmul_value _ _ F). apply rnd_pos. destruct (of_Z_correct z) as [_ V]; [lia|]. rewrite V. apply Rmult_le_pos; [apply IZR_le; lia|auto].
Qed.
Lemma divided_pos n (x : f64) : (0 < n <= 2 ^ 53)%Z -> is_finite (fdiv x (of_Z n)) = true -> 0 <= B2R x -> 0 <= B2R (fdiv x (of_Z n)).
Proof.
  intros L F P. destruct (of_Z_correct n) as [_ V]; [lia|]. assert (PN : 0 < IZR n) by (apply IZR_lt; lia). rewrite fdiv_value by (auto; rewrite V; lra).
  apply rnd_pos. rewrite V. apply Rmult_le_pos; [auto|]. left. now apply Rinv_0_lt_compat.
Qed.
Lemma near_scaled d t (a : f64) x m z : near d t (B2R a) x m -> 0 <= t -> (0 <= z <= 2 ^ 53)%Z -> is_finite (fmul (of_Z z) a) = true ->
  near (S d) (IZR z * t + 1) (B2R (fmul (of_Z z) a)) (IZR z * x) (IZR z * m).
Proof.
  intros H PT L F. destruct (of_Z_correct z) as [_ V]; [lia|]. rewrite (fmul_value _ _ F), V.
  assert (P : 0 <= IZR z) by (apply IZR_le; lia). apply near_rnd; [|apply Rmult_le_pos; lra]. now apply near_scale.
Qed.

Definition sizes_fit (n1 n2 : Z) : Prop := (0 < n1 /\ 0 < n2 /\ n1 + n2 <= 2 ^ 53)%Z.
(** statistics.py:684-687 over the reals *)
Definition exact_pooled (x y : R) (n1 n2 : Z) : R := (IZR (n1 - 1) * x ^ 2 + IZR (n2 - 1) * y ^ 2) / IZR (n1 + n2 - 2).
Definition exact_parts (x y : R) (n1 n2 : Z) (equal_var : bool) : R * R :=
  if equal_var then (exact_pooled x y n1 n2 / IZR n1, exact_pooled x y n1 n2 / IZR n2) else (x ^ 2 / IZR n1, y ^ 2 / IZR n2).

Lemma inv_le_1 n : (0 < n)%Z -> 0 < / IZR n <= 1.
Proof.
  intros L. assert (1 <= IZR n) by (apply IZR_le; lia). split; [apply Rinv_0_lt_compat; lra|]. rewrite <- Rinv_1. apply Rinv_le_contravar; lra.
Qed.
Lemma pooled_near s1 s2 n1 n2 : sizes_fit n1 n2 -> (2 < n1 + n2)%Z -> is_finite (pooled_variance s1 s2 n1 n2) = true ->
  near 4 4 (B2R (pooled_variance s1 s2 n1 n2)) (exact_pooled (B2R s1) (B2R s2) n1 n2) (exact_pooled (B2R s1) (B2R s2) n1 n2) /\ 0 <= B2R (pooled_variance s1 s2 n1 n2).
Proof.
  unfold pooled_variance, exact_pooled. intros (P1 & P2 & L) L2 F. assert (F1 := fdiv_finite _ _ F). destruct (fadd_finite _ _ F1) as [Fa Fb].
  destruct (fmul_finite _ _ Fa) as [_ Sa]. destruct (fmul_finite _ _ Fb) as [_ Sb].
  split.
  - assert (Na := near_scaled 1 1 _ _ _ (n1 - 1) (fsq_near s1 Sa) Rle_0_1 ltac:(lia) Fa).
    assert (Nb := near_scaled 1 1 _ _ _ (n2 - 1) (fsq_near s2 Sb) Rle_0_1 ltac:(lia) Fb).
    assert (Z1 : 0 <= IZR (n1 - 1)) by (apply IZR_le; lia). assert (Z2 : 0 <= IZR (n2 - 1)) by (apply IZR_le; lia).
    assert (S := near_rnd_plus 2 _ _ _ _ _ (near_sum _ _ _ _ _ _ _ _ _ Na Nb) ltac:(lra)). rewrite <- (fadd_value _ _ F1) in S.
    assert (D := near_div 3 _ _ _ _ (n1 + n2 - 2) S ltac:(lra) ltac:(lia) F).
    assert (PN : 1 <= IZR (n1 + n2 - 2)) by (apply IZR_le; lia). assert (PI := inv_le_1 (n1 + n2 - 2) ltac:(lia)).
    assert (T : (IZR (n1 - 1) * 1 + 1 + (IZR (n2 - 1) * 1 + 1)) / IZR (n1 + n2 - 2) + 1 <= 4).
    { replace (IZR (n1 - 1) * 1 + 1 + (IZR (n2 - 1) * 1 + 1)) with (IZR (n1 + n2 - 2) + 2) by (rewrite !minus_IZR, plus_IZR; ring).
      unfold Rdiv. rewrite Rmult_plus_distr_r, Rinv_r by lra. lra. }
    eapply near_more; [exact D|lia|exact T|lra|apply Rle_refl].
  - apply divided_pos; [lia|auto|]. apply fadd_pos; auto; apply scaled_pos; auto; try lia; now apply fsq_pos.
Qed.

Lemma parts_near s1 s2 n1 n2 ev : sizes_fit n1 n2 -> (ev = true -> 2 < n1 + n2)%Z ->
  let (a, b) := squared_errors s1 s2 n1 n2 ev in let (x, y) := exact_parts (B2R s1) (B2R s2) n1 n2 ev in
  let d := if ev then 5%nat else 2%nat in let t := if ev then 5 else 2 in
  is_finite a = true -> is_finite b = true ->
  near d t (B2R a) x x /\ near d t (B2R b) y y /\ 0 <= B2R a /\ 0 <= B2R b.
Proof.
  intros (P1 & P2 & L) L2. unfold squared_errors, exact_parts. assert (I1 := inv_le_1 n1 P1). assert (I2 := inv_le_1 n2 P2).
  destruct ev; cbv zeta; intros Fa Fb; assert (Sa := fdiv_finite _ _ Fa); assert (Sb := fdiv_finite _ _ Fb).
  - destruct (pooled_near s1 s2 n1 n2 (conj P1 (conj P2 L)) (L2 eq_refl) Sa) as [N P].
    assert (Na := near_div 4 4 _ _ _ n1 N ltac:(lra) ltac:(lia) Fa). assert (Nb := near_div 4 4 _ _ _ n2 N ltac:(lra) ltac:(lia) Fb).
    refine (conj _ (conj _ (conj _ _))); try (apply divided_pos; auto; lia).
    + eapply near_more; [exact Na|lia|unfold Rdiv; lra|lra|apply Rle_refl].
    + eapply near_more; [exact Nb|lia|unfold Rdiv; lra|lra|apply Rle_refl].
  - assert (Na := near_div 1 1 _ _ _ n1 (fsq_near s1 Sa) ltac:(lra) ltac:(lia) Fa). assert (Nb := near_div 1 1 _ _ _ n2 (fsq_near s2 Sb) ltac:(lra) ltac:(lia) Fb).
    refine (conj _ (conj _ (conj _ _))); try (apply divided_pos; auto; try lia; now apply fsq_pos).
    + eapply near_more; [exact Na|lia|unfold Rdiv; lra|lra|apply Rle_refl].
    + eapply near_more; [exact Nb|lia|unfold Rdiv; lra|lra|apply Rle_refl].
Qed.

Lemma parts_pos x y n1 n2 ev : sizes_fit n1 n2 -> (ev = true -> 2 < n1 + n2)%Z -> 0 <= fst (exact_parts x y n1 n2 ev) /\ 0 <= snd (exact_parts x y n1 n2 ev).
Proof.
  intros (P1 & P2 & L) L2. assert (I1 := inv_le_1 n1 P1). assert (I2 := inv_le_1 n2 P2). assert (X := pow2_ge_0 x). assert (Y := pow2_ge_0 y).
  destruct ev; cbn [exact_parts fst snd]; unfold Rdiv; [|split; apply Rmult_le_pos; lra].
  assert (Q : 0 <= exact_pooled x y n1 n2).
  { assert (I := inv_le_1 (n1 + n2 - 2) ltac:(specialize (L2 eq_refl); lia)). assert (0 <= IZR (n1 - 1)) by (apply IZR_le; lia). assert (0 <= IZR (n2 - 1)) by (apply IZR_le; lia).
    unfold exact_pooled, Rdiv. apply Rmult_le_pos; [|lra]. apply Rplus_le_le_0_compat; apply Rmult_le_pos; auto. }
  split; apply Rmult_le_pos; lra.
Qed.

Lemma model_errors x y n1 n2 ev : sizes_fit n1 n2 -> (ev = true -> 2 < n1 + n2)%Z ->
  let (a, b) := exact_parts x y n1 n2 ev in
  two_sample_standard_errors (Fin x) (Fin y) (Fin (IZR n1)) (Fin (IZR n2)) ev = (Fin (sqrt (a + b)), Fin (sqrt a), Fin (sqrt b)).
Proof.
  intros H L2. assert (P := parts_pos x y n1 n2 ev H L2). destruct H as (P1 & P2 & L).
  assert (N1 : IZR n1 <> 0) by (apply not_0_IZR; lia). assert (N2 : IZR n2 <> 0) by (apply not_0_IZR; lia).
  unfold two_sample_standard_errors, exact_parts in *. destruct ev; cbn [fst snd] in P; destruct P as [PA PB].
  - assert (N3 : IZR (n1 + n2 - 2) <> 0) by (apply not_0_IZR; specialize (L2 eq_refl); lia).
    rewrite !nsq_fin, !nsub_fin. cbn [nmul nadd]. rewrite nsub_fin.
    replace (IZR n1 + IZR n2 - 2) with (IZR (n1 + n2 - 2)) by (rewrite minus_IZR, plus_IZR; reflexivity).
    replace (IZR n1 - 1) with (IZR (n1 - 1)) by (rewrite minus_IZR; reflexivity). replace (IZR n2 - 1) with (IZR (n2 - 1)) by (rewrite minus_IZR; reflexivity).
    rewrite (ndiv_fin _ _ N3). fold (exact_pooled x y n1 n2). rewrite (ndiv_fin _ _ N1), (ndiv_fin _ _ N2). cbn [nadd]. rewrite !nsqrt_fin by lra. reflexivity.
  - rewrite !nsq_fin, (ndiv_fin _ _ N1), (ndiv_fin _ _ N2). cbn [nadd]. rewrite !nsqrt_fin by lra. reflexivity.
Qed.

(** *** C111 *)
Theorem c111_rounding_of_standard_errors : forall sd_1 sd_2 n_1 n_2 equal_var se se_1 se_2,
  sizes_fit n_1 n_2 -> (equal_var = true -> 2 < n_1 + n_2)%Z ->
  rounded_standard_errors sd_1 sd_2 n_1 n_2 equal_var = (se, se_1, se_2) -> is_finite se = true ->
  exists e e_1 e_2,
    two_sample_standard_errors (Fin (B2R sd_1)) (Fin (B2R sd_2)) (Fin (IZR n_1)) (Fin (IZR n_2)) equal_var = (Fin e, Fin e_1, Fin e_2) /\
    root_near (if equal_var then 7 else 4) (if equal_var then 10 else 4) (B2R se) e /\
    root_near (if equal_var then 6 else 3) (if equal_var then 5 else 2) (B2R se_1) e_1 /\
    root_near (if equal_var then 6 else 3) (if equal_var then 5 else 2) (B2R se_2) e_2.
Proof.
  intros s1 s2 n1 n2 ev se se1 se2 H L2 E F. assert (N := parts_near s1 s2 n1 n2 ev H L2). assert (M := model_errors (B2R s1) (B2R s2) n1 n2 ev H L2).
  assert (Q := parts_pos (B2R s1) (B2R s2) n1 n2 ev H L2). unfold rounded_standard_errors in E. destruct (squared_errors s1 s2 n1 n2 ev) as [a b].
  destruct (exact_parts (B2R s1) (B2R s2) n1 n2 ev) as [x y]. cbv zeta in N. cbn [fst snd] in Q. destruct Q as [X Y]. injection E as <- <- <-.
  assert (FS := fsqrt_finite _ F). destruct (fadd_finite _ _ FS) as [Fa Fb]. destruct (N Fa Fb) as (Na & Nb & Pa & Pb).
  exists (sqrt (x + y)), (sqrt x), (sqrt y). split; [exact M|].
  assert (S := near_rnd_plus _ _ _ _ _ _ (near_sum _ _ _ _ _ _ _ _ _ Na Nb) ltac:(destruct ev; lra)). rewrite <- (fadd_value _ _ FS) in S.
  assert (R1 := near_root _ _ _ _ S ltac:(destruct ev; lra) ltac:(lra) (fadd_pos _ _ FS Pa Pb)).
  assert (R2 := near_root _ _ _ _ Na ltac:(destruct ev; lra) X Pa). assert (R3 := near_root _ _ _ _ Nb ltac:(destruct ev; lra) Y Pb).
  assert (S1 := sqrt_pos (x + y)). destruct ev; repeat split; auto; eapply root_near_more; try exact R1; auto; try lia; lra.
Qed.

Lemma le_rnd (x : f64) r : B2R x <= r -> B2R x <= rnd r.
Proof.
  intros H. apply rnd_le in H. assert (E : rnd (B2R x) = B2R x) by (apply round_generic; [apply valid_rnd_N|apply B2R_format]). lra.
Qed.
(** The standard error of the difference is never below that of either mean, whatever is rounded. *)
Theorem c111_difference_is_least_precise : forall sd_1 sd_2 n_1 n_2 equal_var se se_1 se_2,
  sizes_fit n_1 n_2 -> (equal_var = true -> 2 < n_1 + n_2)%Z ->
  rounded_standard_errors sd_1 sd_2 n_1 n_2 equal_var = (se, se_1, se_2) -> is_finite se = true ->
  0 <= B2R se_1 <= B2R se /\ 0 <= B2R se_2 <= B2R se.
Proof.
  intros s1 s2 n1 n2 ev se se1 se2 H L2 E F. assert (N := parts_near s1 s2 n1 n2 ev H L2). unfold rounded_standard_errors in E.
  destruct (squared_errors s1 s2 n1 n2 ev) as [a b]. destruct (exact_parts (B2R s1) (B2R s2) n1 n2 ev) as [x y]. cbv zeta in N. injection E as <- <- <-.
  assert (FS := fsqrt_finite _ F). destruct (fadd_finite _ _ FS) as [Fa Fb]. destruct (N Fa Fb) as (_ & _ & Pa & Pb).
  assert (A : B2R a <= B2R (fadd a b)) by (rewrite (fadd_value _ _ FS); apply le_rnd; lra).
  assert (B : B2R b <= B2R (fadd a b)) by (rewrite (fadd_value _ _ FS); apply le_rnd; lra).
  rewrite !fsqrt_value. repeat split; try (apply rnd_pos, sqrt_pos); apply rnd_le, sqrt_le_1_alt; auto.
Qed.

Lemma fadd_comm x y : fadd x y = fadd y x.
Proof.
  destruct x as [a|a| |a m e H], y as [b|b| |b m' e' H']; try reflexivity; try (destruct a, b; reflexivity).
  unfold fadd, Bplus, Fplus_naive. cbv zeta. rewrite (Z.min_comm e e'). now rewrite Z.add_comm.
Qed.

(** Exchanging the arms exchanges the standard errors of the means and leaves every bit of that of the
    difference as it is. *)
Theorem c111_arms_can_be_exchanged : forall sd_1 sd_2 n_1 n_2 equal_var se se_1 se_2,
  rounded_standard_errors sd_1 sd_2 n_1 n_2 equal_var = (se, se_1, se_2) ->
  rounded_standard_errors sd_2 sd_1 n_2 n_1 equal_var = (se, se_2, se_1).
Proof.
  intros s1 s2 n1 n2 ev se se1 se2. unfold rounded_standard_errors, squared_errors. destruct ev.
  - assert (P : pooled_variance s2 s1 n2 n1 = pooled_variance s1 s2 n1 n2) by (unfold pooled_variance; now rewrite fadd_comm, (Z.add_comm n2 n1)).
    rewrite P, (fadd_comm (fdiv _ (of_Z n2))). intros E. injection E as <- <- <-. reflexivity.
  - rewrite (fadd_comm (fdiv (fsq s2) _)). intros E. injection E as <- <- <-. reflexivity.
Qed.

(** The interval recomputes the standard error from those of the means, as many roundings away. *)
Theorem c111_rounding_of_the_interval : forall se_1 se_2,
  is_finite (interval_standard_error se_1 se_2 f0) = true ->
  root_near 3 2 (B2R (interval_standard_error se_1 se_2 f0)) (sqrt (B2R se_1 ^ 2 + B2R se_2 ^ 2)).
Proof.
  intros x y. unfold interval_standard_error. cbv zeta. intros F. assert (FS := fsqrt_finite _ F). destruct (fsub_finite _ _ FS) as [Fa Fm].
  destruct (fadd_finite _ _ Fa) as [Fx Fy]. destruct (fmul_finite _ _ Fm) as [F2 Fz]. destruct (fmul_finite _ _ Fz) as [Fp F0].
  assert (Z0 : vanishes f0) by (split; reflexivity). destruct (vanishes_fmul _ _ F2 (vanishes_fmul _ _ Fp Z0)) as [_ V0].
  assert (S := near_rnd_plus _ _ _ _ _ _ (near_sum _ _ _ _ _ _ _ _ _ (fsq_near x Fx) (fsq_near y Fy)) ltac:(lra)). rewrite <- (fadd_value _ _ Fa) in S.
  assert (E : B2R (fsub (fadd (fsq x) (fsq y)) (fmul (of_Z 2) (fmul (fmul x y) f0))) = B2R (fadd (fsq x) (fsq y))).
  { rewrite (fsub_value _ _ FS), V0, Rminus_0_r. apply round_generic; [apply valid_rnd_N|apply B2R_format]. }
  assert (P := fadd_pos _ _ Fa (fsq_pos _ Fx) (fsq_pos _ Fy)). assert (X := pow2_ge_0 (B2R x)). assert (Y := pow2_ge_0 (B2R y)).
  rewrite <- E in S, P. assert (R1 := near_root _ _ _ _ S ltac:(lra) ltac:(lra) P). eapply root_near_more; [exact R1|apply sqrt_pos|lia|lra].
Qed.

(** Over the reals the two are the same number; in doubles they need not be. *)
Definition one : f64 := of_Z 1.
Theorem c111_interval_uses_the_same_error_refuted :
  ~ (forall sd_1 sd_2 n_1 n_2 equal_var se se_1 se_2, sizes_fit n_1 n_2 -> (2 < n_1 + n_2)%Z ->
      rounded_standard_errors sd_1 sd_2 n_1 n_2 equal_var = (se, se_1, se_2) -> is_finite se = true ->
      interval_standard_error se_1 se_2 f0 = se).
Proof.
  intros H. assert (E := H one one 2%Z 3%Z false _ _ _ ltac:(unfold sizes_fit; lia) ltac:(lia) eq_refl ltac:(vm_compute; reflexivity)).
  apply (f_equal B2SF) in E. vm_compute in E. discriminate.
Qed.

(** *** Examples *)
(** two arms of two and three items with a standard deviation of one *)
Example c111_errors_example : exists e e_1 e_2, exists se se_1 se_2,
  rounded_standard_errors one one 2 3 true = (se, se_1, se_2) /\ is_finite se = true /\ 
  two_sample_standard_errors (Fin (B2R one)) (Fin (B2R one)) (Fin 2) (Fin 3) true = (Fin e, Fin e_1, Fin e_2) /\
  root_near 7 10 (B2R se) e /\ 0 <= B2R se_1 <= B2R se /\ rounded_standard_errors one one 3 2 true = (se, se_2, se_1).
Proof.
  assert (SF : sizes_fit 2 3) by (unfold sizes_fit; lia). destruct (rounded_standard_errors one one 2 3 true) as [[se se1] se2] eqn:E.
  assert (F : is_finite se = true) by (change se with (fst (fst (se, se1, se2))); rewrite <- E; vm_compute; reflexivity).
  destruct (c111_rounding_of_standard_errors one one 2 3 true se se1 se2 SF ltac:(lia) E F) as (e & e1 & e2 & M & R1 & _).
  exists e, e1, e2, se, se1, se2. repeat split; auto; try apply (c111_difference_is_least_precise one one 2 3 true se se1 se2 SF ltac:(lia) E F). now apply c111_arms_can_be_exchanged.
Qed.
Example c111_interval_example : is_finite (interval_standard_error (of_Z 3) (of_Z 4) f0) = true /\ B2SF (interval_standard_error (of_Z 3) (of_Z 4) f0) = B2SF (of_Z 5).
Proof. split; vm_compute; reflexivity. Qed.

Print Assumptions c111_rounding_of_standard_errors.
Print Assumptions c111_difference_is_least_precise.
Print Assumptions c111_arms_can_be_exchanged.
Print Assumptions c111_rounding_of_the_interval.
Print Assumptions c111_interval_uses_the_same_error_refuted.
