(** C110: winsorized means, variances and standard deviations of doubles, in any order of the operations. *)
From Coq Require Import ZArith Reals Lra Lia List Bool Permutation.
From Flocq Require Import Core BinarySingleNaN Relative Plus_error.
Require Import Verif.Base Verif.Num Verif.F64 Verif.Table_Model Verif.Table_Props Verif.Trimmed_Model Verif.Trimmed_Spec Verif.Trimmed_Props Verif.Cuped_Props
  Verif.Sums_Model Verif.Sums_Props Verif.Vars_Model.
Import ListNotations.
Open Scope R_scope.

(** *** Specification *)
(** half the smallest positive double *)
Definition tiny : R := bpow radix2 (-1075).
(** [computed] is the number [truth], of at most the size [size], after at most [d] roundings in a row of
    which [t] may fall below the normal doubles *)
Definition near (d : nat) (t computed truth size : R) : Prop :=
  Rabs truth <= size /\ Rabs (computed - truth) <= ((1 + unit_error) ^ d - 1) * size + (1 + unit_error) ^ d * (t * tiny).

(** the values with the [k] smallest and the [k] largest replaced by [lo] and [hi] *)
Definition winsorized (l : list R) (lo hi : R) (k : nat) : list R := l ++ repeat lo k ++ repeat hi k.
Definition centre (l : list R) : R := exact_sum l / INR (length l).
Definition squares_about (c : R) (l : list R) : R := exact_sum (map (fun x => (x - c) ^ 2) l).
Definition magnitudes (l : list R) : R := exact_sum (map Rabs l).

(** *** Operations with a finite result have finite arguments *)
Lemma fadd_finite x y : is_finite (fadd x y) = true -> is_finite x = true /\ is_finite y = true.
Proof.
  destruct x as [a|a| |a m e H], y as [b|b| |b m' e' H']; auto; cbn; try discriminate. destruct a, b; discriminate.
Qed.
Lemma fsub_finite x y : is_finite (fsub x y) = true -> is_finite x = true /\ is_finite y = true.
Proof.
  destruct x as [a|a| |a m e H], y as [b|b| |b m' e' H']; auto; cbn; try discriminate. destruct a, b; discriminate.
Qed.
Lemma fmul_finite x y : is_finite (fmul x y) = true -> is_finite x = true /\ is_finite y = true.
Proof.
  destruct x as [a|a| |a m e H], y as [b|b| |b m' e' H']; auto; cbn; try discriminate.
Qed.
Lemma ffma_finite x y z : is_finite (ffma x y z) = true -> is_finite x = true /\ is_finite y = true /\ is_finite z = true.
Proof.
  destruct x as [a|a| |a m e H], y as [b|b| |b m' e' H'], z as [c|c| |c m'' e'' H'']; auto; cbn; try discriminate;
    destruct a, b, c; discriminate.
Qed.
Lemma fdiv_finite x y : is_finite (fdiv x y) = true -> is_finite x = true.
Proof.
  destruct x as [a|a| |a m e H], y as [b|b| |b m' e' H']; auto; cbn; discriminate.
Qed.

Lemma fadd_value x y : is_finite (fadd x y) = true -> B2R (fadd x y) = rnd (B2R x + B2R y).
Proof.
  intros F. destruct (fadd_finite x y F) as [Fx Fy]. destruct (fadd_cases x y Fx Fy) as [(_ & _ & V)|(_ & E)]; auto.
  rewrite E in F. discriminate.
Qed.
Lemma fmul_value x y : is_finite (fmul x y) = true -> B2R (fmul x y) = rnd (B2R x * B2R y).
Proof.
  intros F. destruct (fmul_finite x y F) as [Fx Fy]. destruct (fmul_cases x y Fx Fy) as [(_ & _ & V)|(_ & E)]; auto. congruence.
Qed.
Lemma overflow_not_finite (x : f64) s : B2SF x = binary_overflow 53 1024 mode_NE s -> is_finite x = false.
Proof. destruct x; cbn; intros E; try reflexivity; discriminate. Qed.
Lemma fsub_value x y : is_finite (fsub x y) = true -> B2R (fsub x y) = rnd (B2R x - B2R y).
Proof.
  intros F. destruct (fsub_finite x y F) as [Fx Fy].
  generalize (Bminus_correct 53 1024 prec_gt_0_53 prec_lt_1024 mode_NE x y Fx Fy).
  change (round_mode mode_NE) with ZnearestE. rewrite fexp_eq. fold (rnd (B2R x - B2R y)).
  destruct (Rlt_bool _ _); [intros (V & _); exact V|]. intros [E _]. apply overflow_not_finite in E. unfold fsub in F. congruence.
Qed.
Lemma ffma_value x y z : is_finite (ffma x y z) = true -> B2R (ffma x y z) = rnd (B2R x * B2R y + B2R z).
Proof.
  intros F. destruct (ffma_finite x y z F) as (Fx & Fy & Fz).
  generalize (Bfma_correct 53 1024 prec_gt_0_53 prec_lt_1024 mode_NE x y z Fx Fy Fz). cbv zeta.
  change (round_mode mode_NE) with ZnearestE. rewrite fexp_eq. fold (rnd (B2R x * B2R y + B2R z)).
  destruct (Rlt_bool _ _); [intros (V & _); exact V|]. intros E. apply overflow_not_finite in E. unfold ffma in F. congruence.
Qed.
Lemma fdiv_value x y : B2R y <> 0 -> is_finite (fdiv x y) = true -> B2R (fdiv x y) = rnd (B2R x / B2R y).
Proof.
  intros N F. generalize (Bdiv_correct 53 1024 prec_gt_0_53 prec_lt_1024 mode_NE x y N).
  change (round_mode mode_NE) with ZnearestE. rewrite fexp_eq. fold (rnd (B2R x / B2R y)).
  destruct (Rlt_bool _ _); [intros (V & _); exact V|]. intros E. apply overflow_not_finite in E. unfold fdiv in F. congruence.
Qed.

(** *** Rounding *)
Lemma tiny_pos : 0 < tiny.
Proof. apply bpow_gt_0. Qed.
Lemma growth d : 1 <= (1 + unit_error) ^ d.
Proof. apply (growth_le d d). lia. Qed.

Lemma near_exact x : near 0 0 x x (Rabs x).
Proof. split; [lra|]. rewrite Rminus_diag_eq by reflexivity. rewrite Rabs_R0. cbn. lra. Qed.
Lemma near_more d t a x m d' t' m' : near d t a x m -> (d <= d')%nat -> t <= t' -> 0 <= t' -> m <= m' -> near d' t' a x m'.
Proof.
  intros [B E] LD LT PT LM. split; [lra|]. assert (U := tiny_pos). destruct (growth_le d d' LD) as [G1 G2].
  assert (M0 : 0 <= m) by (assert (X := Rabs_pos x); lra).
  assert (X1 : ((1 + unit_error) ^ d - 1) * m <= ((1 + unit_error) ^ d' - 1) * m') by (apply Rmult_le_compat; lra).
  assert (X2 : (1 + unit_error) ^ d * (t * tiny) <= (1 + unit_error) ^ d' * (t' * tiny)).
  { apply Rle_trans with ((1 + unit_error) ^ d * (t' * tiny)).
    - apply Rmult_le_compat_l; [lra|]. apply Rmult_le_compat_r; lra.
    - apply Rmult_le_compat_r; [|lra]. apply Rmult_le_pos; lra. }
  lra.
Qed.
Lemma near_sum d t a x m s b y n : near d t a x m -> near d s b y n -> near d (t + s) (a + b) (x + y) (m + n).
Proof.
  intros [B E] [C F]. split.
  - eapply Rle_trans; [apply Rabs_triang|]. lra.
  - replace (a + b - (x + y)) with ((a - x) + (b - y)) by ring. eapply Rle_trans; [apply Rabs_triang|].
    replace (((1 + unit_error) ^ d - 1) * (m + n) + (1 + unit_error) ^ d * ((t + s) * tiny)) with
      ((((1 + unit_error) ^ d - 1) * m + (1 + unit_error) ^ d * (t * tiny)) + (((1 + unit_error) ^ d - 1) * n + (1 + unit_error) ^ d * (s * tiny))) by ring. lra.
Qed.
Lemma near_scale d t a x m c : 0 <= c -> near d t a x m -> near d (c * t) (c * a) (c * x) (c * m).
Proof.
  intros C [B E]. split.
  - rewrite Rabs_mult, (Rabs_pos_eq c) by auto. now apply Rmult_le_compat_l.
  - replace (c * a - c * x) with (c * (a - x)) by ring. rewrite Rabs_mult, (Rabs_pos_eq c) by auto.
    replace (((1 + unit_error) ^ d - 1) * (c * m) + (1 + unit_error) ^ d * (c * t * tiny)) with
      (c * (((1 + unit_error) ^ d - 1) * m + (1 + unit_error) ^ d * (t * tiny))) by ring. now apply Rmult_le_compat_l.
Qed.
(** one more rounding, with an absolute error of at most [extra] *)
Lemma near_step d t a x m r extra : near d t a x m -> 0 <= t -> 0 <= extra -> Rabs (r - a) <= unit_error * Rabs a + extra * tiny -> near (S d) (t + extra) r x m.
Proof.
  intros [B E] PT PE HR. split; [auto|]. assert (U := unit_error_pos). assert (TP := tiny_pos). assert (G := growth d). cbn [pow].
  set (g := (1 + unit_error) ^ d) in *.
  assert (A : Rabs a <= m + ((g - 1) * m + g * (t * tiny))).
  { replace a with (x + (a - x)) by ring. eapply Rle_trans; [apply Rabs_triang|]. lra. }
  replace (r - x) with ((r - a) + (a - x)) by ring. eapply Rle_trans; [apply Rabs_triang|].
  assert (A2 : unit_error * Rabs a <= unit_error * (m + ((g - 1) * m + g * (t * tiny)))) by (apply Rmult_le_compat_l; lra).
  assert (X : extra * tiny <= (1 + unit_error) * g * (extra * tiny)).
  { rewrite <- (Rmult_1_l (extra * tiny)) at 1. apply Rmult_le_compat_r; [apply Rmult_le_pos; lra|]. rewrite <- (Rmult_1_l 1) at 1. apply Rmult_le_compat; lra. }
  replace (((1 + unit_error) * g - 1) * m + (1 + unit_error) * g * ((t + extra) * tiny)) with
    (unit_error * (m + ((g - 1) * m + g * (t * tiny))) + ((g - 1) * m + g * (t * tiny)) + (1 + unit_error) * g * (extra * tiny)) by ring. lra.
Qed.
Lemma near_rnd d t a x m : near d t a x m -> 0 <= t -> near (S d) (t + 1) (rnd a) x m.
Proof.
  intros H PT. apply (near_step d t a x m); auto; [lra|]. assert (X := rnd_error a). fold unit_error tiny in X. lra.
Qed.
(** sums of doubles are rounded without an absolute error *)
Lemma near_rnd_plus d t (p q : f64) x m : near d t (B2R p + B2R q) x m -> 0 <= t -> near (S d) t (rnd (B2R p + B2R q)) x m.
Proof.
  intros H PT. rewrite <- (Rplus_0_r t). apply (near_step d t (B2R p + B2R q) x m); auto; [lra|].
  destruct (rnd_plus (B2R p) (B2R q) (B2R_format _) (B2R_format _)) as (eps & BE & ->).
  replace ((B2R p + B2R q) * (1 + eps) - (B2R p + B2R q)) with ((B2R p + B2R q) * eps) by ring. rewrite Rabs_mult, Rmult_0_l, Rplus_0_r, Rmult_comm.
  apply Rmult_le_compat_r; [apply Rabs_pos|auto].
Qed.
Lemma near_residual (x c : f64) : is_finite (fsub x c) = true -> near 2 0 (B2R (fsub x c) * B2R (fsub x c)) ((B2R x - B2R c) ^ 2) ((B2R x - B2R c) ^ 2).
Proof.
  intros F. assert (U := unit_error_pos). rewrite (fsub_value _ _ F).
  destruct (rnd_plus (B2R x) (- B2R c) (B2R_format _)) as (eps & BE & E); [apply generic_format_opp, B2R_format|].
  replace (B2R x - B2R c) with (B2R x + - B2R c) by ring. rewrite E. set (y := B2R x + - B2R c).
  assert (P : 0 <= y ^ 2) by apply pow2_ge_0.
  split; [rewrite Rabs_pos_eq; lra|]. rewrite Rmult_0_l, Rmult_0_r, Rplus_0_r.
  replace (y * (1 + eps) * (y * (1 + eps)) - y ^ 2) with ((2 * eps + eps ^ 2) * y ^ 2) by ring. rewrite Rabs_mult, (Rabs_pos_eq (y ^ 2)) by auto.
  apply Rmult_le_compat_r; auto. 
  assert (E2 : eps ^ 2 <= unit_error ^ 2) by (rewrite <- (pow2_abs eps); apply pow_incr; split; [apply Rabs_pos|auto]).
  assert (E3 := pow2_ge_0 eps). apply Rabs_le_inv in BE. cbn [pow] in *. apply Rabs_le. lra.
Qed.

(** *** Sums of lists *)
Lemma exact_sum_repeat x k : exact_sum (repeat x k) = INR k * x.
Proof. induction k; [cbn; ring|]. rewrite S_INR. unfold exact_sum in *. cbn [repeat fold_right]. rewrite IHk. ring. Qed.
Lemma exact_sum_perm a b : Permutation a b -> exact_sum a = exact_sum b.
Proof. unfold exact_sum. induction 1; cbn [fold_right]; lra. Qed.
Lemma map_repeat' {A B} (f : A -> B) x k : map f (repeat x k) = repeat (f x) k.
Proof. induction k; cbn; congruence. Qed.
Lemma winsorized_sum f l lo hi k : exact_sum (map f (winsorized l lo hi k)) = exact_sum (map f l) + INR k * (f lo + f hi).
Proof. unfold winsorized. rewrite !map_app, !exact_sum_app, !map_repeat', !exact_sum_repeat. ring. Qed.
Lemma winsorized_length l lo hi k : length (winsorized l lo hi k) = (length l + 2 * k)%nat.
Proof. unfold winsorized. rewrite !app_length, !repeat_length. lia. Qed.
Lemma squares_pos c l : 0 <= squares_about c l.
Proof. unfold squares_about, exact_sum. induction l as [|x l IH]; cbn [map fold_right]; [lra|]. assert (P := pow2_ge_0 (x - c)). lra. Qed.
Lemma squares_app c a b : squares_about c (a ++ b) = squares_about c a + squares_about c b.
Proof. unfold squares_about. now rewrite map_app, exact_sum_app. Qed.
(** about another centre than the mean the squares are larger *)
Lemma squares_shift c l : l <> [] -> squares_about c l = squares_about (centre l) l + INR (length l) * (c - centre l) ^ 2.
Proof.
  intros NE. assert (G : forall m, squares_about c l = squares_about m l + 2 * (m - c) * (exact_sum l - INR (length l) * m) + INR (length l) * (c - m) ^ 2).
  { intros m. unfold squares_about, exact_sum. clear NE. induction l as [|x l IH]; [cbn; ring|]. cbn [map fold_right length]. rewrite S_INR, IH. ring. }
  rewrite (G (centre l)). assert (E : INR (length l) * centre l = exact_sum l).
  { unfold centre. field. apply not_0_INR. destruct l; [congruence|discriminate]. }
  rewrite E. ring.
Qed.

(** *** The computed values *)
Lemma added_near o : is_finite (added o) = true -> near (depth o) 0 (B2R (added o)) (exact_sum (map B2R (values o))) (sum_abs (values o)).
Proof.
  induction o as [x|l IHl r IHr]; cbn [added depth values]; intros F.
  - unfold sum_abs, exact_sum. cbn [map fold_right]. rewrite !Rplus_0_r. apply near_exact.
  - destruct (fadd_finite _ _ F) as [Fl Fr]. rewrite (fadd_value _ _ F), map_app, exact_sum_app, sum_abs_app. apply near_rnd_plus; [|lra].
    rewrite <- (Rplus_0_r 0). apply near_sum; (eapply near_more; [eauto|lia|lra|lra|lra]).
Qed.

Lemma operands_nonempty q : (0 < length (operands q))%nat.
Proof. induction q; cbn [operands]; rewrite ?app_length; cbn; lia. Qed.
Lemma rounds_pos q : (1 <= rounds q)%nat.
Proof. destruct q; cbn; lia. Qed.
Lemma squared_near c q : is_finite (squared c q) = true ->
  near (rounds q + 2) (INR (length (operands q))) (B2R (squared c q)) (squares_about (B2R c) (map B2R (operands q))) (squares_about (B2R c) (map B2R (operands q))).
Proof.
  induction q as [x|q IH x|l IHl r IHr]; cbn [squared rounds operands]; intros F.
  - destruct (fmul_finite _ _ F) as [Fs _]. rewrite (fmul_value _ _ F). unfold squares_about, exact_sum. cbn [map fold_right length]. rewrite !Rplus_0_r.
    replace (INR 1) with (0 + 1) by (cbn; ring). apply near_rnd; [now apply near_residual|lra].
  - destruct (ffma_finite _ _ _ F) as (Fs & _ & Fq). rewrite (ffma_value _ _ _ F), map_app, squares_app, app_length, plus_INR.
    cbn [length Nat.add]. change (INR 1) with 1. apply near_rnd; [|apply pos_INR].
    assert (ONE : near 2 0 (B2R (fsub x c) * B2R (fsub x c)) (squares_about (B2R c) (map B2R [x])) (squares_about (B2R c) (map B2R [x]))).
    { unfold squares_about, exact_sum. cbn [map fold_right]. rewrite Rplus_0_r. now apply near_residual. }
    rewrite (Rplus_comm (B2R (fsub x c) * _)). rewrite <- (Rplus_0_r (INR (length (operands q)))). apply near_sum; [now apply IH|].
    eapply near_more; [exact ONE|lia|lra|lra|apply Rle_refl].
  - destruct (fadd_finite _ _ F) as [Fl Fr]. rewrite (fadd_value _ _ F), map_app, squares_app, app_length, plus_INR. cbn [Nat.add].
    assert (P1 := pos_INR (length (operands l))). assert (P2 := pos_INR (length (operands r))).
    apply near_rnd_plus; [|lra]. apply near_sum.
    + eapply near_more; [exact (IHl Fl)|lia|apply Rle_refl|exact P1|apply Rle_refl].
    + eapply near_more; [exact (IHr Fr)|lia|apply Rle_refl|exact P2|apply Rle_refl].
Qed.

Lemma near_div d t (a : f64) x m n : near d t (B2R a) x m -> 0 <= t -> (0 < n <= 2 ^ 53)%Z -> is_finite (fdiv a (of_Z n)) = true ->
  near (S d) (t / IZR n + 1) (B2R (fdiv a (of_Z n))) (x / IZR n) (m / IZR n).
Proof.
  intros H PT L F. destruct (of_Z_correct n) as [_ V]; [lia|]. assert (P : 0 < IZR n) by (apply IZR_lt; lia).
  assert (PI := Rinv_0_lt_compat _ P). rewrite fdiv_value by (auto; rewrite V; lra). rewrite V. unfold Rdiv. rewrite !(Rmult_comm _ (/ IZR n)).
  apply near_rnd; [|apply Rmult_le_pos; lra]. apply near_scale; [lra|auto].
Qed.
Lemma near_times d t (a : f64) x m k : near d t (B2R a) x m -> 0 <= t -> (Z.of_nat k <= 2 ^ 53)%Z -> is_finite (fmul (of_Z (Z.of_nat k)) a) = true ->
  near (S d) (INR k * t + 1) (B2R (fmul (of_Z (Z.of_nat k)) a)) (INR k * x) (INR k * m).
Proof.
  intros H PT L F. destruct (of_Z_correct (Z.of_nat k)) as [_ V]; [lia|]. rewrite (fmul_value _ _ F), V, <- INR_IZR_INZ.
  assert (P := pos_INR k). apply near_rnd; [|apply Rmult_le_pos; lra]. now apply near_scale.
Qed.

Lemma average_near o lo hi k n : (0 < Z.of_nat n <= 2 ^ 53)%Z -> (Z.of_nat k <= 2 ^ 53)%Z -> is_finite (winsorized_average o lo hi k n) = true ->
  near (depth o + 4) (/ INR n + 1) (B2R (winsorized_average o lo hi k n))
    (exact_sum (winsorized (map B2R (values o)) (B2R lo) (B2R hi) k) / INR n) (magnitudes (winsorized (map B2R (values o)) (B2R lo) (B2R hi) k) / INR n).
Proof.
  unfold winsorized_average. intros Ln Lk F. assert (F1 := fdiv_finite _ _ F). destruct (fadd_finite _ _ F1) as [Fa Fm]. destruct (fmul_finite _ _ Fm) as [_ Fs].
  rewrite INR_IZR_INZ. replace (/ IZR (Z.of_nat n)) with (1 / IZR (Z.of_nat n)) by (unfold Rdiv; ring).
  replace (depth o + 4)%nat with (S (depth o + 3)) by lia. apply near_div; auto; [|lra].
  unfold magnitudes. rewrite winsorized_sum. rewrite <- (map_id (winsorized _ _ _ _)) at 1. rewrite winsorized_sum, map_id, map_map. fold (sum_abs (values o)).
  rewrite (fadd_value _ _ F1). replace (depth o + 3)%nat with (S (depth o + 2)) by lia. apply near_rnd_plus; [|lra].
  rewrite <- (Rplus_0_l 1). apply near_sum.
  - eapply near_more; [now apply added_near|lia|lra|lra|lra].
  - assert (N : near 1 0 (B2R (fadd lo hi)) (B2R lo + B2R hi) (Rabs (B2R lo) + Rabs (B2R hi))).
    { rewrite (fadd_value _ _ Fs). apply near_rnd_plus; [|lra]. rewrite <- (Rplus_0_r 0). apply near_sum; apply near_exact. }
    assert (X := near_times 1 0 _ _ _ k N (Rle_refl 0) Lk Fm). eapply near_more; [exact X|lia|lra|lra|lra].
Qed.

(** The variance about any centre. *)
Lemma variance_near q c lo hi k n : (0 < n <= 2 ^ 53)%Z -> (Z.of_nat k <= 2 ^ 53)%Z -> is_finite (winsorized_variance q c lo hi k n) = true ->
  let s := squares_about (B2R c) (winsorized (map B2R (operands q)) (B2R lo) (B2R hi) k) in
  is_finite c = true /\ near (rounds q + 6) (INR (length (operands q) + 2 * k + 1) / IZR n + 1) (B2R (winsorized_variance q c lo hi k n)) (s / IZR n) (s / IZR n).
Proof.
  unfold winsorized_variance. cbv zeta. intros Ln Lk F. assert (F1 := fdiv_finite _ _ F). destruct (fadd_finite _ _ F1) as [Fq Fm].
  destruct (fmul_finite _ _ Fm) as [_ Fs]. destruct (fadd_finite _ _ Fs) as [Fl Fh]. destruct (fmul_finite _ _ Fl) as [Rl _]. destruct (fmul_finite _ _ Fh) as [Rh _].
  split; [apply (fsub_finite _ _ Rl)|]. replace (rounds q + 6)%nat with (S (rounds q + 5)) by lia. apply near_div; auto; [|apply pos_INR].
  unfold squares_about at 1 2. rewrite winsorized_sum. fold (squares_about (B2R c) (map B2R (operands q))).
  rewrite (fadd_value _ _ F1). replace (rounds q + 5)%nat with (S (rounds q + 4)) by lia. assert (R1 := rounds_pos q). assert (P1 := pos_INR (length (operands q))). assert (P2 := pos_INR k).
  apply near_rnd_plus; [|apply pos_INR].
  replace (INR (length (operands q) + 2 * k + 1)) with (INR (length (operands q)) + (INR k * 2 + 1)) by (rewrite !plus_INR, mult_INR; cbn; ring).
  apply near_sum.
  - eapply near_more; [now apply squared_near|lia|apply Rle_refl|exact P1|apply Rle_refl].
  - assert (SQ : forall y : f64, is_finite (fmul (fsub y c) (fsub y c)) = true -> near 3 1 (B2R (fmul (fsub y c) (fsub y c))) ((B2R y - B2R c) ^ 2) ((B2R y - B2R c) ^ 2)).
    { intros y Fy. destruct (fmul_finite _ _ Fy) as [Fr _]. rewrite (fmul_value _ _ Fy). rewrite <- (Rplus_0_l 1) at 1. apply near_rnd; [now apply near_residual|lra]. }
    assert (N : near 4 2 (B2R (fadd (fmul (fsub lo c) (fsub lo c)) (fmul (fsub hi c) (fsub hi c)))) ((B2R lo - B2R c) ^ 2 + (B2R hi - B2R c) ^ 2) ((B2R lo - B2R c) ^ 2 + (B2R hi - B2R c) ^ 2)).
    { rewrite (fadd_value _ _ Fs). apply near_rnd_plus; [|lra]. replace 2 with (1 + 1) at 1 by ring. apply near_sum; apply SQ; auto. }
    assert (X := near_times 4 2 _ _ _ k N ltac:(lra) Lk Fm). eapply near_more; [exact X|lia|apply Rle_refl|nra|apply Rle_refl].
Qed.

(** *** The model *)
Lemma trimmed_sizes argsort rows quantile t i row : mk_trimmed argsort rows quantile = Ok t -> nth_error (values_trimmed argsort t) i = Some row ->
  t_size t = (length row + 2 * t_k t)%nat /\ t_len argsort t = length row /\ (i < length (t_rows t))%nat.
Proof.
  intros H E. assert (LR : forall r, In r (values_trimmed argsort t) -> length r = length (t_kept argsort t)).
  { unfold values_trimmed, values_trimmed_of. intros r I. apply in_map_iff in I as (r' & <- & _). unfold take. now rewrite map_length. }
  assert (LI : (i < length (t_rows t))%nat).
  { assert (X : nth_error (values_trimmed argsort t) i <> None) by congruence. apply nth_error_Some in X. unfold values_trimmed, values_trimmed_of in X. now rewrite map_length in X. }
  assert (TL : t_len argsort t = length (t_kept argsort t)).
  { unfold t_len. apply LR. destruct (values_trimmed argsort t); [now destruct i|now left]. }
  rewrite (LR row (nth_error_In _ _ E)), TL. split; [|auto]. rewrite <- TL. unfold t_len, t_size, values_trimmed. unfold mk_trimmed in H.
  destruct (orb _ _); cbn [raise_if bind] in H; [discriminate|]. destruct (floor_mul _ _) as [kz|]; cbn [bind] in H; [|discriminate].
  destruct rows as [|r0 rows]; [discriminate|]. set (rs := r0 :: rows) in *.
  destruct (Z.eqb_spec (Z.of_nat (length (hd [] (values_trimmed_of argsort rs (Z.to_nat kz))))) (Z.of_nat (sample_size rs) - 2 * kz)) as [Q|]; cbn [negb raise_if bind] in H; [|discriminate].
  assert (K : t_rows t = rs /\ t_k t = Z.to_nat kz).
  { destruct (any_array_is_constant rs) as [[|]|]; cbn [bind] in H; try discriminate; [injection H as <-; auto|].
    destruct (any_array_is_constant (values_trimmed_of argsort rs (Z.to_nat kz))) as [b|]; cbn [bind] in H; [|discriminate]. injection H as <-. auto. }
  destruct K as [-> ->]. destruct (Z_lt_le_dec kz 0) as [N|P]; [|lia]. exfalso.
  replace (Z.to_nat kz) with 0%nat in Q by lia. unfold values_trimmed_of, kept_index in Q. cbn [Nat.eqb rs hd map] in Q. unfold take in Q. rewrite map_length, seq_length in Q. subst rs. unfold sample_size in *. cbn [hd] in *. lia.
Qed.

Section Row.
Context (argsort : list num -> list nat) (t : tarray) (xs : list f64) (lo hi : f64).
Let row := map (fun x => Fin (B2R x)) xs.
Let w := winsorized (map B2R xs) (B2R lo) (B2R hi) (t_k t).
Context (HN : t_size t = (length xs + 2 * t_k t)%nat) (HP : (0 < t_size t)%nat).
Context (Hlo : min_value argsort t row = Fin (B2R lo)) (Hhi : max_value argsort t row = Fin (B2R hi)).

Lemma model_length : length w = t_size t.
Proof. unfold w. rewrite winsorized_length, map_length. symmetry. exact HN. Qed.
Lemma model_mean : wmean_of argsort t row = Fin (centre w).
Proof.
  unfold wmean_of. rewrite Hlo, Hhi. unfold row. rewrite <- (map_map B2R Fin), nsum_fin. cbn [nadd nmul].
  rewrite ndiv_fin by (apply not_0_INR; lia). f_equal. unfold centre. rewrite model_length. f_equal.
  rewrite <- (map_id w). unfold w. rewrite winsorized_sum, map_id. reflexivity.
Qed.
Lemma dot_self c l : ndot (map (fun x => nsub x (Fin c)) (map (fun x : f64 => Fin (B2R x)) l)) (map (fun x => nsub x (Fin c)) (map (fun x : f64 => Fin (B2R x)) l)) = Fin (squares_about c (map B2R l)).
Proof.
  unfold ndot. transitivity (nsum (map Fin (map (fun x => (x - c) ^ 2) (map B2R l)))); [|apply nsum_fin].
  f_equal. induction l as [|x l IH]; [reflexivity|]. cbn [map combine fst snd]. f_equal; [|exact IH]. cbn. f_equal. ring.
Qed.
Lemma model_variance ddof : t_len argsort t = length xs -> (Z.of_nat (length xs) - ddof <> 0)%Z ->
  cov_of argsort t ddof row row = Fin (squares_about (centre w) w / IZR (Z.of_nat (length xs) - ddof)).
Proof.
  intros TL D. unfold cov_of. cbv zeta. rewrite model_mean, Hlo, Hhi, TL. unfold row. rewrite dot_self, !nsub_fin. cbn [nadd nmul].
  rewrite ndiv_fin by (now apply not_0_IZR). f_equal. f_equal.
  assert (X : forall c, squares_about c w = squares_about c (map B2R xs) + INR (t_k t) * ((B2R lo - c) ^ 2 + (B2R hi - c) ^ 2)) by (intros c; unfold squares_about, w; apply winsorized_sum).
  rewrite X. ring.
Qed.
End Row.

Lemma winsorized_perm a b lo hi k : Permutation a b -> Permutation (winsorized a lo hi k) (winsorized b lo hi k).
Proof. intros P. unfold winsorized. now apply Permutation_app_tail. Qed.
Lemma t_var_row argsort t ddof i row : nth_error (values_trimmed argsort t) i = Some row -> (i < length (t_rows t))%nat -> nth_error (t_var argsort t ddof) i = Some (cov_of argsort t ddof row row).
Proof.
  intros E L. unfold t_var. assert (S1 : nth_error (seq 0 (length (t_rows t))) i = Some i).
  { rewrite (nth_error_nth' _ 0%nat) by (now rewrite seq_length). now rewrite seq_nth. }
  rewrite (map_nth_error _ _ _ S1). f_equal. unfold t_cov.
  rewrite (nth_error_nth _ _ _ (map_nth_error (fun r => map (cov_of argsort t ddof r) (values_trimmed argsort t)) _ _ E)).
  apply nth_error_nth. now apply map_nth_error.
Qed.

(** *** Theorems *)
(** what the mean may be off by: [w] are the winsorized values and [d] the roundings in a row *)
Definition mean_error (w : list R) (d : nat) : R :=
  ((1 + unit_error) ^ d - 1) * (magnitudes w / INR (length w)) + (1 + unit_error) ^ d * ((/ INR (length w) + 1) * tiny).

Theorem c110_rounding_of_winsorized_means : forall argsort rows quantile t i (xs : list f64) (lo hi : f64) o,
  mk_trimmed argsort rows quantile = Ok t ->
  nth_error (values_trimmed argsort t) i = Some (map (fun x => Fin (B2R x)) xs) ->
  min_value argsort t (map (fun x => Fin (B2R x)) xs) = Fin (B2R lo) -> max_value argsort t (map (fun x => Fin (B2R x)) xs) = Fin (B2R hi) ->
  Permutation (values o) xs -> (Z.of_nat (t_size t) <= 2 ^ 53)%Z ->
  is_finite (winsorized_average o lo hi (t_k t) (t_size t)) = true ->
  exists m, nth_error (winsorized_mean argsort t) i = Some (Fin m) /\
    Rabs (B2R (winsorized_average o lo hi (t_k t) (t_size t)) - m) <= mean_error (winsorized (map B2R xs) (B2R lo) (B2R hi) (t_k t)) (depth o + 4).
Proof.
  intros argsort rows quantile t i xs lo hi o H E Hlo Hhi P L F. destruct (trimmed_sizes _ _ _ _ _ _ H E) as (SZ & _ & _). rewrite map_length in SZ. change (t_size t = (@length f64 xs + 2 * t_k t)%nat) in SZ.
  assert (NE := values_nonempty o). rewrite (Permutation_length P) in NE. change (0 < @length f64 xs)%nat in NE.
  assert (HP : (0 < t_size t)%nat) by (rewrite SZ; lia).
  exists (centre (winsorized (map B2R xs) (B2R lo) (B2R hi) (t_k t))). split.
  - unfold winsorized_mean. rewrite (map_nth_error _ _ _ E). f_equal. now apply model_mean.
  - assert (LK : (Z.of_nat (t_k t) <= 2 ^ 53)%Z) by lia.
    destruct (average_near o lo hi (t_k t) (t_size t) ltac:(lia) LK F) as [_ B].
    assert (W := winsorized_perm _ _ (B2R lo) (B2R hi) (t_k t) (Permutation_map B2R P)).
    unfold magnitudes in B. rewrite (exact_sum_perm _ _ W), (exact_sum_perm _ _ (Permutation_map Rabs W)) in B.
    unfold mean_error, centre. rewrite (model_length t xs lo hi SZ). exact B.
Qed.

Theorem c110_rounding_of_variances : forall argsort rows quantile t i (xs : list f64) (lo hi : f64) o q ddof,
  mk_trimmed argsort rows quantile = Ok t ->
  nth_error (values_trimmed argsort t) i = Some (map (fun x => Fin (B2R x)) xs) ->
  min_value argsort t (map (fun x => Fin (B2R x)) xs) = Fin (B2R lo) -> max_value argsort t (map (fun x => Fin (B2R x)) xs) = Fin (B2R hi) ->
  Permutation (values o) xs -> Permutation (operands q) xs -> (Z.of_nat (t_size t) <= 2 ^ 53)%Z ->
  let n := Z.of_nat (length xs) in
  let computed := winsorized_variance q (winsorized_average o lo hi (t_k t) (t_size t)) lo hi (t_k t) (n - ddof) in
  (0 <= ddof < n)%Z -> is_finite computed = true ->
  let w := winsorized (map B2R xs) (B2R lo) (B2R hi) (t_k t) in
  let shift := INR (length w) * mean_error w (depth o + 4) ^ 2 / IZR (n - ddof) in
  let g := (1 + unit_error) ^ (rounds q + 6) in
  exists v, nth_error (t_var argsort t ddof) i = Some (Fin v) /\
    Rabs (B2R computed - v) <= (g - 1) * v + g * shift + g * ((INR (length w + 1) / IZR (n - ddof) + 1) * tiny).
Proof.
  intros argsort rows quantile t i xs lo hi o q ddof H E Hlo Hhi P PQ L n computed DD F w shift g.
  destruct (trimmed_sizes _ _ _ _ _ _ H E) as (SZ & TL & LI). rewrite map_length in SZ, TL. change (t_size t = (@length f64 xs + 2 * t_k t)%nat) in SZ. change (t_len argsort t = @length f64 xs) in TL.
  assert (HP : (0 < t_size t)%nat) by (rewrite SZ; unfold n in DD; lia). assert (LK : (Z.of_nat (t_k t) <= 2 ^ 53)%Z) by lia.
  assert (LD : (0 < n - ddof <= 2 ^ 53)%Z) by (unfold n in *; lia).
  assert (LW : length w = t_size t) by (apply (model_length t xs lo hi SZ)).
  exists (squares_about (centre w) w / IZR (n - ddof)). split.
  - rewrite (t_var_row _ _ _ _ _ E LI). f_equal. apply model_variance; auto. unfold n in *; lia.
  - destruct (variance_near q _ lo hi (t_k t) (n - ddof) LD LK F) as [FC [_ B]]. fold computed in B.
    destruct (c110_rounding_of_winsorized_means argsort rows quantile t i xs lo hi o H E Hlo Hhi P L FC) as (m & EM & BM). fold w in BM.
    unfold winsorized_mean in EM. rewrite (map_nth_error _ _ _ E), (model_mean argsort t xs lo hi SZ HP Hlo Hhi) in EM. injection EM as <-. fold w in BM.
    set (c := winsorized_average o lo hi (t_k t) (t_size t)) in *.
    assert (W := winsorized_perm _ _ (B2R lo) (B2R hi) (t_k t) (Permutation_map B2R PQ)).
    unfold squares_about in B. rewrite (exact_sum_perm _ _ (Permutation_map (fun x => (x - B2R c) ^ 2) W)) in B. fold w in B. fold (squares_about (B2R c) w) in B.
    assert (NE : w <> []) by (intros Z0; rewrite Z0 in LW; cbn in LW; lia).
    rewrite (squares_shift (B2R c) w NE) in B.
    replace (length (operands q) + 2 * t_k t + 1)%nat with (length w + 1)%nat in B by (rewrite LW, SZ, (Permutation_length PQ); lia).
    assert (PD : 0 < IZR (n - ddof)) by (apply IZR_lt; lia). assert (PI := Rinv_0_lt_compat _ PD).
    set (e := INR (length w) * (B2R c - centre w) ^ 2 / IZR (n - ddof)).
    assert (E0 : 0 <= e <= shift).
    { unfold e, shift, Rdiv. split.
      - apply Rmult_le_pos; [|lra]. apply Rmult_le_pos; [apply pos_INR|apply pow2_ge_0].
      - apply Rmult_le_compat_r; [lra|]. apply Rmult_le_compat_l; [apply pos_INR|]. rewrite <- pow2_abs. apply pow_incr. split; [apply Rabs_pos|exact BM]. }
    set (v := squares_about (centre w) w / IZR (n - ddof)) in *.
    replace ((squares_about (centre w) w + INR (length w) * (B2R c - centre w) ^ 2) / IZR (n - ddof)) with (v + e) in B by (unfold v, e, Rdiv; ring).
    assert (G := growth (rounds q + 6)). fold g in G, B.
    replace (B2R computed - v) with ((B2R computed - (v + e)) + e) by ring. eapply Rle_trans; [apply Rabs_triang|]. rewrite (Rabs_pos_eq e) by lra.
    assert (X : g * e <= g * shift) by (apply Rmult_le_compat_l; lra).
    replace ((g - 1) * (v + e)) with ((g - 1) * v + (g * e - e)) in B by ring. lra.
Qed.

(** *** Standard deviations *)
Lemma rnd_pos x : 0 <= x -> 0 <= rnd x.
Proof. intros H. rewrite <- rnd_0. apply round_le; auto with typeclass_instances. Qed.
Lemma fmul_self_pos x : is_finite (fmul x x) = true -> 0 <= B2R (fmul x x).
Proof. intros F. rewrite (fmul_value _ _ F). apply rnd_pos. replace (B2R x * B2R x) with (B2R x ^ 2) by ring. apply pow2_ge_0. Qed.
Lemma fadd_pos x y : is_finite (fadd x y) = true -> 0 <= B2R x -> 0 <= B2R y -> 0 <= B2R (fadd x y).
Proof. intros F X Y. rewrite (fadd_value _ _ F). apply rnd_pos. lra. Qed.
Lemma squared_pos c q : is_finite (squared c q) = true -> 0 <= B2R (squared c q).
Proof.
  induction q as [x|q IH x|l IHl r IHr]; cbn [squared]; intros F.
  - now apply fmul_self_pos.
  - destruct (ffma_finite _ _ _ F) as (_ & _ & Fq). rewrite (ffma_value _ _ _ F). apply rnd_pos. assert (X := IH Fq).
    replace (B2R (fsub x c) * B2R (fsub x c)) with (B2R (fsub x c) ^ 2) by ring. assert (Y := pow2_ge_0 (B2R (fsub x c))). lra.
  - destruct (fadd_finite _ _ F) as [Fl Fr]. apply fadd_pos; auto.
Qed.
(** Rounding never makes a variance negative, so that its square root is a number. *)
Theorem c110_variances_are_never_negative : forall q c lo hi k n,
  (0 < n <= 2 ^ 53)%Z -> (Z.of_nat k <= 2 ^ 53)%Z -> is_finite (winsorized_variance q c lo hi k n) = true ->
  0 <= B2R (winsorized_variance q c lo hi k n) /\ is_finite (fsqrt (winsorized_variance q c lo hi k n)) = true.
Proof.
  intros q c lo hi k n Ln Lk F. assert (P : 0 <= B2R (winsorized_variance q c lo hi k n)).
  { unfold winsorized_variance in *. cbv zeta in *. assert (F1 := fdiv_finite _ _ F). destruct (fadd_finite _ _ F1) as [Fq Fm].
    destruct (fmul_finite _ _ Fm) as [_ Fs]. destruct (fadd_finite _ _ Fs) as [Fl Fh].
    destruct (of_Z_correct n) as [_ V]; [lia|]. assert (PN : 0 < IZR n) by (apply IZR_lt; lia). rewrite fdiv_value by (auto; rewrite V; lra). apply rnd_pos.
    rewrite V. apply Rmult_le_pos; [|left; now apply Rinv_0_lt_compat]. apply fadd_pos; [auto|now apply squared_pos|].
    rewrite (fmul_value _ _ Fm). apply rnd_pos. destruct (of_Z_correct (Z.of_nat k)) as [_ VK]; [lia|]. rewrite VK. apply Rmult_le_pos; [apply IZR_le; lia|].
    apply fadd_pos; auto; now apply fmul_self_pos. }
  split; [exact P|]. destruct (Bsqrt_correct 53 1024 prec_gt_0_53 prec_lt_1024 mode_NE (winsorized_variance q c lo hi k n)) as (_ & FS & _). unfold fsqrt. rewrite FS.
  destruct (winsorized_variance q c lo hi k n) as [s|s| |s m e B]; try discriminate; auto. destruct s; auto.
  exfalso. cbn in P. assert (X : F2R (Float radix2 (Zneg m) e) < 0) by (apply F2R_lt_0; cbn; lia). cbn in X. lra.
Qed.

Lemma sqrt_gap a b : 0 <= a -> 0 <= b -> Rabs (sqrt a - sqrt b) <= sqrt (Rabs (a - b)).
Proof.
  assert (G : forall x y, 0 <= y <= x -> sqrt x - sqrt y <= sqrt (x - y)).
  { intros x y [Y XY]. assert (S1 := sqrt_pos (x - y)). assert (S2 := sqrt_pos y).
    apply Rle_trans with (sqrt ((sqrt (x - y) + sqrt y) ^ 2) - sqrt y).
    - apply Rplus_le_compat_r. apply sqrt_le_1_alt. assert (A : sqrt (x - y) ^ 2 = x - y) by (apply pow2_sqrt; lra). assert (B : sqrt y ^ 2 = y) by (apply pow2_sqrt; lra).
      assert (C : 0 <= sqrt (x - y) * sqrt y) by (apply Rmult_le_pos; auto).
      replace ((sqrt (x - y) + sqrt y) ^ 2) with (sqrt (x - y) ^ 2 + 2 * (sqrt (x - y) * sqrt y) + sqrt y ^ 2) by ring. lra.
    - rewrite sqrt_pow2 by lra. lra. }
  intros A B. destruct (Rle_dec b a) as [L|L].
  - rewrite !Rabs_pos_eq; [apply G; lra|lra|assert (X := sqrt_le_1_alt b a L); lra].
  - rewrite (Rabs_minus_sym (sqrt a)), (Rabs_minus_sym a), !Rabs_pos_eq; [apply G; lra|lra|assert (X := sqrt_le_1_alt a b ltac:(lra)); lra].
Qed.
(** If a computed variance is off by at most [e], its square root is off by little more than that of [e]. *)
Theorem c110_rounding_of_standard_deviations : forall x v e,
  0 <= B2R x -> 0 <= v -> Rabs (B2R x - v) <= e ->
  Rabs (B2R (fsqrt x) - sqrt v) <= unit_error * sqrt v + (1 + unit_error) * sqrt e + tiny /\
  (0 < v -> Rabs (B2R (fsqrt x) - sqrt v) <= unit_error * sqrt v + (1 + unit_error) * (e / sqrt v) + tiny).
Proof.
  intros x v e PX PV B. assert (U := unit_error_pos).
  destruct (Bsqrt_correct 53 1024 prec_gt_0_53 prec_lt_1024 mode_NE x) as (V & _). change (round_mode mode_NE) with ZnearestE in V. rewrite fexp_eq in V.
  assert (V' : B2R (fsqrt x) = rnd (sqrt (B2R x))) by exact V. rewrite V'. clear V V'. assert (RE := rnd_error (sqrt (B2R x))). fold unit_error tiny in RE.
  assert (SX := sqrt_pos (B2R x)). assert (SV := sqrt_pos v). rewrite (Rabs_pos_eq (sqrt (B2R x))) in RE by auto.
  assert (K : forall b, Rabs (sqrt (B2R x) - sqrt v) <= b -> Rabs (rnd (sqrt (B2R x)) - sqrt v) <= unit_error * sqrt v + (1 + unit_error) * b + tiny).
  { intros b Hb. replace (rnd (sqrt (B2R x)) - sqrt v) with ((rnd (sqrt (B2R x)) - sqrt (B2R x)) + (sqrt (B2R x) - sqrt v)) by ring. eapply Rle_trans; [apply Rabs_triang|].
    assert (X : sqrt (B2R x) <= sqrt v + b) by (apply Rabs_le_inv in Hb; lra). assert (Y : unit_error * sqrt (B2R x) <= unit_error * (sqrt v + b)) by (apply Rmult_le_compat_l; lra).
    replace (unit_error * sqrt v + (1 + unit_error) * b + tiny) with (unit_error * (sqrt v + b) + tiny + b) by ring. lra. }
  split; [|intros PV']; apply K.
  - eapply Rle_trans; [now apply sqrt_gap|]. now apply sqrt_le_1_alt.
  - assert (SP : 0 < sqrt v) by (now apply sqrt_lt_R0). apply Rmult_le_reg_r with (sqrt v); [auto|]. replace (e / sqrt v * sqrt v) with e by (field; lra).
    eapply Rle_trans; [|exact B]. replace (B2R x - v) with ((sqrt (B2R x) - sqrt v) * (sqrt (B2R x) + sqrt v)).
    + rewrite Rabs_mult. apply Rmult_le_compat_l; [apply Rabs_pos|]. rewrite Rabs_pos_eq; lra.
    + assert (A1 := pow2_sqrt (B2R x) PX). assert (A2 := pow2_sqrt v PV). transitivity (sqrt (B2R x) ^ 2 - sqrt v ^ 2); [ring|lra].
Qed.

(** *** Constant samples *)
Definition vanishes (x : f64) : Prop := is_finite x = true /\ B2R x = 0.
Lemma small_0 : Rabs 0 <= bpow radix2 1023.
Proof. rewrite Rabs_R0. apply bpow_ge_0. Qed.
Lemma vanishes_fmul x y : is_finite x = true -> vanishes y -> vanishes (fmul x y).
Proof.
  intros Fx [Fy Vy]. destruct (fmul_cases x y Fx Fy) as [(_ & F & V)|(N & _)]; rewrite Vy, Rmult_0_r in *.
  - split; [auto|]. now rewrite V, rnd_0.
  - exfalso. apply N, fits_small, small_0.
Qed.
Lemma vanishes_fadd x y : vanishes x -> vanishes y -> vanishes (fadd x y).
Proof.
  intros [Fx Vx] [Fy Vy]. destruct (fadd_integer x y 0 0 Fx Fy Vx Vy) as [F V]; [cbn; lia|]. split; auto.
Qed.
Lemma vanishes_ffma x y z : is_finite x = true -> vanishes y -> vanishes z -> vanishes (ffma x y z).
Proof.
  intros Fx [Fy Vy] [Fz Vz]. generalize (Bfma_correct 53 1024 prec_gt_0_53 prec_lt_1024 mode_NE x y z Fx Fy Fz). cbv zeta.
  change (round_mode mode_NE) with ZnearestE. rewrite fexp_eq, Vy, Vz, Rmult_0_r, Rplus_0_r. fold (rnd 0). rewrite Rlt_bool_true by (apply rnd_abs_lt, small_0).
  intros (V & F & _). split; [exact F|]. unfold ffma. rewrite V. apply rnd_0.
Qed.
Lemma vanishes_squared c q : Forall (fun x => vanishes (fsub x c)) (operands q) -> vanishes (squared c q).
Proof.
  induction q as [x|q IH x|l IHl r IHr]; cbn [squared operands]; intros H.
  - inversion H as [|? ? V]; subst. apply vanishes_fmul; auto. apply V.
  - apply Forall_app in H as [H1 H2]. inversion H2 as [|? ? V]; subst. apply vanishes_ffma; auto. apply V.
  - apply Forall_app in H as [H1 H2]. apply vanishes_fadd; auto.
Qed.
Definition is_whole (z : Z) (x : f64) : Prop := is_finite x = true /\ B2R x = IZR z.
Lemma constants_whole z l : Forall (is_whole z) l -> whole_numbers l (repeat z (length l)) /\ magnitude (repeat z (length l)) = (Z.abs z * Z.of_nat (length l))%Z /\ integer_sum (repeat z (length l)) = (z * Z.of_nat (length l))%Z.
Proof.
  induction 1 as [|x l Hx Hl (W & M & S)]; [repeat split; [constructor|cbn; lia|cbn; lia]|]. split; [constructor; auto|].
  unfold magnitude, integer_sum in *. cbn [length repeat map fold_right]. rewrite M, S. lia.
Qed.

(** A sample in which every value is the same integer has the variance zero in every order of the operations. *)
Theorem c110_equal_whole_numbers_have_no_variance : forall z o q lo hi k n ddof,
  Forall (is_whole z) (values o) -> Permutation (operands q) (values o) -> is_whole z lo -> is_whole z hi ->
  n = (length (values o) + 2 * k)%nat -> (Z.abs z * Z.of_nat n <= 2 ^ 53)%Z -> (Z.of_nat n <= 2 ^ 53)%Z -> (0 <= ddof < Z.of_nat (length (values o)))%Z ->
  let c := winsorized_average o lo hi k n in
  is_whole z c /\ is_whole 0 (winsorized_variance q c lo hi k (Z.of_nat (length (values o)) - ddof)).
Proof.
  intros z o q lo hi k n ddof H PQ HL HH EN LZ LN DD c. set (m := length (values o)) in *.
  destruct (constants_whole z (values o) H) as (W & M & S). fold m in W, M, S.
  destruct (c108_whole_numbers_are_added_exactly o _ W) as [FA VA]; [rewrite M; nia|]. rewrite S in VA.
  destruct (of_Z_correct (Z.of_nat k)) as [FK VK]; [lia|].
  assert (C : is_whole z c).
  { assert (E2 : is_whole (Z.of_nat k * (z + z)) (fmul (of_Z (Z.of_nat k)) (fadd lo hi))).
    { destruct HL as [FL VL], HH as [FH VH]. destruct (Nat.eq_dec k 0) as [K0|K0].
      - assert (FS : is_finite (fadd lo hi) = true).
        { destruct (fadd_cases lo hi FL FH) as [(_ & F & _)|(N & _)]; [exact F|]. exfalso. apply N, fits_small. rewrite VL, VH, <- plus_IZR.
          apply Rle_trans with (bpow radix2 54); [apply IZR_le_bpow; [lia|nia]|apply bpow_le; lia]. }
        destruct (fmul_cases _ _ FK FS) as [(_ & F & V)|(N & _)]; rewrite VK, K0, Rmult_0_l in *.
        + split; [exact F|]. rewrite V. apply rnd_0.
        + exfalso. apply N, fits_small, small_0.
      - destruct (fadd_integer lo hi z z FL FH VL VH) as [FS VS]; [nia|].
        destruct (fmul_cases _ _ FK FS) as [(_ & F & V)|(N & _)]; rewrite VK, VS, <- mult_IZR in *.
        + split; [exact F|]. rewrite V. apply rnd_IZR. nia.
        + exfalso. apply N, fits_small. apply Rle_trans with (bpow radix2 53); [apply IZR_le_bpow; [lia|nia]|apply bpow_le; lia]. }
    destruct E2 as [F2 V2]. destruct (fadd_integer _ _ _ _ FA F2 VA V2) as [F3 V3]; [nia|].
    destruct (fdiv_integers _ _ (Z.of_nat n) F3 V3) as [F4 V4]; [nia|lia|]. split; [exact F4|]. unfold c, winsorized_average. rewrite V4.
    replace (z * Z.of_nat m + Z.of_nat k * (z + z))%Z with (z * Z.of_nat n)%Z by nia. rewrite mult_IZR.
    replace (IZR z * IZR (Z.of_nat n) / IZR (Z.of_nat n)) with (IZR z) by (field; apply not_0_IZR; lia). apply rnd_IZR. nia. }
  split; [exact C|]. assert (RZ : forall x, is_whole z x -> vanishes (fsub x c)).
  { intros x [Fx Vx]. destruct C as [FC VC]. destruct (fsub_integer x c z z Fx FC Vx VC) as [F V]; [rewrite Z.sub_diag; cbn; lia|]. rewrite Z.sub_diag in V. split; auto. }
  assert (VQ : vanishes (squared c q)).
  { apply vanishes_squared. eapply Permutation_Forall; [apply Permutation_sym, PQ|]. eapply Forall_impl; [|exact H]. auto. }
  assert (VE : vanishes (fmul (of_Z (Z.of_nat k)) (fadd (fmul (fsub lo c) (fsub lo c)) (fmul (fsub hi c) (fsub hi c))))).
  { apply vanishes_fmul; [auto|]. destruct (RZ lo HL) as [F1 V1], (RZ hi HH) as [F2 V2]. apply vanishes_fadd; apply vanishes_fmul; auto; split; auto. }
  destruct (vanishes_fadd _ _ VQ VE) as [F5 V5]. unfold winsorized_variance. cbv zeta.
  destruct (fdiv_integers _ 0 (Z.of_nat m - ddof) F5 V5) as [F6 V6]; [cbn; lia|lia|]. split; [exact F6|]. rewrite V6.
  unfold Rdiv. rewrite Rmult_0_l. apply rnd_0.
Qed.

(** Equal values that are no integers can have a variance above zero: three times 0.1 (whose computed mean is not 0.1). *)
Definition fused_tenths : squares := Fused (Fused (Square (flit 1 10)) (flit 1 10)) (flit 1 10).
Theorem c110_equal_values_have_no_variance_refuted :
  ~ (forall x o q n ddof, is_finite x = true -> Forall (eq x) (values o) -> Permutation (operands q) (values o) -> n = length (values o) -> (0 <= ddof < Z.of_nat n)%Z ->
      B2R (winsorized_variance q (winsorized_average o x x 0 n) x x 0 (Z.of_nat n - ddof)) = 0).
Proof.
  intros H. assert (E := H (flit 1 10) revenues fused_tenths 3%nat 1%Z).
  assert (V : winsorized_variance fused_tenths (winsorized_average revenues (flit 1 10) (flit 1 10) 0 3) (flit 1 10) (flit 1 10) 0 (Z.of_nat 3 - 1) <> B754_zero false).
  { intros C. apply (f_equal B2SF) in C. vm_compute in C. discriminate. }
  assert (V2 : winsorized_variance fused_tenths (winsorized_average revenues (flit 1 10) (flit 1 10) 0 3) (flit 1 10) (flit 1 10) 0 (Z.of_nat 3 - 1) <> B754_zero true).
  { intros C. apply (f_equal B2SF) in C. vm_compute in C. discriminate. }
  assert (F : is_finite (winsorized_variance fused_tenths (winsorized_average revenues (flit 1 10) (flit 1 10) 0 3) (flit 1 10) (flit 1 10) 0 (Z.of_nat 3 - 1)) = true) by (vm_compute; reflexivity).
  specialize (E (proj1 tenth)). 
  assert (E' : B2R (winsorized_variance fused_tenths (winsorized_average revenues (flit 1 10) (flit 1 10) 0 3) (flit 1 10) (flit 1 10) 0 (Z.of_nat 3 - 1)) = 0).
  { apply E; [repeat constructor|apply Permutation_refl|reflexivity|lia]. }
  destruct (winsorized_variance _ _ _ _ _ _) as [[|]|s| |s m e B]; try discriminate; try congruence.
  cbn in E'. apply eq_0_F2R in E'. destruct s; discriminate.
Qed.

(** *** Examples *)
(** four values of which one is trimmed on each side; the winsorized values are 2, 2, 4, 4 *)
Definition in_order : list num -> list nat := fun _ => [0; 1; 2; 3]%nat.
Definition four_values : list f64 := [of_Z 1; of_Z 2; of_Z 4; of_Z 9].
Definition kept_two : order := Plus (Value (of_Z 2)) (Value (of_Z 4)).
Definition squares_of_two : squares := Fused (Square (of_Z 4)) (of_Z 2).
Example c110_variances_example :
  exists t v, mk_trimmed in_order [map (fun x => Fin (B2R x)) four_values] (flit 1 4) = Ok t /\
    let computed := winsorized_variance squares_of_two (winsorized_average kept_two (of_Z 2) (of_Z 4) 1 4) (of_Z 2) (of_Z 4) 1 1 in
    is_finite computed = true /\ computed = of_Z 4 /\ nth_error (t_var in_order t 1) 0 = Some (Fin v) /\
    let w := winsorized [B2R (of_Z 2); B2R (of_Z 4)] (B2R (of_Z 2)) (B2R (of_Z 4)) 1 in
    let g := (1 + unit_error) ^ 8 in
    Rabs (B2R computed - v) <= (g - 1) * v + g * (INR 4 * mean_error w 5 ^ 2 / 1) + g * ((INR 5 / 1 + 1) * tiny).
Proof.
  assert (H : exists t, mk_trimmed in_order [map (fun x => Fin (B2R x)) four_values] (flit 1 4) = Ok t /\ t_rows t = [map (fun x => Fin (B2R x)) four_values] /\ t_k t = 1%nat).
  { unfold mk_trimmed. replace (fltb (flit 1 4) f0 || fgeb (flit 1 4) fhalf)%bool with false by (vm_compute; reflexivity). cbn [raise_if bind].
    change (sample_size [map (fun x => Fin (B2R x)) four_values]) with 4%nat. replace (floor_mul (flit 1 4) (Z.of_nat 4)) with (Ok 1%Z : result Z) by (vm_compute; reflexivity). cbn [bind].
    match goal with |- context [raise_if ?b _] => change b with false end. cbn [raise_if bind]. unfold any_array_is_constant.
    match goal with |- context [raise_if ?b (IndexError _)] => change b with false end. cbn [raise_if bind].
    match goal with |- context [if ?b then Ok (mkT _ _ (Some WConstant)) else _] => destruct b end; [eexists; repeat split|].
    eexists; repeat split. }
  destruct H as (t & H & TR & TK).
  assert (VT : values_trimmed in_order t = [map (fun x => Fin (B2R x)) [of_Z 2; of_Z 4]]) by (unfold values_trimmed; rewrite TR, TK; reflexivity).
  assert (V2 := proj2 (of_Z_correct 2 ltac:(lia))). assert (V4 := proj2 (of_Z_correct 4 ltac:(lia))).
  assert (SZ : t_size t = 4%nat) by (unfold t_size; rewrite TR; reflexivity).
  destruct (c110_rounding_of_variances in_order _ _ t 0 [of_Z 2; of_Z 4] (of_Z 2) (of_Z 4) kept_two squares_of_two 1 H) as (v & EV & B).
  - now rewrite VT.
  - unfold min_value. rewrite VT. cbn [hd map argmin arg_best nis_nan orb nltb]. rewrite V2, V4, Rlt_bool_false by lra. reflexivity.
  - unfold max_value. rewrite VT. cbn [hd map argmax arg_best nis_nan orb nltb]. rewrite V2, V4, Rlt_bool_true by lra. reflexivity.
  - apply Permutation_refl.
  - apply perm_swap.
  - rewrite SZ. lia.
  - cbn; lia.
  - rewrite SZ, TK. vm_compute. reflexivity.
  - rewrite SZ, TK in B. exists t, v. split; [exact H|]. split; [vm_compute; reflexivity|]. split; [apply B2SF_inj; vm_compute; reflexivity|]. split; [exact EV|exact B].
Qed.
Example c110_whole_example :
  is_whole 0 (winsorized_variance (Joined (Square (of_Z 7)) (Square (of_Z 7))) (winsorized_average (Plus (Value (of_Z 7)) (Value (of_Z 7))) (of_Z 7) (of_Z 7) 1 4) (of_Z 7) (of_Z 7) 1 (2 - 1)).
Proof.
  assert (W : is_whole 7 (of_Z 7)) by (apply of_Z_correct; lia).
  apply (c110_equal_whole_numbers_have_no_variance 7 (Plus (Value (of_Z 7)) (Value (of_Z 7))) (Joined (Square (of_Z 7)) (Square (of_Z 7))) (of_Z 7) (of_Z 7) 1 4 1); auto; try (cbn; lia).
  repeat constructor; apply W.
Qed.
(** the standard deviation of the values above *)
Example c110_standard_deviation_example : fsqrt (of_Z 4) = of_Z 2 /\ Rabs (B2R (fsqrt (of_Z 4)) - sqrt 4) <= unit_error * sqrt 4 + (1 + unit_error) * (0 / sqrt 4) + tiny.
Proof.
  split; [apply B2SF_inj; vm_compute; reflexivity|]. assert (V4 := proj2 (of_Z_correct 4 ltac:(lia))).
  refine (proj2 (c110_rounding_of_standard_deviations (of_Z 4) 4 0 _ _ _) _); rewrite ?V4; try lra. rewrite Rminus_diag_eq by reflexivity. rewrite Rabs_R0. lra.
Qed.

Print Assumptions c110_rounding_of_winsorized_means.
Print Assumptions c110_rounding_of_variances.
Print Assumptions c110_variances_are_never_negative.
Print Assumptions c110_rounding_of_standard_deviations.
Print Assumptions c110_equal_whole_numbers_have_no_variance.
Print Assumptions c110_equal_values_have_no_variance_refuted.
