(** C111: what rounding does to the paired standard error and to the statistic of the independent test. *)
From Coq Require Import ZArith Reals Lra Lia List Bool.
From Flocq Require Import Core BinarySingleNaN Relative Plus_error.
Require Import Verif.Base Verif.Num Verif.F64 Verif.Table_Model Verif.Table_Props Verif.Stats_Model Verif.Sums_Props Verif.Vars_Model Verif.Vars_Props
  Verif.Stderr_Model Verif.Stderr_Props Verif.Statistic_Model.
Open Scope R_scope.

Lemma rnd_relative x : 1 <= x -> Rabs (rnd x - x) <= unit_error * x.
Proof.
  intros H. assert (E := relative_error_N_FLT radix2 (-1074) 53 ltac:(reflexivity) (fun z => negb (Z.even z)) x).
  rewrite (Rabs_pos_eq x) in E by lra. replace unit_error with (/ 2 * bpow radix2 (-53 + 1)); [apply E|].
  - apply Rle_trans with (bpow radix2 0); [apply bpow_le; lia|cbn; lra].
  - unfold unit_error. rewrite bpow_plus. cbn [bpow radix_val radix2]. change (bpow radix2 1) with 2. lra.
Qed.
Lemma unit_error_small : unit_error < 1.
Proof. unfold unit_error. change 1 with (bpow radix2 0). apply bpow_lt. lia. Qed.

Theorem c111_rounding_of_paired_standard_errors : forall sd n,
  (0 < n <= 2 ^ 53)%Z -> is_finite (rounded_paired_error sd n) = true ->
  exists e, one_sample_standard_error (Fin (B2R sd)) (Fin (IZR n)) = Fin e /\
    Rabs (B2R (rounded_paired_error sd n) - e) <= 2 * unit_error / (1 - unit_error) * Rabs e + tiny.
Proof.
  intros sd n L F. assert (U := unit_error_pos). assert (U1 := unit_error_small). destruct (of_Z_correct n) as [_ V]; [lia|].
  assert (N1 : 1 <= IZR n) by (apply IZR_le; lia). assert (Q1 : 1 <= sqrt (IZR n)) by (rewrite <- sqrt_1; apply sqrt_le_1_alt; auto).
  set (r := sqrt (IZR n)) in *. exists (B2R sd / r). split.
  { unfold one_sample_standard_error. rewrite nsqrt_fin by lra. apply ndiv_fin. fold r. lra. }
  assert (VR : B2R (fsqrt (of_Z n)) = rnd r) by (rewrite fsqrt_value, V; reflexivity). assert (RR := rnd_relative r Q1).
  set (q := rnd r) in *. assert (UR : (1 - unit_error) * r <= q) by (apply Rabs_le_inv in RR; lra).
  assert (QP : 0 < q) by (assert (0 < (1 - unit_error) * r) by (apply Rmult_lt_0_compat; lra); lra).
  unfold rounded_paired_error in *. rewrite fdiv_value by (auto; rewrite VR; lra). rewrite VR. set (s := B2R sd) in *.
  assert (K : Rabs (s / q - s / r) <= unit_error / (1 - unit_error) * Rabs (s / r)).
  { replace (s / q - s / r) with (s / r * ((r - q) / q)) by (field; lra). rewrite Rabs_mult, Rmult_comm. apply Rmult_le_compat_r; [apply Rabs_pos|].
    unfold Rdiv at 1. rewrite Rabs_mult, (Rabs_pos_eq (/ q)) by (left; now apply Rinv_0_lt_compat). rewrite Rabs_minus_sym.
    apply Rmult_le_reg_r with (q * (1 - unit_error)); [apply Rmult_lt_0_compat; lra|].
    replace (Rabs (q - r) * / q * (q * (1 - unit_error))) with (Rabs (q - r) * (1 - unit_error)) by (field; lra).
    replace (unit_error / (1 - unit_error) * (q * (1 - unit_error))) with (unit_error * q) by (field; lra).
    apply Rle_trans with (unit_error * r * (1 - unit_error)); [apply Rmult_le_compat_r; lra|]. rewrite Rmult_assoc. apply Rmult_le_compat_l; lra. }
  assert (RE := rnd_error (s / q)). fold unit_error tiny in RE.
  assert (A : Rabs (s / q) <= / (1 - unit_error) * Rabs (s / r)).
  { replace (s / q) with (s / r + (s / q - s / r)) by ring. eapply Rle_trans; [apply Rabs_triang|].
    replace (/ (1 - unit_error) * Rabs (s / r)) with (Rabs (s / r) + unit_error / (1 - unit_error) * Rabs (s / r)) by (field; lra). lra. }
  assert (A2 : unit_error * Rabs (s / q) <= unit_error * (/ (1 - unit_error) * Rabs (s / r))) by (apply Rmult_le_compat_l; lra).
  replace (rnd (s / q) - s / r) with ((rnd (s / q) - s / q) + (s / q - s / r)) by ring. eapply Rle_trans; [apply Rabs_triang|].
  replace (2 * unit_error / (1 - unit_error) * Rabs (s / r)) with (unit_error * (/ (1 - unit_error) * Rabs (s / r)) + unit_error / (1 - unit_error) * Rabs (s / r)) by (field; lra). lra.
Qed.

Lemma rnd_opp x : rnd (- x) = - rnd x.
Proof. apply round_NE_opp. Qed.
Lemma fsub_swap x y : is_finite (fsub x y) = true -> is_finite (fsub y x) = true /\ B2R (fsub y x) = - B2R (fsub x y).
Proof.
  intros F. destruct (fsub_finite _ _ F) as [Fx Fy]. assert (V := fsub_value _ _ F).
  generalize (Bminus_correct 53 1024 prec_gt_0_53 prec_lt_1024 mode_NE y x Fy Fx). change (round_mode mode_NE) with ZnearestE. rewrite fexp_eq. fold (rnd (B2R y - B2R x)).
  replace (B2R y - B2R x) with (- (B2R x - B2R y)) by ring. rewrite rnd_opp, Rabs_Ropp, <- V.
  rewrite Rlt_bool_true by apply abs_B2R_lt_emax. intros (W & FF & _). split; [exact FF|exact W].
Qed.
Lemma fdiv_opposite x y s : B2R s <> 0 -> is_finite y = true -> B2R y = - B2R x -> is_finite (fdiv x s) = true -> is_finite (fdiv y s) = true /\ B2R (fdiv y s) = - B2R (fdiv x s).
Proof.
  intros N Fy E F. assert (V := fdiv_value _ _ N F). generalize (Bdiv_correct 53 1024 prec_gt_0_53 prec_lt_1024 mode_NE y s N).
  change (round_mode mode_NE) with ZnearestE. rewrite fexp_eq. fold (rnd (B2R y / B2R s)). rewrite E. replace (- B2R x / B2R s) with (- (B2R x / B2R s)) by (unfold Rdiv; ring).
  rewrite rnd_opp, Rabs_Ropp, <- V. rewrite Rlt_bool_true by apply abs_B2R_lt_emax. intros (W & FF & _). split; [|exact W]. unfold fdiv. now rewrite FF.
Qed.

(** Exchanging the arms negates the statistic without any rounding error. *)
Theorem c111_exchanging_the_arms_negates_the_statistic : forall sd_1 sd_2 n_1 n_2 equal_var mean_1 mean_2 se se_1 se_2,
  rounded_standard_errors sd_1 sd_2 n_1 n_2 equal_var = (se, se_1, se_2) -> B2R se <> 0 ->
  is_finite (fsub mean_1 mean_2) = true -> is_finite (rounded_statistic mean_1 mean_2 se) = true ->
  let exchanged := rounded_statistic mean_2 mean_1 (fst (fst (rounded_standard_errors sd_2 sd_1 n_2 n_1 equal_var))) in
  is_finite exchanged = true /\ B2R exchanged = - B2R (rounded_statistic mean_1 mean_2 se).
Proof.
  intros s1 s2 n1 n2 ev m1 m2 se se1 se2 E N FD F. cbv zeta. rewrite (c111_arms_can_be_exchanged _ _ _ _ _ _ _ _ E). cbn [fst].
  destruct (fsub_swap _ _ FD) as [FS VS]. exact (fdiv_opposite _ _ se N FS VS F).
Qed.

(** The computed difference is zero only for equal means, and has the right sign otherwise. *)
Theorem c111_sign_of_the_difference : forall mean_1 mean_2,
  is_finite (fsub mean_1 mean_2) = true ->
  (B2R (fsub mean_1 mean_2) = 0 <-> B2R mean_1 = B2R mean_2) /\ (B2R mean_2 < B2R mean_1 <-> 0 < B2R (fsub mean_1 mean_2)).
Proof.
  intros x y F. rewrite (fsub_value _ _ F).
  assert (NZ : B2R x - B2R y <> 0 -> rnd (B2R x - B2R y) <> 0).
  { intros N. unfold Rminus, rnd. apply round_plus_neq_0; try apply B2R_format; try typeclasses eauto; [apply generic_format_opp, B2R_format|exact N]. }
  assert (UP : forall r, 0 <= r -> 0 <= rnd r) by apply rnd_pos. assert (DN : forall r, r <= 0 -> rnd r <= 0) by (intros r H; apply rnd_le in H; now rewrite rnd_0 in H).
  split; split; intros H.
  - destruct (Req_dec (B2R x - B2R y) 0) as [Z|Z]; [lra|]. now apply NZ in Z.
  - replace (B2R x - B2R y) with 0 by lra. apply rnd_0.
  - assert (A := UP (B2R x - B2R y) ltac:(lra)). assert (B := NZ ltac:(lra)). lra.
  - apply Rnot_le_lt. intros C. assert (A := DN (B2R x - B2R y) ltac:(lra)). lra.
Qed.

(** *** Examples *)
Example c111_paired_error_example : is_finite (rounded_paired_error (of_Z 3) 7) = true.
Proof. vm_compute. reflexivity. Qed.
Lemma strict_nonzero (x : f64) : is_finite_strict x = true -> B2R x <> 0.
Proof. destruct x as [s|s| |s m e B]; try discriminate. intros _ E. apply eq_0_F2R in E. destruct s; discriminate. Qed.
Example c111_statistic_example : exists se se_1 se_2,
  rounded_standard_errors one one 2 3 false = (se, se_1, se_2) /\ B2R se <> 0 /\
  is_finite (fsub (of_Z 4) (of_Z 1)) = true /\ is_finite (rounded_statistic (of_Z 4) (of_Z 1) se) = true.
Proof.
  destruct (rounded_standard_errors one one 2 3 false) as [[se se1] se2] eqn:E. exists se, se1, se2.
  assert (K : se = fst (fst (rounded_standard_errors one one 2 3 false))) by now rewrite E.
  repeat split; rewrite ?K; try (vm_compute; reflexivity). apply strict_nonzero. vm_compute. reflexivity.
Qed.

Print Assumptions c111_rounding_of_paired_standard_errors.
Print Assumptions c111_exchanging_the_arms_negates_the_statistic.
Print Assumptions c111_sign_of_the_difference.
