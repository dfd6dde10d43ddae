(** IEEE-754 binary64 numbers (Python floats used as percentiles / quantiles).
    Built on Flocq's [BinarySingleNaN]; the payload of NaN is not modelled. *)
From Coq Require Import ZArith Reals Lia Lra Bool String Floats.SpecFloat.
From Flocq Require Import Core BinarySingleNaN.
Require Import Verif.Base.
Open Scope R_scope.

Definition f64 := binary_float 53 1024.

Definition prec_gt_0_53 : Prec_gt_0 53 := eq_refl.
Definition prec_lt_1024 : Prec_lt_emax 53 1024 := eq_refl.
#[global] Existing Instance prec_gt_0_53.
#[global] Existing Instance prec_lt_1024.

(** Python: float * float, float + float, comparisons (False on NaN). *)
Definition fmul (x y : f64) : f64 := Bmult mode_NE x y.
Definition fadd (x y : f64) : f64 := Bplus mode_NE x y.
Definition fdiv (x y : f64) : f64 := Bdiv mode_NE x y.
Definition fltb (x y : f64) : bool := Bltb x y.
Definition fleb (x y : f64) : bool := Bleb x y.
Definition fgtb (x y : f64) : bool := Bltb y x.
Definition fgeb (x y : f64) : bool := Bleb y x.
Definition feqb (x y : f64) : bool := Beqb x y.

(** float(n) for a Python int: round to nearest even (infinite if out of range;
    the callers below turn that case into OverflowError). *)
Definition of_Z (n : Z) : f64 := binary_normalize 53 1024 _ _ mode_NE n 0 false.

Definition f0 : f64 := of_Z 0.
Definition f1 : f64 := of_Z 1.
Definition fhalf : f64 := fdiv (of_Z 1) (of_Z 2).

(** decimal literal num/den, correctly rounded when both are below 2^53 *)
Definition flit (num den : Z) : f64 := fdiv (of_Z num) (of_Z den).

(** floor of a finite double *)
Definition ffloor_fin (x : f64) : Z :=
  match x with
  | B754_finite s m e _ => Z.shiftl (cond_Zopp s (Zpos m)) e
  | _ => 0%Z
  end.

(** Python [int(np.floor(x))]: ValueError on NaN, OverflowError on infinities. *)
Definition int_floor (x : f64) : result Z :=
  match x with
  | B754_nan => Err (ValueError "cannot convert float NaN to integer")
  | B754_infinity _ => Err (OverflowError "cannot convert float infinity to integer")
  | _ => Ok (ffloor_fin x)
  end.

(** Python [int(np.floor(p * n))] with p a float and n an int: the int is first converted
    to a float (OverflowError if too large). *)
Definition floor_mul (p : f64) (n : Z) : result Z :=
  if is_finite (of_Z n) then int_floor (fmul p (of_Z n))
  else Err (OverflowError "int too large to convert to float").

(** Python [int(np.floor(n * p))]: operands swapped *)
Definition floor_mul' (n : Z) (p : f64) : result Z :=
  if is_finite (of_Z n) then int_floor (fmul (of_Z n) p)
  else Err (OverflowError "int too large to convert to float").

(** rounding of a real to the nearest double, ties to even (spec side) *)
Definition rnd (x : R) : R := round radix2 (FLT_exp (-1074) 53) ZnearestE x.

(* ------------------------------------------------------------------ *)
(** Lemmas *)

Lemma fexp_eq : SpecFloat.fexp 53 1024 = FLT_exp (-1074) 53.
Proof. reflexivity. Qed.

Lemma rnd_le x y : x <= y -> rnd x <= rnd y.
Proof. apply round_le; auto with typeclass_instances. Qed.

Lemma rnd_IZR n : (Z.abs n <= 2 ^ 53)%Z -> rnd (IZR n) = IZR n.
Proof.
  intros H. apply round_generic; auto with typeclass_instances.
  apply generic_format_FLT.
  assert (Hc: (Z.abs n < 2^53)%Z \/ (Z.abs n = 2^53)%Z) by lia.
  destruct Hc as [Hc|Hc].
  - exists (Float radix2 n 0); simpl; try lia. unfold F2R; simpl. now rewrite Rmult_1_r.
  - exists (Float radix2 (Z.sgn n * 2^52) 1); simpl; try lia.
    unfold F2R; simpl Fnum; simpl Fexp.
    change (bpow radix2 1) with (IZR 2). rewrite <- mult_IZR. f_equal. lia.
Qed.

Lemma rnd_abs_lt x : Rabs x <= bpow radix2 1023 -> Rabs (rnd x) < bpow radix2 1024.
Proof.
  intros H. apply Rle_lt_trans with (bpow radix2 1023).
  - apply abs_round_le_generic; auto with typeclass_instances.
    apply generic_format_bpow. unfold FLT_exp. lia.
  - apply bpow_lt. lia.
Qed.

Lemma ffloor_fin_correct x : is_finite x = true -> ffloor_fin x = Zfloor (B2R x).
Proof.
  destruct x as [s|s| |s m e H]; try discriminate; intros _; unfold B2R, ffloor_fin.
  - symmetry. apply (Zfloor_IZR 0).
  - unfold F2R. simpl Fnum; simpl Fexp. set (z := cond_Zopp s (Z.pos m)).
    destruct (Z_le_gt_dec 0 e) as [He|He].
    + rewrite Z.shiftl_mul_pow2 by lia.
      rewrite <- (IZR_Zpower radix2) by lia. rewrite <- mult_IZR, Zfloor_IZR. reflexivity.
    + replace e with (- (- e))%Z at 1 by lia.
      rewrite Z.shiftl_opp_r, Z.shiftr_div_pow2 by lia.
      rewrite <- Zfloor_div.
      * f_equal. unfold Rdiv. f_equal.
        replace e with (- (- e))%Z at 2 by lia. rewrite bpow_opp. f_equal.
        rewrite <- (IZR_Zpower radix2) by lia. reflexivity.
      * assert (0 < 2 ^ (-e))%Z by (apply Z.pow_pos_nonneg; lia). lia.
Qed.

Lemma int_floor_ok x k :
  int_floor x = Ok k <-> is_finite x = true /\ k = Zfloor (B2R x).
Proof.
  unfold int_floor. destruct x as [s|s| |s m e H] eqn:E; try (split; [discriminate| intros [? ?]; discriminate]).
  - rewrite <- E. rewrite <- ffloor_fin_correct by (subst; reflexivity).
    split; [intros Hk; inversion Hk; subst; auto | intros [_ ->]; subst; reflexivity].
  - rewrite <- E. rewrite <- ffloor_fin_correct by (subst; reflexivity).
    split; [intros Hk; inversion Hk; subst; auto | intros [_ ->]; subst; reflexivity].
Qed.

Definition fits (x : R) : Prop := Rabs x < bpow radix2 1024.

Lemma B2SF_inf_not_finite (x : f64) s : B2SF x = S754_infinity s -> is_finite x = false.
Proof. destruct x; simpl; congruence. Qed.

Lemma of_Z_cases n :
  (fits (rnd (IZR n)) /\ is_finite (of_Z n) = true /\ B2R (of_Z n) = rnd (IZR n)) \/
  (~ fits (rnd (IZR n)) /\ is_finite (of_Z n) = false).
Proof.
  unfold of_Z.
  generalize (binary_normalize_correct 53 1024 _ _ mode_NE n 0 false).
  cbv zeta.
  assert (E : F2R (Float radix2 n 0) = IZR n) by (unfold F2R; simpl; ring).
  rewrite E. simpl round_mode. rewrite fexp_eq. fold (rnd (IZR n)).
  case Rlt_bool_spec; intros H.
  - intros (H1 & H2 & _). left; auto.
  - intros H1. right. split. { unfold fits. lra. }
    eapply B2SF_inf_not_finite. rewrite H1. reflexivity.
Qed.

Lemma fmul_cases x y :
  is_finite x = true -> is_finite y = true ->
  (fits (rnd (B2R x * B2R y)) /\ is_finite (fmul x y) = true /\ B2R (fmul x y) = rnd (B2R x * B2R y)) \/
  (~ fits (rnd (B2R x * B2R y)) /\ is_finite (fmul x y) = false).
Proof.
  intros Fx Fy. unfold fmul.
  generalize (Bmult_correct 53 1024 _ _ mode_NE x y).
  simpl round_mode. rewrite fexp_eq. fold (rnd (B2R x * B2R y)).
  case Rlt_bool_spec; intros H.
  - intros (H1 & H2 & _). rewrite Fx, Fy in H2. left; auto.
  - intros H1. right. split. { unfold fits. lra. }
    eapply B2SF_inf_not_finite. rewrite H1. reflexivity.
Qed.

Lemma fmul_not_finite x y : is_finite x = false -> is_finite (fmul x y) = false.
Proof. destruct x as [s|s| |s m e H]; try discriminate; destruct y; reflexivity. Qed.

Lemma fadd_cases x y :
  is_finite x = true -> is_finite y = true ->
  (fits (rnd (B2R x + B2R y)) /\ is_finite (fadd x y) = true /\ B2R (fadd x y) = rnd (B2R x + B2R y)) \/
  (~ fits (rnd (B2R x + B2R y)) /\ fadd x y = B754_infinity (Bsign x)).
Proof.
  intros Fx Fy. unfold fadd.
  generalize (Bplus_correct 53 1024 _ _ mode_NE x y Fx Fy).
  simpl round_mode. rewrite fexp_eq. fold (rnd (B2R x + B2R y)).
  case Rlt_bool_spec; intros H.
  - intros (H1 & H2 & _). left; auto.
  - intros [H1 _]. right. split. { unfold fits. lra. }
    unfold binary_overflow in H1; simpl in H1.
    destruct (Bplus mode_NE x y); simpl in H1; congruence.
Qed.

Lemma floor_mul_ok p n k :
  floor_mul p n = Ok k <->
  is_finite p = true /\ fits (rnd (IZR n)) /\ fits (rnd (B2R p * rnd (IZR n))) /\
  k = Zfloor (rnd (B2R p * rnd (IZR n))).
Proof.
  unfold floor_mul. destruct (of_Z_cases n) as [(Hn & Fn & En)|(Hn & Fn)]; rewrite Fn.
  - rewrite int_floor_ok. destruct (is_finite p) eqn:Fp.
    + destruct (fmul_cases p (of_Z n) Fp Fn) as [(H1 & H2 & H3)|(H1 & H2)]; rewrite En in *.
      * rewrite H2, H3. tauto.
      * rewrite H2. split; [intros [? ?]; discriminate | tauto].
    + rewrite fmul_not_finite by auto. split; intros H; decompose [and] H; discriminate.
  - split; [discriminate | tauto].
Qed.

Lemma fmul_comm (x y : f64) : is_finite x = true -> fmul x y = fmul y x \/
  (is_finite (fmul x y) = is_finite (fmul y x) /\ B2R (fmul x y) = B2R (fmul y x)).
Proof.
  intros Fx. destruct (is_finite y) eqn:Fy.
  - right. destruct (fmul_cases x y Fx Fy) as [(A1&A2&A3)|(A1&A2)];
    destruct (fmul_cases y x Fy Fx) as [(B1&B2&B3)|(B1&B2)]; rewrite (Rmult_comm (B2R y)) in *; try tauto.
    + rewrite A2, B2, A3, B3. auto.
    + rewrite A2, B2. split; auto.
      destruct (fmul x y), (fmul y x); try discriminate; reflexivity.
  - left. destruct y as [s|s| |s m e H]; try discriminate;
    destruct x; try discriminate; unfold fmul, Bmult; try reflexivity;
    rewrite xorb_comm; reflexivity.
Qed.

(** the operand order of the product does not matter *)
Lemma floor_mul'_eq p n k : floor_mul' n p = Ok k <-> floor_mul p n = Ok k.
Proof.
  unfold floor_mul, floor_mul'. destruct (is_finite (of_Z n)) eqn:Fn; [|tauto].
  rewrite !int_floor_ok. destruct (fmul_comm (of_Z n) p Fn) as [E|[E1 E2]].
  - rewrite E. tauto.
  - rewrite E1, E2. tauto.
Qed.

Lemma of_Z_correct n :
  (Z.abs n <= 2 ^ 53)%Z -> is_finite (of_Z n) = true /\ B2R (of_Z n) = IZR n.
Proof.
  intros H. destruct (of_Z_cases n) as [(H1 & H2 & H3)|(H1 & _)]; rewrite rnd_IZR in * by auto.
  - auto.
  - exfalso. apply H1. unfold fits. rewrite <- abs_IZR. apply Rle_lt_trans with (IZR (2^53)).
    + now apply IZR_le.
    + change (IZR (2^53)) with (IZR (Zpower radix2 53)). rewrite IZR_Zpower by lia. apply bpow_lt. lia.
Qed.

Lemma fits_small x : Rabs x <= bpow radix2 1023 -> fits (rnd x).
Proof. apply rnd_abs_lt. Qed.

Lemma IZR_le_bpow n k : (0 <= k)%Z -> (Z.abs n <= 2 ^ k)%Z -> Rabs (IZR n) <= bpow radix2 k.
Proof.
  intros Hk H. rewrite <- abs_IZR, <- IZR_Zpower by auto. now apply IZR_le.
Qed.

Lemma rnd_0 : rnd 0 = 0.
Proof. apply round_0; auto with typeclass_instances. Qed.

(** For 0 <= p <= 1 and 0 <= n <= 2^53 the product never overflows, and its floor is the
    floor or the ceiling of the exact product. *)
Lemma floor_mul_bounds p n :
  is_finite p = true -> 0 <= B2R p <= 1 -> (0 <= n <= 2 ^ 53)%Z ->
  exists k, floor_mul p n = Ok k /\ (Zfloor (B2R p * IZR n) <= k <= Zceil (B2R p * IZR n))%Z
            /\ (0 <= k <= n)%Z.
Proof.
  intros Fp Hp Hn.
  assert (Hn' : rnd (IZR n) = IZR n) by (apply rnd_IZR; lia).
  assert (H0n : 0 <= IZR n) by (apply IZR_le; lia).
  assert (Hx : 0 <= B2R p * IZR n <= IZR n).
  { split. { apply Rmult_le_pos; lra. } rewrite <- (Rmult_1_l (IZR n)) at 2. apply Rmult_le_compat_r; lra. }
  set (x := B2R p * IZR n) in *.
  assert (Hb : bpow radix2 53 <= bpow radix2 1023) by (apply bpow_le; lia).
  assert (HN : IZR n <= bpow radix2 53).
  { generalize (IZR_le_bpow n 53). rewrite Rabs_right by lra. intros Q; apply Q; lia. }
  exists (Zfloor (rnd x)). rewrite floor_mul_ok, Hn'. fold x.
  assert (HF : (0 <= Zfloor x)%Z) by (apply Zfloor_lub; apply Hx).
  assert (HF2 : (Zfloor x <= n)%Z).
  { apply le_IZR. apply Rle_trans with x; [apply Zfloor_lb|apply Hx]. }
  assert (HC : (Zceil x <= n)%Z) by (apply Zceil_glb; apply Hx).
  assert (HC0 : (0 <= Zceil x)%Z).
  { apply le_IZR. apply Rle_trans with x; [apply Hx|apply Zceil_ub]. }
  assert (L : (Zfloor x <= Zfloor (rnd x))%Z).
  { apply Zfloor_lub. rewrite <- (rnd_IZR (Zfloor x)) by lia. apply rnd_le, Zfloor_lb. }
  assert (U : (Zfloor (rnd x) <= Zceil x)%Z).
  { apply le_IZR. apply Rle_trans with (rnd x); [apply Zfloor_lb|].
    rewrite <- (rnd_IZR (Zceil x)) by lia. apply rnd_le, Zceil_ub. }
  repeat split; auto; try lia.
  - rewrite <- Hn'. apply fits_small. rewrite Rabs_right by lra. lra.
  - apply fits_small. rewrite Rabs_right by lra. lra.
Qed.

(** strictness: p < 1 implies fewer than n items are selected *)
Lemma rnd_lt_IZR x n : (0 <= n <= 2^53)%Z -> x <= IZR n -> Zfloor (rnd x) = n -> rnd x = IZR n.
Proof.
  intros Hn Hx H. apply Rle_antisym.
  - rewrite <- (rnd_IZR n) by lia. now apply rnd_le.
  - rewrite <- H at 1. apply Zfloor_lb.
Qed.

Lemma fltb_fin x y : is_finite x = true -> is_finite y = true ->
  (fltb x y = true <-> B2R x < B2R y).
Proof. intros; unfold fltb; rewrite Bltb_correct by auto. case Rlt_bool_spec; intros; split; intros; try lra; congruence. Qed.

Lemma fleb_fin x y : is_finite x = true -> is_finite y = true ->
  (fleb x y = true <-> B2R x <= B2R y).
Proof. intros; unfold fleb; rewrite Bleb_correct by auto. case Rle_bool_spec; intros; split; intros; try lra; congruence. Qed.

Lemma f0_val : is_finite f0 = true /\ B2R f0 = 0.
Proof. apply (of_Z_correct 0). lia. Qed.
Lemma f1_val : is_finite f1 = true /\ B2R f1 = 1.
Proof. apply (of_Z_correct 1). lia. Qed.

Lemma fhalf_val : is_finite fhalf = true /\ B2R fhalf = 1 / 2.
Proof.
  split. { vm_compute. reflexivity. }
  unfold fhalf, fdiv. replace (B2R (Bdiv mode_NE (of_Z 1) (of_Z 2))) with (SF2R radix2 (B2SF (Bdiv mode_NE (of_Z 1) (of_Z 2)))) by apply SF2R_B2SF.
  replace (B2SF (Bdiv mode_NE (of_Z 1) (of_Z 2))) with (S754_finite false 4503599627370496 (-53)) by (vm_compute; reflexivity).
  unfold SF2R, F2R. simpl. lra.
Qed.

Lemma B2R_format (x : f64) : generic_format radix2 (FLT_exp (-1074) 53) (B2R x).
Proof. rewrite <- fexp_eq. apply generic_format_B2R. Qed.

Lemma format_lt_bpow x e :
  generic_format radix2 (FLT_exp (-1074) 53) x -> x < bpow radix2 e ->
  (-1073 <= e)%Z ->
  x <= bpow radix2 e - bpow radix2 (FLT_exp (-1074) 53 e).
Proof.
  intros Fx H He. rewrite <- pred_bpow.
  apply pred_ge_gt; auto with typeclass_instances.
  apply generic_format_bpow. unfold FLT_exp. lia.
Qed.

(** a factor at most 1 - 2^-53 keeps a rounded product strictly below the integer *)
Lemma rnd_mul_lt p m :
  p <= 1 - bpow radix2 (-53) -> (0 < m <= 2 ^ 53)%Z -> rnd (p * IZR m) < IZR m.
Proof.
  intros Hp Hm.
  assert (V : Valid_exp (FLT_exp (-1074) 53)) by auto with typeclass_instances.
  assert (Fm : generic_format radix2 (FLT_exp (-1074) 53) (IZR m)).
  { rewrite <- (rnd_IZR m) by lia. apply generic_format_round; auto with typeclass_instances. }
  assert (Pm : 0 < IZR m) by (apply IZR_lt; lia).
  apply Rle_lt_trans with (pred radix2 (FLT_exp (-1074) 53) (IZR m)).
  2: { apply pred_lt_id. lra. }
  apply round_N_le_midp; auto.
  { apply generic_format_pred; auto. }
  rewrite succ_pred by auto.
  assert (E : bpow radix2 (-52) = 2 * bpow radix2 (-53)).
  { change (-52)%Z with (1 + -53)%Z. rewrite bpow_plus. reflexivity. }
  assert (Hb : 0 < bpow radix2 (-53)) by apply bpow_gt_0.
  assert (H : p * IZR m <= (1 - bpow radix2 (-53)) * IZR m) by (apply Rmult_le_compat_r; lra).
  assert (Hmag1 : (1 <= mag radix2 (IZR m))%Z).
  { apply mag_ge_bpow. simpl. rewrite Rabs_right by lra. apply IZR_le; lia. }
  assert (Hm1 : bpow radix2 (mag radix2 (IZR m) - 1) <= IZR m).
  { apply Rle_trans with (Rabs (IZR m)). 2:{ rewrite Rabs_right; lra. } apply bpow_mag_le. lra. }
  set (e := (mag radix2 (IZR m) - 1)%Z) in *.
  destruct (Rle_lt_or_eq_dec _ _ Hm1) as [Hlt|Heq].
  - assert (Hu : IZR m - ulp radix2 (FLT_exp (-1074) 53) (IZR m) <= pred radix2 (FLT_exp (-1074) 53) (IZR m)).
    { assert (Q := pred_plus_ulp radix2 (FLT_exp (-1074) 53) (IZR m) Pm Fm).
      assert (ulp radix2 (FLT_exp (-1074) 53) (pred radix2 (FLT_exp (-1074) 53) (IZR m)) <= ulp radix2 (FLT_exp (-1074) 53) (IZR m)).
      { apply ulp_le_pos; auto with typeclass_instances.
        - apply pred_ge_0; auto.
        - apply Rlt_le, pred_lt_id. lra. }
      lra. }
    assert (Hulp : ulp radix2 (FLT_exp (-1074) 53) (IZR m) < IZR m * bpow radix2 (-52)).
    { rewrite ulp_neq_0 by lra. unfold cexp.
      unfold FLT_exp. rewrite Z.max_l by lia.
      replace (mag radix2 (IZR m) - 53)%Z with (e + (-52))%Z by (unfold e; lia).
      rewrite bpow_plus. apply Rmult_lt_compat_r; auto. apply bpow_gt_0. }
    rewrite E in Hulp.
    set (b := bpow radix2 (-53)) in *. set (u := ulp radix2 (FLT_exp (-1074) 53) (IZR m)) in *.
    set (pr := pred radix2 (FLT_exp (-1074) 53) (IZR m)) in *. clearbody b u pr.
    clear - Hu Hulp H. nra.
  - assert (Hp' : pred radix2 (FLT_exp (-1074) 53) (IZR m) = IZR m - IZR m * bpow radix2 (-53)).
    { rewrite <- Heq. rewrite pred_bpow. f_equal. rewrite <- bpow_plus. f_equal.
      unfold FLT_exp. lia. }
    rewrite Hp'. set (b := bpow radix2 (-53)) in *. clearbody b. clear - H Pm Hb. nra.
Qed.

(** trimming a fraction p < 1 of n items leaves at least one item *)
Lemma floor_mul_lt p n k :
  is_finite p = true -> 0 <= B2R p < 1 -> (0 < n <= 2 ^ 53)%Z ->
  floor_mul p n = Ok k -> (k < n)%Z.
Proof.
  intros Fp Hp Hn H. apply floor_mul_ok in H as (_ & _ & _ & ->).
  rewrite rnd_IZR by lia. apply lt_IZR. eapply Rle_lt_trans; [apply Zfloor_lb|].
  apply rnd_mul_lt; auto.
  apply (format_lt_bpow (B2R p) 0); [apply B2R_format | simpl; lra | lia].
Qed.

(** trimming a fraction q < 1/2 on both sides leaves at least one item *)
Lemma floor_mul_half_lt q n k :
  is_finite q = true -> 0 <= B2R q < 1 / 2 -> (0 < n <= 2 ^ 53)%Z ->
  floor_mul q n = Ok k -> (2 * k < n)%Z.
Proof.
  intros Fp Hp Hn H. apply floor_mul_ok in H as (_ & _ & _ & ->).
  rewrite rnd_IZR by lia.
  assert (Hq : B2R q <= 1 / 2 - bpow radix2 (-54)).
  { assert (E : 1 / 2 = bpow radix2 (-1)) by (simpl; lra). rewrite E.
    apply (format_lt_bpow (B2R q) (-1)); [apply B2R_format | rewrite <- E; lra | lia]. }
  assert (H0 : 0 <= IZR n) by (apply IZR_le; lia).
  assert (Hc : (n mod 2 = 0 \/ n mod 2 = 1)%Z) by (generalize (Z.mod_pos_bound n 2); lia).
  generalize (Z.div_mod n 2). intros Hd.
  destruct Hc as [Hc|Hc].
  - assert (En : n = (2 * (n / 2))%Z) by lia.
    set (m := (n / 2)%Z) in *. rewrite En in *. rewrite mult_IZR.
    replace (B2R q * (2 * IZR m)) with ((2 * B2R q) * IZR m) by ring.
    assert (rnd (2 * B2R q * IZR m) < IZR m).
    { apply rnd_mul_lt; [|lia].
      assert (E : bpow radix2 (-53) = 2 * bpow radix2 (-54)).
      { change (-53)%Z with (1 + -54)%Z. rewrite bpow_plus. reflexivity. } lra. }
    assert (Zfloor (rnd (2 * B2R q * IZR m)) < m)%Z.
    { apply lt_IZR. eapply Rle_lt_trans; [apply Zfloor_lb|]; auto. }
    lia.
  - assert (En : n = (2 * (n / 2) + 1)%Z) by lia.
    set (m := (n / 2)%Z) in *.
    assert (Hr : rnd (B2R q * IZR n) <= IZR n / 2).
    { assert (G : rnd (IZR n / 2) = IZR n / 2).
      { apply round_generic; auto with typeclass_instances. apply generic_format_FLT.
        exists (Float radix2 n (-1)); simpl Fnum; simpl Fexp; try lia.
        + unfold F2R; simpl Fnum; simpl Fexp. change (bpow radix2 (-1)) with (/ 2). lra.
        + assert (Z.abs n <> 2^53)%Z by (intros Q; rewrite Z.abs_eq in Q by lia; rewrite Q in Hc; vm_compute in Hc; discriminate).
          change (radix_val radix2) with 2%Z. lia. }
      rewrite <- G. apply rnd_le.
      apply Rle_trans with (1 / 2 * IZR n); [apply Rmult_le_compat_r; lra| lra]. }
    assert (Zfloor (rnd (B2R q * IZR n)) <= m)%Z.
    { apply Z.lt_succ_r. apply lt_IZR. eapply Rle_lt_trans; [apply Zfloor_lb|].
      eapply Rle_lt_trans; [exact Hr|]. rewrite succ_IZR. rewrite En.
      rewrite plus_IZR, mult_IZR. lra. }
    lia.
Qed.
