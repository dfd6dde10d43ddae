From Coq Require Import ZArith NArith Reals List String Ascii Bool Lia Lra.
From Coq Require Import DecimalString Decimal DecimalZ DecimalFacts.
From Flocq Require Import Core BinarySingleNaN.
Require Import Verif.Base Verif.F64 Verif.MD5 Verif.Design_Model Verif.Design_Spec.
Import ListNotations.
Open Scope R_scope.

Ltac inv H := inversion H; subst; clear H.

Lemma Zleb_false a b : (a <=? b)%Z = false <-> (b < a)%Z.
Proof. rewrite Z.leb_gt. tauto. Qed.

Lemma fltb_f0_false x : is_finite x = true -> (fltb x f0 = false <-> 0 <= B2R x).
Proof.
  intros F. destruct f0_val as [F0 V0].
  generalize (fltb_fin x f0 F F0). rewrite V0. intros H.
  destruct (fltb x f0); split; intros; try congruence.
  - assert (B2R x < 0) by (now apply H). lra.
  - destruct (Rlt_or_le (B2R x) 0); auto. apply H in H1. discriminate.
Qed.

Lemma fgtb_f0 x : is_finite x = true -> (fgtb x f0 = true <-> 0 < B2R x).
Proof.
  intros F. destruct f0_val as [F0 V0].
  unfold fgtb. fold (fltb f0 x). rewrite fltb_fin by auto. now rewrite V0.
Qed.

Lemma fgeb_false x y : is_finite x = true -> is_finite y = true -> (fgeb x y = false <-> B2R x < B2R y).
Proof.
  intros F Fy. unfold fgeb. fold (fleb y x).
  generalize (fleb_fin y x Fy F). intros H. destruct (fleb y x); split; intros; try congruence.
  - assert (B2R y <= B2R x) by now apply H. lra.
  - destruct (Rlt_or_le (B2R x) (B2R y)); auto. apply H in H1. discriminate.
Qed.

Lemma B2R_pos_sign (x : f64) : is_finite x = true -> 0 < B2R x -> Bsign x = false.
Proof.
  destruct x as [s|s| |s m e H]; simpl; try discriminate; intros _ Hp; try lra.
  destruct s; auto. exfalso. unfold F2R in Hp; simpl in Hp.
  assert (IZR (Z.neg m) < 0) by (apply IZR_lt; lia).
  assert (0 < bpow radix2 e) by apply bpow_gt_0. nra.
Qed.

Lemma sum_lt_1 x y : is_finite x = true -> is_finite y = true -> 0 <= B2R x -> 0 <= B2R y ->
  (fgeb (fadd x y) f1 = false <-> rnd (B2R x + B2R y) < 1).
Proof.
  intros Fx Fy Hx Hy. destruct f1_val as [F1 V1].
  destruct (fadd_cases x y Fx Fy) as [(A & B & C)|(A & B)].
  - rewrite fgeb_false by auto. rewrite V1, C. tauto.
  - rewrite B.
    assert (Hs : Bsign x = false \/ Bsign x = true) by (destruct (Bsign x); auto).
    assert (Hbig : bpow radix2 1024 <= Rabs (rnd (B2R x + B2R y))) by (unfold fits in A; lra).
    assert (Hpos : 0 <= rnd (B2R x + B2R y)).
    { rewrite <- rnd_0. apply rnd_le. lra. }
    rewrite Rabs_right in Hbig by lra.
    assert (1 < bpow radix2 1024) by (change 1 with (bpow radix2 0); apply bpow_lt; lia).
    split; [|lra]. intros Q. exfalso.
    destruct Hs as [Hs|Hs]; rewrite Hs in Q; [vm_compute in Q; discriminate|].
    (* a negative sign means x = -0, so the sum is y which fits *)
    assert (B2R x = 0).
    { destruct (Rle_lt_or_eq_dec 0 (B2R x) Hx) as [L|L]; [|auto].
      apply B2R_pos_sign in L; auto. congruence. }
    apply A. rewrite H0, Rplus_0_l. unfold rnd. rewrite round_generic; auto with typeclass_instances.
    + apply abs_B2R_lt_emax.
    + apply B2R_format.
Qed.

Lemma even_mod z : (negb (z mod 2 =? 0) = false)%Z <-> Z.Even z.
Proof.
  rewrite negb_false_iff, Z.eqb_eq. rewrite <- Z.even_spec, Zeven_mod, <- Zeq_is_eq_bool. tauto.
Qed.

Lemma top_lt_1 x y : 0 <= B2R y -> rnd (B2R (x:f64) + B2R (y:f64)) < 1 -> B2R x < 1.
Proof.
  intros Hy H. apply Rle_lt_trans with (2 := H).
  replace (B2R x) with (rnd (B2R x)) at 1.
  - apply rnd_le. lra.
  - apply round_generic; auto with typeclass_instances. apply B2R_format.
Qed.

Lemma prod_fits (p : f64) n : 0 <= B2R p <= 1 -> fits (rnd n) -> fits (rnd (B2R p * rnd n)).
Proof.
  intros Hp Hn. unfold fits in *. apply Rle_lt_trans with (2 := Hn).
  apply abs_round_le_generic; auto with typeclass_instances.
  - apply generic_format_abs. apply generic_format_round; auto with typeclass_instances.
  - rewrite Rabs_mult. rewrite (Rabs_right (B2R p)) by lra.
    rewrite <- (Rmult_1_l (Rabs (rnd n))) at 2. apply Rmult_le_compat_r; [apply Rabs_pos|lra].
Qed.

Lemma validate_ok d :
  let p := par d in
  is_finite (top p) = true -> is_finite (bottom p) = true -> is_finite (post p) = true ->
  (validate_design d = Ok tt <->
   (0 < runtime p)%Z /\ (0 <= pretest p)%Z /\ 0 <= B2R (top p) /\ 0 <= B2R (bottom p) /\
   rnd (B2R (top p) + B2R (bottom p)) < 1 /\ 0 <= B2R (post p) < 1 / 2 /\
   (pretest p = 0%Z -> B2R (top p) = 0 /\ B2R (bottom p) = 0) /\
   (crossover p = true ->
     exists w, washout p = Some w /\ (0 <= w)%Z /\ (2 * w < runtime p)%Z /\ Z.Even (runtime p)) /\
   (50 < n_post d)%Z).
Proof.
  intros p Ft Fb Fp. unfold validate_design. fold p.
  destruct fhalf_val as [Fh Vh].
  split.
  - intros H.
    apply bind_ok in H as ([] & H1 & H). apply raise_if_ok in H1.
    apply bind_ok in H as ([] & H2 & H). apply raise_if_ok in H2.
    apply bind_ok in H as ([] & H3 & H). apply raise_if_ok in H3.
    apply bind_ok in H as ([] & H4 & H). apply raise_if_ok in H4.
    apply bind_ok in H as ([] & H5 & H). apply raise_if_ok in H5.
    apply bind_ok in H as ([] & H6 & H). apply raise_if_ok in H6.
    apply bind_ok in H as ([] & H7 & H). apply raise_if_ok in H7.
    apply bind_ok in H as ([] & H8 & H). apply raise_if_ok in H8.
    apply bind_ok in H as ([] & H9 & H). apply raise_if_ok in H.
    rewrite fltb_f0_false in H3, H4, H5 by auto.
    rewrite sum_lt_1 in H6 by auto. rewrite fgeb_false in H7 by auto. rewrite Vh in H7.
    assert (P7 : pretest p = 0%Z -> B2R (top p) = 0 /\ B2R (bottom p) = 0).
    { intros E. rewrite E in H8. simpl in H8. apply orb_false_iff in H8 as [A B]. split.
      - destruct (Rle_lt_or_eq_dec _ _ H3) as [L|L]; [|auto]. apply fgtb_f0 in L; auto. congruence.
      - destruct (Rle_lt_or_eq_dec _ _ H4) as [L|L]; [|auto]. apply fgtb_f0 in L; auto. congruence. }
    assert (P8 : crossover p = true ->
       exists w, washout p = Some w /\ (0 <= w)%Z /\ (2 * w < runtime p)%Z /\ Z.Even (runtime p)).
    { intros E. rewrite E in H9. destruct (washout p) as [w|]; [|discriminate].
      apply bind_ok in H9 as ([] & A & H9). apply raise_if_ok in A.
      apply bind_ok in H9 as ([] & B & H9). apply raise_if_ok in B.
      apply raise_if_ok in H9. rewrite even_mod in H9. exists w. repeat split; auto; lia. }
    assert (0 < runtime p)%Z by lia. assert (0 <= pretest p)%Z by lia.
    assert (50 < n_post d)%Z by lia. assert (0 <= B2R (post p) < 1 / 2) by lra. tauto.
  - intros (H1 & H2 & H3 & H4 & H5 & H6 & H7 & H8 & H9).
    rewrite <- sum_lt_1 in H5 by auto.
    assert (Q3 := proj2 (fltb_f0_false _ Ft) H3).
    assert (Q4 := proj2 (fltb_f0_false _ Fb) H4).
    assert (Q5 := proj2 (fltb_f0_false _ Fp) (proj1 H6)).
    assert (Q6 : fgeb (post p) fhalf = false) by (apply fgeb_false; auto; rewrite Vh; lra).
    replace (runtime p <=? 0)%Z with false by lia.
    replace (pretest p <? 0)%Z with false by lia.
    rewrite Q3, Q4, Q5, H5, Q6. cbn [bind raise_if].
    replace (andb (pretest p =? 0)%Z (orb (fgtb (top p) f0) (fgtb (bottom p) f0))) with false.
    2:{ symmetry. destruct (Z.eqb_spec (pretest p) 0); simpl; auto.
        destruct (H7 e) as [A B]. apply orb_false_iff. split.
        - destruct (fgtb (top p) f0) eqn:Q; auto. apply fgtb_f0 in Q; auto. lra.
        - destruct (fgtb (bottom p) f0) eqn:Q; auto. apply fgtb_f0 in Q; auto. lra. }
    cbn [bind raise_if]. replace (n_post d <=? 50)%Z with false by lia.
    destruct (crossover p); [|reflexivity].
    destruct (H8 eq_refl) as (w & E & W1 & W2 & W3). rewrite E.
    replace (w <? 0)%Z with false by lia. replace (runtime p <=? 2 * w)%Z with false by lia.
    apply even_mod in W3. rewrite W3. reflexivity.
Qed.

Theorem mk_design_iff p d :
  mk_design p = Ok d <->
  design_ok p /\ d = mkDesignRec p (spec_n_pre p) (spec_n_post p).
Proof.
  unfold mk_design. split.
  - intros H.
    apply bind_ok in H as (kt & H1 & H). apply floor_mul_ok in H1 as (Ft & Rn & _ & ->).
    apply bind_ok in H as (kb & H1 & H). apply floor_mul_ok in H1 as (Fb & _ & _ & ->).
    fold (trim_count (top p) (n_before p)) in H. fold (trim_count (bottom p) (n_before p)) in H.
    fold (spec_n_pre p) in H.
    apply bind_ok in H as (kp & H1 & H). apply floor_mul_ok in H1 as (Fp & Rp & _ & ->).
    fold (trim_count (post p) (spec_n_pre p)) in H. fold (spec_n_post p) in H.
    apply bind_ok in H as ([] & H1 & H). inv H.
    apply validate_ok in H1; simpl in *; auto.
    destruct H1 as (A1 & A2 & A3 & A4 & A5 & A6 & A7 & A8 & A9).
    split; auto. constructor; auto.
  - intros [[A1 A2 (Ft & Fb & Fp) A3 A4 A5 A6 A7 A8 (R1 & R2) A9] ->].
    assert (T1 : B2R (top p) < 1) by (eapply top_lt_1; eauto).
    assert (T2 : B2R (bottom p) < 1) by (eapply top_lt_1; [|rewrite Rplus_comm; eauto]; auto).
    assert (E1 : floor_mul (top p) (n_before p) = Ok (trim_count (top p) (n_before p))).
    { apply floor_mul_ok. repeat split; auto. apply prod_fits; auto; lra. }
    assert (E2 : floor_mul (bottom p) (n_before p) = Ok (trim_count (bottom p) (n_before p))).
    { apply floor_mul_ok. repeat split; auto. apply prod_fits; auto; lra. }
    rewrite E1. cbn [bind]. rewrite E2. cbn [bind]. cbv zeta. fold (spec_n_pre p).
    assert (E3 : floor_mul (post p) (spec_n_pre p) = Ok (trim_count (post p) (spec_n_pre p))).
    { apply floor_mul_ok. repeat split; auto. apply prod_fits; auto; lra. }
    rewrite E3. cbn [bind]. fold (spec_n_post p).
    assert (V : validate_design (mkDesignRec p (spec_n_pre p) (spec_n_post p)) = Ok tt).
    { apply validate_ok; cbn [par n_post]; auto 12. }
    rewrite V. reflexivity.
Qed.

(** counts *)
Lemma trim_count_bounds (p : f64) n :
  is_finite p = true -> 0 <= B2R p <= 1 -> (0 <= n <= 2 ^ 53)%Z ->
  (Zfloor (B2R p * IZR n) <= trim_count p n <= Zceil (B2R p * IZR n))%Z /\ (0 <= trim_count p n <= n)%Z.
Proof.
  intros F H Hn. destruct (floor_mul_bounds p n F H Hn) as (k & K & B1 & B2).
  apply floor_mul_ok in K as (_ & _ & _ & ->). auto.
Qed.

Lemma trim_count_0 (p : f64) n : B2R p = 0 -> trim_count p n = 0%Z.
Proof. intros H. unfold trim_count. rewrite H, Rmult_0_l, rnd_0. apply (Zfloor_IZR 0). Qed.

Lemma floor_mul_count p n k : floor_mul p n = Ok k -> k = trim_count p n.
Proof. intros H. now apply floor_mul_ok in H as (_ & _ & _ & ->). Qed.

Lemma design_counts p d : mk_design p = Ok d -> (0 <= n_before p <= 2 ^ 53)%Z ->
  (50 < n_post d)%Z /\ (n_post d <= n_pre d)%Z /\ (n_pre d <= n_before p)%Z.
Proof.
  intros H Hn. apply mk_design_iff in H as [[A1 A2 (Ft & Fb & Fp) A3 A4 A5 A6 A7 A8 (R1 & R2) A9] ->].
  simpl. assert (T1 : B2R (top p) < 1) by (eapply top_lt_1; eauto).
  assert (T2 : B2R (bottom p) < 1) by (eapply top_lt_1; [|rewrite Rplus_comm; eauto]; auto).
  destruct (trim_count_bounds (top p) (n_before p) Ft) as [_ B1]; auto; [lra|].
  destruct (trim_count_bounds (bottom p) (n_before p) Fb) as [_ B2]; auto; [lra|].
  assert (HP : (spec_n_pre p <= n_before p)%Z) by (unfold spec_n_pre; lia).
  assert (HL : (- n_before p <= spec_n_pre p)%Z) by (unfold spec_n_pre; lia).
  repeat split; auto.
  unfold spec_n_post in *.
  destruct (Z_le_gt_dec 0 (spec_n_pre p)) as [Hp|Hp].
  - destruct (trim_count_bounds (post p) (spec_n_pre p) Fp) as [_ B3]; auto; [lra| lia|lia].
  - (* negative count: the floor is at least the count rounded, contradiction with > 50 *)
    exfalso.
    assert (Hr : rnd (IZR (spec_n_pre p)) = IZR (spec_n_pre p)) by (apply rnd_IZR; lia).
    assert (L : IZR (spec_n_pre p) <= rnd (B2R (post p) * IZR (spec_n_pre p))).
    { rewrite <- Hr at 1. apply rnd_le.
      assert (IZR (spec_n_pre p) < 0) by (apply IZR_lt; lia). nra. }
    assert (G : rnd (IZR (spec_n_pre p) / 2) = IZR (spec_n_pre p) / 2).
    { apply round_generic; auto with typeclass_instances. apply generic_format_FLT.
      destruct (Z.eq_dec (Z.abs (spec_n_pre p)) (2^53)) as [Q|Q].
      - exists (Float radix2 (Z.sgn (spec_n_pre p)) 52); simpl Fnum; simpl Fexp; try lia.
        + unfold F2R. simpl Fnum; simpl Fexp. rewrite <- (IZR_Zpower radix2) by lia.
          replace (spec_n_pre p) with (- 2^53)%Z by lia. simpl. lra.
        + change (radix_val radix2) with 2%Z. lia.
      - exists (Float radix2 (spec_n_pre p) (-1)); simpl Fnum; simpl Fexp; try lia.
        + unfold F2R; simpl Fnum; simpl Fexp. change (bpow radix2 (-1)) with (/ 2). lra.
        + change (radix_val radix2) with 2%Z. lia. }
    assert (L2 : IZR (spec_n_pre p) / 2 <= rnd (B2R (post p) * IZR (spec_n_pre p))).
    { rewrite <- G. apply rnd_le.
      assert (IZR (spec_n_pre p) < 0) by (apply IZR_lt; lia). nra. }
    assert (L3 : (spec_n_pre p - 1 <= 2 * trim_count (post p) (spec_n_pre p))%Z).
    { unfold trim_count. rewrite Hr.
      generalize (Zfloor_ub (rnd (B2R (post p) * IZR (spec_n_pre p)))). intros U.
      apply Z.lt_pred_le. apply lt_IZR. rewrite mult_IZR. replace (Z.pred (spec_n_pre p - 1)) with (spec_n_pre p - 2)%Z by lia. rewrite minus_IZR. lra. }
    lia.
Qed.
