(** C108: the totals of pandas groups, for any doubles. *)
From Coq Require Import ZArith Reals Lra Lia List Bool Permutation.
From Flocq Require Import Core BinarySingleNaN Relative Plus_error.
Require Import Verif.Base Verif.Num Verif.F64 Verif.Table_Model Verif.Table_Props Verif.Sums_Model Verif.Sums_Props.
Import ListNotations.
Open Scope R_scope.

(** *** Single operations *)
Lemma fadd_relative x y : is_finite x = true -> is_finite y = true -> Rabs (B2R x + B2R y) <= bpow radix2 1023 ->
  is_finite (fadd x y) = true /\ exists eps, Rabs eps <= unit_error /\ B2R (fadd x y) = (B2R x + B2R y) * (1 + eps).
Proof.
  intros Fx Fy L. destruct (fadd_cases x y Fx Fy) as [(_ & F & V)|(NF & _)]; [|exfalso; now apply NF, fits_small].
  split; [exact F|]. destruct (rnd_plus (B2R x) (B2R y) (B2R_format _) (B2R_format _)) as (eps & B & E). exists eps. split; [exact B|]. now rewrite V.
Qed.
Lemma fsub_relative x y : is_finite x = true -> is_finite y = true -> Rabs (B2R x - B2R y) <= bpow radix2 1023 ->
  is_finite (fsub x y) = true /\ exists eps, Rabs eps <= unit_error /\ B2R (fsub x y) = (B2R x - B2R y) * (1 + eps).
Proof.
  intros Fx Fy L. unfold fsub. generalize (Bminus_correct 53 1024 prec_gt_0_53 prec_lt_1024 mode_NE x y Fx Fy).
  change (round_mode mode_NE) with ZnearestE. rewrite fexp_eq. fold (rnd (B2R x - B2R y)). rewrite Rlt_bool_true by now apply rnd_abs_lt.
  intros (V & F & _). split; [exact F|].
  destruct (rnd_plus (B2R x) (- B2R y) (B2R_format _)) as (eps & B & E); [apply generic_format_opp, B2R_format|].
  exists eps. split; [exact B|]. now rewrite V.
Qed.

(** *** Real numbers *)
Lemma prod_le a b x y : Rabs a <= x -> Rabs b <= y -> Rabs (a * b) <= x * y.
Proof. intros A B. rewrite Rabs_mult. apply Rmult_le_compat; auto using Rabs_pos. Qed.
Lemma sum_le a b x y : Rabs a <= x -> Rabs b <= y -> Rabs (a + b) <= x + y.
Proof. intros A B. eapply Rle_trans; [apply Rabs_triang|]. lra. Qed.
Lemma grow_le a e x u : Rabs a <= x -> Rabs e <= u -> Rabs (a * (1 + e)) <= x + x * u.
Proof. intros A E. replace (a * (1 + e)) with (a + a * e) by ring. apply sum_le; [exact A|now apply prod_le]. Qed.

Section Step.
Context (u S : R) (Hu : 0 < u <= / 1000) (HS : 0 <= S).
Let A := u * S.
Let B := u * (u * S).
Lemma A_small : 0 <= A <= / 1000 * S.
Proof. unfold A. split; [apply Rmult_le_pos; lra|apply Rmult_le_compat_r; lra]. Qed.
Lemma B_small : 0 <= B <= / 1000 * A.
Proof. assert (X := A_small). unfold B. fold A. split; [apply Rmult_le_pos; lra|apply Rmult_le_compat_r; lra]. Qed.
Lemma uB_small : 0 <= u * B <= / 1000 * B.
Proof. assert (X := B_small). split; [apply Rmult_le_pos; lra|apply Rmult_le_compat_r; lra]. Qed.

Context (X sg k s c x : R) (HX : 0 <= X) (HXS : X + Rabs x <= S) (Hk : 0 <= k) (Hku : k * u <= / 32) (Hsg : Rabs sg <= X)
  (Hc : Rabs c <= 4 * A) (Hs : Rabs (s - c - sg) <= 2 * u * X + 20 * k * B).

Lemma kB : 0 <= k * B <= / 32 * A.
Proof.
  assert (Y := A_small). assert (Z := B_small). split; [apply Rmult_le_pos; lra|].
  unfold B. fold A. rewrite <- Rmult_assoc. apply Rmult_le_compat_r; lra.
Qed.
Lemma uX : 0 <= u * X <= A.
Proof. assert (P := Rabs_pos x). unfold A. split; [apply Rmult_le_pos; lra|apply Rmult_le_compat_l; lra]. Qed.
Lemma step_y : Rabs (x - c) <= Rabs x + 4 * A /\ Rabs (x - c) <= 2 * S.
Proof.
  assert (Y := A_small). assert (Q : Rabs (x - c) <= Rabs x + 4 * A).
  { replace (x - c) with (x + - c) by ring. apply sum_le; [apply Rle_refl|now rewrite Rabs_Ropp]. }
  split; lra.
Qed.
Lemma step_s : Rabs s <= 3 / 2 * S.
Proof.
  assert (Y := A_small). assert (Z := kB). assert (W := uX). assert (P := Rabs_pos x).
  replace s with ((s - c - sg) + (sg + c)) by ring.
  eapply Rle_trans; [apply sum_le; [exact Hs|apply sum_le; [exact Hsg|exact Hc]]|]. lra.
Qed.

Context (eta : R) (Heta : Rabs eta <= u).
Let y := (x - c) * (1 + eta).
Lemma y_le : Rabs y <= Rabs x + u * Rabs x + 4 * A + 4 * B /\ Rabs y <= 5 / 4 * S.
Proof.
  destruct step_y as [Q _]. assert (Y := A_small). assert (Z := B_small).
  assert (G := grow_le _ _ _ _ Q Heta). fold y in G. assert (P := Rabs_pos x).
  assert (UX : u * Rabs x <= A) by (unfold A; apply Rmult_le_compat_l; lra).
  replace ((Rabs x + 4 * A) * u) with (u * Rabs x + 4 * B) in G by (unfold B, A; ring). split; lra.
Qed.
Lemma sy_le : Rabs (s + y) <= 3 / 2 * S.
Proof.
  destruct step_y as [Q _]. assert (Y := A_small). assert (Z := B_small). assert (W := kB). assert (V := uX). assert (P := Rabs_pos x).
  replace (s + y) with ((s - c - sg) + ((sg + x) + (x - c) * eta)) by (unfold y; ring).
  assert (UX : u * Rabs x <= A) by (unfold A; apply Rmult_le_compat_l; lra).
  assert (E1 : Rabs ((x - c) * eta) <= A + 4 * B).
  { eapply Rle_trans; [apply prod_le; [exact Q|exact Heta]|]. replace ((Rabs x + 4 * A) * u) with (u * Rabs x + 4 * B) by (unfold B, A; ring). lra. }
  eapply Rle_trans; [apply sum_le; [exact Hs|apply sum_le; [apply sum_le; [exact Hsg|apply Rle_refl]|exact E1]]|]. lra.
Qed.

Context (eps : R) (Heps : Rabs eps <= u).
Let t := (s + y) * (1 + eps).
Let e := (s + y) * eps.
Lemma e_le : Rabs e <= 3 / 2 * A.
Proof. eapply Rle_trans; [apply prod_le; [exact sy_le|exact Heps]|]. unfold A. right. ring. Qed.
Lemma ts_le : Rabs (t - s) <= 4 * S.
Proof.
  assert (Y := A_small). replace (t - s) with (y + e) by (unfold t, e; ring). destruct y_le as [_ Q].
  eapply Rle_trans; [apply sum_le; [exact Q|exact e_le]|]. lra.
Qed.

Context (delta : R) (Hdelta : Rabs delta <= u).
Let z := (t - s) * (1 + delta).
Lemma zy_le : Rabs (z - y - e) <= u * Rabs x + 7 * B /\ Rabs (z - y) <= 3 * A /\ Rabs (z - y) <= 8 * S.
Proof.
  assert (Y := A_small). assert (Z := B_small). assert (W := uB_small). destruct y_le as [Q Q']. assert (E := e_le). assert (P := Rabs_pos x).
  assert (UX : u * Rabs x <= A) by (unfold A; apply Rmult_le_compat_l; lra).
  assert (UUX : u * (u * Rabs x) <= B) by (unfold B; apply Rmult_le_compat_l; [lra|]; fold A; lra).
  assert (D : Rabs (z - y - e) <= u * Rabs x + 7 * B).
  { replace (z - y - e) with ((y + e) * delta) by (unfold z, t, e; ring).
    eapply Rle_trans; [apply prod_le; [apply sum_le; [exact Q|exact E]|exact Hdelta]|].
    replace ((Rabs x + u * Rabs x + 4 * A + 4 * B + 3 / 2 * A) * u) with (u * Rabs x + u * (u * Rabs x) + 11 / 2 * B + 4 * (u * B)) by (unfold B, A; field). lra. }
  split; [exact D|]. assert (G : Rabs (z - y) <= 3 * A).
  { replace (z - y) with ((z - y - e) + e) by ring. eapply Rle_trans; [apply sum_le; [exact D|exact E]|]. lra. }
  split; [exact G|lra].
Qed.

Context (delta' : R) (Hdelta' : Rabs delta' <= u).
Let c' := (z - y) * (1 + delta').
Lemma step_c : Rabs c' <= 4 * A.
Proof.
  assert (Y := A_small). assert (Z := B_small). destruct zy_le as (_ & G & _).
  eapply Rle_trans; [apply grow_le; [exact G|exact Hdelta']|]. replace (3 * A * u) with (3 * B) by (unfold B, A; ring). lra.
Qed.
Lemma step_total : Rabs (t - c' - (sg + x)) <= 2 * u * (X + Rabs x) + 20 * (k + 1) * B.
Proof.
  assert (Y := A_small). assert (Z := B_small). destruct zy_le as (D & G & _). destruct step_y as [Q _].
  assert (G' : Rabs ((z - y) * delta') <= 3 * B).
  { eapply Rle_trans; [apply prod_le; [exact G|exact Hdelta']|]. right. unfold B, A. ring. }
  assert (E1 : Rabs ((x - c) * eta) <= u * Rabs x + 4 * B).
  { eapply Rle_trans; [apply prod_le; [exact Q|exact Heta]|]. right. unfold B, A. ring. }
  replace (t - c' - (sg + x)) with ((s - c - sg) + ((x - c) * eta + (- (z - y - e) + - ((z - y) * delta')))) by (unfold c', t, e, y; ring).
  eapply Rle_trans; [apply sum_le; [exact Hs|apply sum_le; [exact E1|apply sum_le; rewrite Rabs_Ropp; [exact D|exact G']]]|].
  lra.
Qed.
End Step.

(** *** The loop *)
Lemma unit_error_small : 0 < unit_error <= / 1000.
Proof.
  split; [apply unit_error_pos|]. apply Rle_trans with (bpow radix2 (-10)); [apply bpow_le; lia|]. change (bpow radix2 (-10)) with (/ 1024). lra.
Qed.
Lemma grouped_loop S : S <= bpow radix2 1000 ->
  forall l s c X sg k, Forall (fun x => is_finite x = true) l -> is_finite s = true -> is_finite c = true ->
  0 <= X -> X + sum_abs l <= S -> Rabs sg <= X -> (INR k + INR (length l)) * unit_error <= / 32 ->
  Rabs (B2R c) <= 4 * (unit_error * S) -> Rabs (B2R s - B2R c - sg) <= 2 * unit_error * X + 20 * INR k * (unit_error * (unit_error * S)) ->
  let (s', c') := fold_left compensated_step l (s, c) in
  is_finite s' = true /\ Rabs (B2R c') <= 4 * (unit_error * S) /\
  Rabs (B2R s' - B2R c' - (sg + exact_sum (map B2R l))) <= 2 * unit_error * (X + sum_abs l) + 20 * (INR k + INR (length l)) * (unit_error * (unit_error * S)).
Proof.
  intros LS. assert (Hu := unit_error_small). induction l as [|x l IH]; intros s c X sg k F Fs Fc HX HXS Hsg Hk Hc Hs.
  - simpl. split; [exact Fs|split; [exact Hc|]]. unfold exact_sum, sum_abs, exact_sum; simpl. rewrite !Rplus_0_r. exact Hs.
  - inversion F as [|? ? Fx Fl]; subst. change (sum_abs (x :: l)) with (Rabs (B2R x) + sum_abs l) in *.
    assert (Pl := sum_abs_pos l). assert (Px := Rabs_pos (B2R x)).
    change (length (x :: l)) with (Datatypes.S (length l)) in *. rewrite S_INR in *. assert (Pk := pos_INR k). assert (Pn := pos_INR (length l)).
    assert (HS : 0 <= S) by lra. assert (HXx : X + Rabs (B2R x) <= S) by lra.
    assert (Hku : INR k * unit_error <= / 32).
    { eapply Rle_trans; [|exact Hk]. apply Rmult_le_compat_r; lra. }
    assert (BIG : 8 * S <= bpow radix2 1023).
    { apply Rle_trans with (8 * bpow radix2 1000); [lra|]. apply Rle_trans with (bpow radix2 3 * bpow radix2 1000); [change (bpow radix2 3) with 8; lra|].
      rewrite <- bpow_plus. apply bpow_le. lia. }
    cbn [fold_left]. unfold compensated_step at 2.
    destruct (step_y unit_error S Hu HS X (B2R c) (B2R x) HX HXx Hc) as [_ Y2].
    destruct (fsub_relative x c Fx Fc) as (Fy & eta & Heta & Vy); [lra|].
    assert (SY := sy_le unit_error S Hu HS X sg (INR k) (B2R s) (B2R c) (B2R x) HX HXx Pk Hku Hsg Hc Hs eta Heta). rewrite <- Vy in SY.
    destruct (fadd_relative s (fsub x c) Fs Fy) as (Ft & eps & Heps & Vt); [lra|].
    assert (TS := ts_le unit_error S Hu HS X sg (INR k) (B2R s) (B2R c) (B2R x) HX HXx Pk Hku Hsg Hc Hs eta Heta eps Heps).
    rewrite <- Vy, <- Vt in TS.
    destruct (fsub_relative (fadd s (fsub x c)) s Ft Fs) as (Fz & delta & Hdelta & Vz); [lra|].
    destruct (zy_le unit_error S Hu HS X sg (INR k) (B2R s) (B2R c) (B2R x) HX HXx Pk Hku Hsg Hc Hs eta Heta eps Heps delta Hdelta) as (_ & _ & ZY).
    rewrite <- Vy, <- Vt, <- Vz in ZY.
    destruct (fsub_relative (fsub (fadd s (fsub x c)) s) (fsub x c) Fz Fy) as (Fc' & delta' & Hdelta' & Vc'); [lra|].
    assert (C' := step_c unit_error S Hu HS X sg (INR k) (B2R s) (B2R c) (B2R x) HX HXx Pk Hku Hsg Hc Hs eta Heta eps Heps delta Hdelta delta' Hdelta').
    rewrite <- Vy, <- Vt, <- Vz, <- Vc' in C'.
    assert (T' := step_total unit_error S Hu HS X sg (INR k) (B2R s) (B2R c) (B2R x) HX HXx Pk Hku Hsg Hc Hs eta Heta eps Heps delta Hdelta delta' Hdelta').
    rewrite <- Vy, <- Vt, <- Vz, <- Vc' in T'.
    assert (G := IH (fadd s (fsub x c)) (fsub (fsub (fadd s (fsub x c)) s) (fsub x c)) (X + Rabs (B2R x)) (sg + B2R x) (Datatypes.S k) Fl Ft Fc').
    rewrite S_INR in G.
    assert (G' := G ltac:(lra) ltac:(lra) ltac:(apply sum_le; [exact Hsg|apply Rle_refl]) ltac:(eapply Rle_trans; [right|exact Hk]; ring) C' T'). clear G.
    destruct (fold_left _ _ _) as [s' c']. destruct G' as (FF & CC & TT). split; [exact FF|split; [exact CC|]].
    change (exact_sum (map B2R (x :: l))) with (B2R x + exact_sum (map B2R l)).
    replace (sg + (B2R x + exact_sum (map B2R l))) with (sg + B2R x + exact_sum (map B2R l)) by ring.
    replace (X + (Rabs (B2R x) + sum_abs l)) with (X + Rabs (B2R x) + sum_abs l) by ring.
    replace (INR k + (INR (length l) + 1)) with (INR k + 1 + INR (length l)) by ring. exact TT.
Qed.

(** The error of a group total does not grow with the number of rows. *)
Theorem c108_rounding_in_groups : forall l,
  Forall (fun x => is_finite x = true) l -> (Z.of_nat (length l) <= 2 ^ 48)%Z -> sum_abs l <= bpow radix2 1000 ->
  is_finite (grouped l) = true /\ Rabs (B2R (grouped l) - exact_sum (map B2R l)) <= 7 * unit_error * sum_abs l.
Proof.
  intros l F N L. assert (Hu := unit_error_small). assert (P := sum_abs_pos l).
  assert (K : INR (length l) * unit_error <= / 32).
  { apply Rle_trans with (bpow radix2 48 * unit_error).
    - apply Rmult_le_compat_r; [lra|]. rewrite INR_IZR_INZ, <- (Rabs_pos_eq (IZR _)) by (apply IZR_le; lia). apply IZR_le_bpow; lia.
    - unfold unit_error. rewrite <- bpow_plus. change (bpow radix2 (48 + -53)) with (/ 32). apply Rle_refl. }
  assert (A0 : 0 <= unit_error * sum_abs l) by (apply Rmult_le_pos; lra).
  assert (G := grouped_loop (sum_abs l) L l f0 f0 0 0 0 F eq_refl eq_refl).
  change (B2R f0) with 0 in G. change (INR 0) with 0 in G.
  assert (G' := G ltac:(lra) ltac:(lra) ltac:(rewrite Rabs_R0; lra) ltac:(rewrite Rplus_0_l; exact K) ltac:(rewrite Rabs_R0; lra)
    ltac:(replace (0 - 0 - 0) with 0 by ring; rewrite Rabs_R0; lra)). clear G.
  unfold grouped, grouped_state. destruct (fold_left _ _ _) as [s c]. destruct G' as (FF & CC & TT). cbn [fst]. split; [exact FF|].
  rewrite !Rplus_0_l in TT.
  replace (B2R s - exact_sum (map B2R l)) with ((B2R s - B2R c - exact_sum (map B2R l)) + B2R c) by ring.
  eapply Rle_trans; [apply sum_le; [exact TT|exact CC]|].
  assert (KB : INR (length l) * (unit_error * (unit_error * sum_abs l)) <= / 32 * (unit_error * sum_abs l)) by (rewrite <- Rmult_assoc; now apply Rmult_le_compat_r).
  lra.
Qed.

Lemma exact_mean_error a t n E : 1 <= n -> Rabs (a - t) <= E -> Rabs (a / n - t / n) <= E / n.
Proof.
  intros N H. replace (a / n - t / n) with ((a - t) * / n) by (field; lra). unfold Rdiv. rewrite Rabs_mult.
  assert (0 < / n) by (apply Rinv_0_lt_compat; lra). rewrite (Rabs_pos_eq (/ n)) by lra. apply Rmult_le_compat_r; lra.
Qed.
Theorem c108_rounding_of_group_means : forall l,
  Forall (fun x => is_finite x = true) l -> l <> [] -> (Z.of_nat (length l) <= 2 ^ 48)%Z -> sum_abs l <= bpow radix2 1000 ->
  is_finite (grouped_mean l) = true /\
  Rabs (B2R (grouped_mean l) - exact_sum (map B2R l) / INR (length l)) <= 9 * unit_error * (sum_abs l / INR (length l)) + bpow radix2 (-1075).
Proof.
  intros l F NE N L. destruct (c108_rounding_in_groups l F N L) as [FF E]. assert (Hu := unit_error_small). assert (P := sum_abs_pos l).
  assert (XT := exact_sum_abs l). unfold grouped_mean. set (n := length l) in *.
  assert (N1 : (1 <= n)%nat) by (unfold n; destruct l; [congruence|simpl; lia]).
  destruct (of_Z_correct (Z.of_nat n)) as [Fn Vn]; [lia|]. rewrite <- INR_IZR_INZ in Vn.
  assert (PN : 1 <= INR n) by (apply (le_INR 1); lia). assert (IN : 0 < / INR n <= 1).
  { split; [apply Rinv_0_lt_compat; lra|]. rewrite <- Rinv_1. apply Rinv_le; lra. }
  set (a := B2R (grouped l)) in *. set (t := exact_sum (map B2R l)) in *. set (S := sum_abs l) in *.
  assert (A0 : 0 <= unit_error * S <= / 1000 * S) by (split; [apply Rmult_le_pos; lra|apply Rmult_le_compat_r; lra]).
  assert (AB : Rabs a <= 2 * S).
  { replace a with ((a - t) + t) by ring. eapply Rle_trans; [apply sum_le; [exact E|exact XT]|]. lra. }
  assert (AN : Rabs (a / INR n) <= 2 * (S / INR n)).
  { unfold Rdiv. rewrite Rabs_mult, (Rabs_pos_eq (/ _)), <- Rmult_assoc by lra. apply Rmult_le_compat_r; lra. }
  assert (AB' : Rabs (a / INR n) <= 2 * S).
  { eapply Rle_trans; [exact AN|]. apply Rmult_le_compat_l; [lra|]. unfold Rdiv. rewrite <- (Rmult_1_r S) at 2. apply Rmult_le_compat_l; lra. }
  assert (D0 : B2R (of_Z (Z.of_nat n)) <> 0) by (rewrite Vn; lra).
  assert (X := Bdiv_correct 53 1024 prec_gt_0_53 prec_lt_1024 mode_NE (grouped l) (of_Z (Z.of_nat n)) D0). rewrite Vn in X. fold a in X.
  change (round_mode mode_NE) with ZnearestE in X. rewrite fexp_eq in X. fold (rnd (a / INR n)) in X. rewrite Rlt_bool_true in X.
  - destruct X as (V & FD & _). unfold fdiv.
    change (is_finite (Bdiv mode_NE (grouped l) (of_Z (Z.of_nat n))) = true /\
      Rabs (B2R (Bdiv mode_NE (grouped l) (of_Z (Z.of_nat n))) - t / INR n) <= 9 * unit_error * (S / INR n) + bpow radix2 (-1075)).
    rewrite V, FD. split; [exact FF|].
    assert (RE := rnd_error (a / INR n)). fold unit_error in RE.
    replace (rnd (a / INR n) - t / INR n) with ((rnd (a / INR n) - a / INR n) + (a / INR n - t / INR n)) by ring.
    eapply Rle_trans; [apply sum_le; [exact RE|exact (exact_mean_error a t (INR n) _ PN E)]|].
    assert (M : unit_error * Rabs (a / INR n) <= unit_error * (2 * (S / INR n))) by (apply Rmult_le_compat_l; lra).
    replace (7 * unit_error * S / INR n) with (7 * unit_error * (S / INR n)) by (field; lra). lra.
  - apply rnd_abs_lt. eapply Rle_trans; [exact AB'|]. apply Rle_trans with (bpow radix2 1 * bpow radix2 1000); [change (bpow radix2 1) with 2; lra|].
    rewrite <- bpow_plus. apply bpow_le. lia.
Qed.

(** Plain additions do not have such a bound: 2^53 and 15 ones, one after the other. *)
Definition big_first : list f64 := repeat (of_Z 1) 15.
Theorem c108_plain_totals_have_this_bound_refuted :
  ~ (forall x l, Forall (fun x => is_finite x = true) (x :: l) -> (Z.of_nat (length (x :: l)) <= 2 ^ 48)%Z -> sum_abs (x :: l) <= bpow radix2 1000 ->
     Rabs (B2R (added (in_sequence x l)) - exact_sum (map B2R (x :: l))) <= 7 * unit_error * sum_abs (x :: l)).
Proof.
  intros H. assert (W := H big big_first). clear H.
  assert (A : added (in_sequence big big_first) = of_Z (2 ^ 53)) by (apply B2SF_inj; vm_compute; reflexivity).
  assert (V1 : B2R (of_Z 1) = 1) by (apply of_Z_correct; lia).
  assert (VB : B2R big = 9007199254740992) by (apply of_Z_correct; vm_compute; discriminate).
  fold big in A. rewrite A in W. unfold sum_abs, exact_sum, big_first in W. cbn [repeat map fold_right] in W. rewrite VB, V1, Rabs_R1 in W.
  rewrite (Rabs_pos_eq 9007199254740992) in W by lra.
  assert (U : unit_error = / 9007199254740992) by reflexivity. rewrite U in W.
  assert (Q := W ltac:(repeat constructor) ltac:(vm_compute; discriminate)
    ltac:(apply Rle_trans with (bpow radix2 54); [change (bpow radix2 54) with 18014398509481984; lra|apply bpow_le; lia])).
  clear W. rewrite Rabs_left in Q by lra. lra.
Qed.

(** *** Example *)
Example c108_groups_of_tenths : forall n, (Z.of_nat n <= 2 ^ 48)%Z ->
  is_finite (grouped (repeat (flit 1 10) n)) = true /\
  Rabs (B2R (grouped (repeat (flit 1 10) n)) - INR n * B2R (flit 1 10)) <= 7 * unit_error * (INR n * Rabs (B2R (flit 1 10))).
Proof.
  intros n N. destruct tenth as [F B].
  assert (E : exact_sum (map B2R (repeat (flit 1 10) n)) = INR n * B2R (flit 1 10)).
  { unfold exact_sum. clear N. induction n; cbn [repeat map fold_right]; [change (INR 0) with 0; ring|]. rewrite IHn, S_INR. ring. }
  assert (E' : sum_abs (repeat (flit 1 10) n) = INR n * Rabs (B2R (flit 1 10))).
  { unfold sum_abs, exact_sum. clear N E. induction n; cbn [repeat map fold_right]; [change (INR 0) with 0; ring|]. rewrite IHn, S_INR. ring. }
  rewrite <- E, <- E'. apply c108_rounding_in_groups.
  - apply Forall_forall. intros x Hx. apply repeat_spec in Hx. now subst.
  - now rewrite repeat_length.
  - rewrite E'. apply Rle_trans with (bpow radix2 48 * 1).
    + apply Rmult_le_compat; auto using pos_INR, Rabs_pos. rewrite INR_IZR_INZ, <- (Rabs_pos_eq (IZR _)) by (apply IZR_le; lia). apply IZR_le_bpow; lia.
    + rewrite Rmult_1_r. apply bpow_le. lia.
Qed.

Print Assumptions c108_rounding_in_groups.
Print Assumptions c108_rounding_of_group_means.
Print Assumptions c108_plain_totals_have_this_bound_refuted.
