(** C108: totals and averages of doubles, in any order of the additions. *)
From Coq Require Import ZArith Reals Lra Lia List Bool Permutation.
From Flocq Require Import Core BinarySingleNaN Relative Plus_error.
Require Import Verif.Base Verif.Num Verif.F64 Verif.Table_Model Verif.Table_Props Verif.Trimmed_Model Verif.Trimmed_Props Verif.Cuped_Props Verif.Sums_Model.
Import ListNotations.
Open Scope R_scope.

(** *** Specification *)
Definition exact_sum (l : list R) : R := fold_right Rplus 0 l.
Definition integer_sum (l : list Z) : Z := fold_right Z.add 0%Z l.
(** doubles holding the integers [zs], such as counts of clicks or conversions *)
Definition whole_numbers (l : list f64) (zs : list Z) : Prop :=
  Forall2 (fun x z => is_finite x = true /\ B2R x = IZR z) l zs.
Definition magnitude (zs : list Z) : Z := integer_sum (map Z.abs zs).
(** half the distance from 1 to the next double *)
Definition unit_error : R := bpow radix2 (-53).

(** *** Sums *)
Lemma exact_sum_app a b : exact_sum (a ++ b) = exact_sum a + exact_sum b.
Proof. unfold exact_sum. induction a; simpl; [ring|]. rewrite IHa. ring. Qed.
Lemma integer_sum_app a b : integer_sum (a ++ b) = (integer_sum a + integer_sum b)%Z.
Proof. unfold integer_sum. induction a; simpl; [reflexivity|]. rewrite IHa. ring. Qed.
Lemma magnitude_app a b : magnitude (a ++ b) = (magnitude a + magnitude b)%Z.
Proof. unfold magnitude. now rewrite map_app, integer_sum_app. Qed.
Lemma magnitude_bounds a : (Z.abs (integer_sum a) <= magnitude a)%Z.
Proof. unfold magnitude, integer_sum. induction a; simpl; lia. Qed.
Lemma magnitude_pos a : (0 <= magnitude a)%Z.
Proof. assert (X := magnitude_bounds a). lia. Qed.
Lemma exact_sum_IZR l zs : whole_numbers l zs -> exact_sum (map B2R l) = IZR (integer_sum zs).
Proof.
  induction 1 as [|x z l zs [_ V] _ IH]; simpl; [reflexivity|]. unfold exact_sum, integer_sum in *. rewrite IH, V, plus_IZR. reflexivity.
Qed.

Lemma whole_numbers_length l zs : whole_numbers l zs -> length l = length zs.
Proof. induction 1; simpl; auto. Qed.

(** *** Integers *)
Lemma fadd_integer x y a b : is_finite x = true -> is_finite y = true -> B2R x = IZR a -> B2R y = IZR b -> (Z.abs (a + b) <= 2 ^ 53)%Z ->
  is_finite (fadd x y) = true /\ B2R (fadd x y) = IZR (a + b).
Proof.
  intros Fx Fy Vx Vy L. destruct (fadd_cases x y Fx Fy) as [(_ & F & V)|(NF & _)]; rewrite Vx, Vy, <- plus_IZR in *.
  - rewrite rnd_IZR in V by auto. auto.
  - exfalso. apply NF, fits_small. apply Rle_trans with (bpow radix2 53); [apply IZR_le_bpow; lia|apply bpow_le; lia].
Qed.
Lemma fsub_integer x y a b : is_finite x = true -> is_finite y = true -> B2R x = IZR a -> B2R y = IZR b -> (Z.abs (a - b) <= 2 ^ 53)%Z ->
  is_finite (fsub x y) = true /\ B2R (fsub x y) = IZR (a - b).
Proof.
  intros Fx Fy Vx Vy L. unfold fsub. generalize (Bminus_correct 53 1024 prec_gt_0_53 prec_lt_1024 mode_NE x y Fx Fy).
  rewrite Vx, Vy, <- minus_IZR. change (round_mode mode_NE) with ZnearestE. rewrite fexp_eq. fold (rnd (IZR (a - b))).
  rewrite Rlt_bool_true.
  - intros (V & F & _). rewrite rnd_IZR in V by auto. auto.
  - apply rnd_abs_lt. apply Rle_trans with (bpow radix2 53); [apply IZR_le_bpow; lia|apply bpow_le; lia].
Qed.

Theorem c108_whole_numbers_are_added_exactly : forall o zs,
  whole_numbers (values o) zs -> (magnitude zs <= 2 ^ 53)%Z ->
  is_finite (added o) = true /\ B2R (added o) = IZR (integer_sum zs).
Proof.
  induction o as [x|l IHl r IHr]; intros zs W M.
  - inversion W as [|? z ? zs' [F V] W']; subst. inversion W'; subst. simpl. rewrite V. unfold integer_sum; simpl. now rewrite Z.add_0_r.
  - simpl in W. apply Forall2_app_inv_l in W as (z1 & z2 & W1 & W2 & ->). rewrite magnitude_app in M.
    assert (P1 := magnitude_pos z1). assert (P2 := magnitude_pos z2). assert (B1 := magnitude_bounds z1). assert (B2 := magnitude_bounds z2).
    destruct (IHl z1 W1) as [F1 V1]; [lia|]. destruct (IHr z2 W2) as [F2 V2]; [lia|].
    rewrite integer_sum_app. simpl. apply fadd_integer; auto. lia.
Qed.

(** two orders of the same values give the same total *)
Lemma integer_sum_perm a b : Permutation a b -> integer_sum a = integer_sum b.
Proof. unfold integer_sum. induction 1; simpl; lia. Qed.
Lemma magnitude_perm a b : Permutation a b -> magnitude a = magnitude b.
Proof. intros P. apply integer_sum_perm. now apply Permutation_map. Qed.
Lemma whole_numbers_perm l l' : Permutation l l' -> forall zs, whole_numbers l zs -> exists zs', whole_numbers l' zs' /\ Permutation zs zs'.
Proof.
  unfold whole_numbers. induction 1; intros zs W.
  - inversion W; subst. exists []. auto.
  - inversion W as [|? z ? zs1 H1 W1]; subst. destruct (IHPermutation zs1 W1) as (zs' & W' & P). exists (z :: zs'). split; [now constructor|now constructor].
  - inversion W as [|? z ? zs1 H1 W1]; subst. inversion W1 as [|? z' ? zs2 H2 W2]; subst. exists (z' :: z :: zs2). split; [now repeat constructor|apply perm_swap].
  - destruct (IHPermutation1 zs W) as (z1 & W1 & P1). destruct (IHPermutation2 z1 W1) as (z2 & W2 & P2). exists z2. split; [auto|now transitivity z1].
Qed.
Theorem c108_order_of_whole_numbers_is_irrelevant : forall o o' zs,
  Permutation (values o) (values o') -> whole_numbers (values o) zs -> (magnitude zs <= 2 ^ 53)%Z ->
  B2R (added o) = B2R (added o') /\ B2R (averaged o) = B2R (averaged o').
Proof.
  intros o o' zs P W M. destruct (whole_numbers_perm _ _ P zs W) as (zs' & W' & PZ).
  destruct (c108_whole_numbers_are_added_exactly o zs W M) as [F V].
  destruct (c108_whole_numbers_are_added_exactly o' zs' W') as [F' V']; [now rewrite <- (magnitude_perm _ _ PZ)|].
  assert (E : B2R (added o) = B2R (added o')) by (rewrite V, V'; f_equal; now apply integer_sum_perm). split; [exact E|].
  unfold averaged. rewrite (Permutation_length P). set (n := of_Z _). unfold fdiv.
  destruct (Req_dec (B2R n) 0) as [Z0|NZ].
  - assert (X : forall x, is_finite x = true -> B2R (Bdiv mode_NE x n) = 0).
    { intros x Fx. destruct n as [s|s| |s m e H], x as [s'|s'| |s' m' e' H']; try reflexivity; try discriminate.
      all: exfalso; simpl in Z0; apply (F2R_neq_0 radix2 (Float radix2 (cond_Zopp s (Zpos m)) e)); [destruct s; discriminate|exact Z0]. }
    now rewrite !X.
  - assert (X := Bdiv_correct 53 1024 prec_gt_0_53 prec_lt_1024 mode_NE (added o) n NZ). assert (X' := Bdiv_correct 53 1024 prec_gt_0_53 prec_lt_1024 mode_NE (added o') n NZ).
    rewrite <- E in X'. destruct (Rlt_bool _ _) in X, X'.
    + destruct X as [-> _]. now destruct X' as [-> _].
    + assert (Y : forall x : f64, (exists s, B2SF x = binary_overflow 53 1024 mode_NE s) -> B2R x = 0).
      { intros x [s B]. unfold binary_overflow in B. simpl in B. now destruct x. }
      rewrite !Y; eauto.
Qed.

(** *** Averages of integers *)
Lemma fdiv_integers x z n : is_finite x = true -> B2R x = IZR z -> (Z.abs z <= 2 ^ 53)%Z -> (0 < n <= 2 ^ 53)%Z ->
  is_finite (fdiv x (of_Z n)) = true /\ B2R (fdiv x (of_Z n)) = rnd (IZR z / IZR n).
Proof.
  intros Fx Vx Lz Ln. destruct (of_Z_correct n) as [Fn Vn]; [lia|].
  assert (PN : 1 <= IZR n) by (apply IZR_le; lia).
  assert (D0 : B2R (of_Z n) <> 0) by (rewrite Vn; lra).
  assert (X := Bdiv_correct 53 1024 prec_gt_0_53 prec_lt_1024 mode_NE x (of_Z n) D0). rewrite Vx, Vn in X.
  change (round_mode mode_NE) with ZnearestE in X. rewrite fexp_eq in X. fold (rnd (IZR z / IZR n)) in X. rewrite Rlt_bool_true in X.
  - destruct X as (V & F & _). unfold fdiv. rewrite V, F. auto.
  - apply rnd_abs_lt. apply Rle_trans with (bpow radix2 53); [|apply bpow_le; lia].
    apply Rle_trans with (Rabs (IZR z)); [|apply IZR_le_bpow; lia].
    unfold Rdiv. rewrite Rabs_mult, Rabs_inv, (Rabs_pos_eq (IZR n)) by lra.
    rewrite <- (Rmult_1_r (Rabs (IZR z))) at 2. apply Rmult_le_compat_l; [apply Rabs_pos|]. rewrite <- Rinv_1. apply Rinv_le; lra.
Qed.
(** the average of integers is the double closest to the true average *)
Theorem c108_averages_of_whole_numbers : forall o zs,
  whole_numbers (values o) zs -> (magnitude zs <= 2 ^ 53)%Z -> (Z.of_nat (length zs) <= 2 ^ 53)%Z ->
  let truth := IZR (integer_sum zs) / INR (length zs) in
  is_finite (averaged o) = true /\ B2R (averaged o) = rnd truth /\ Rabs (B2R (averaged o) - truth) <= unit_error * Rabs truth.
Proof.
  intros o zs W M L truth. destruct (c108_whole_numbers_are_added_exactly o zs W M) as [F V].
  assert (LE : length (values o) = length zs) by (now apply whole_numbers_length).
  assert (N1 : (0 < length zs)%nat). { rewrite <- LE. clear. induction o; simpl; [lia|]. rewrite app_length. lia. }
  assert (B := magnitude_bounds zs).
  destruct (fdiv_integers (added o) (integer_sum zs) (Z.of_nat (length zs)) F V) as [FD VD]; [lia|lia|].
  unfold averaged. rewrite LE. rewrite <- INR_IZR_INZ in VD. fold truth in VD. split; [exact FD|split; [exact VD|]]. rewrite VD.
  destruct (Z.eq_dec (integer_sum zs) 0) as [Z0|NZ].
  - assert (T0 : truth = 0) by (unfold truth; rewrite Z0; unfold Rdiv; ring). rewrite T0, rnd_0, Rminus_0_r, Rabs_R0, Rmult_0_r. apply Rle_refl.
  - assert (Q : Rabs (rnd truth - truth) <= / 2 * bpow radix2 (- 53 + 1) * Rabs truth).
    { apply (relative_error_N_FLT radix2 (-1074) 53); [reflexivity|]. apply Rle_trans with (bpow radix2 (-53)); [apply bpow_le; lia|].
      unfold truth, Rdiv. assert (PN : 0 < INR (length zs)) by (apply lt_0_INR; lia).
      rewrite Rabs_mult, Rabs_inv, (Rabs_pos_eq (INR _)) by lra.
      apply (Rmult_le_reg_r (INR (length zs))); [exact PN|]. rewrite Rmult_assoc, Rinv_l, Rmult_1_r by lra.
      apply Rle_trans with (bpow radix2 (-53) * bpow radix2 53).
      - apply Rmult_le_compat_l; [apply bpow_ge_0|]. rewrite INR_IZR_INZ. rewrite <- (Rabs_pos_eq (IZR _)) by (apply IZR_le; lia). apply IZR_le_bpow; lia.
      - rewrite <- bpow_plus. change (bpow radix2 (-53 + 53)) with 1. rewrite <- abs_IZR. apply IZR_le. lia. }
    replace (/ 2 * bpow radix2 (- 53 + 1)) with unit_error in Q by (unfold unit_error; rewrite (bpow_plus radix2 (-53) 1); change (bpow radix2 1) with 2; field).
    exact Q.
Qed.

(** *** Integers in the groups of pandas *)
Lemma grouped_exact l : forall zs s c z, whole_numbers l zs -> (Z.abs z + magnitude zs <= 2 ^ 53)%Z ->
  is_finite s = true -> B2R s = IZR z -> is_finite c = true -> B2R c = 0 ->
  let (s', c') := fold_left compensated_step l (s, c) in
  is_finite s' = true /\ B2R s' = IZR (z + integer_sum zs) /\ is_finite c' = true /\ B2R c' = 0.
Proof.
  induction l as [|x l IH]; intros zs s c z W M Fs Vs Fc Vc; inversion W as [|? a ? zs' [Fx Vx] W']; subst.
  - simpl. unfold integer_sum; simpl. rewrite Z.add_0_r. auto.
  - change (magnitude (a :: zs')) with (Z.abs a + magnitude zs')%Z in M. assert (P := magnitude_pos zs').
    cbn [fold_left]. unfold compensated_step at 2.
    destruct (fsub_integer x c a 0 Fx Fc Vx Vc) as [Fy Vy]; [lia|]. rewrite Z.sub_0_r in Vy.
    destruct (fadd_integer s (fsub x c) z a Fs Fy Vs Vy) as [Ft Vt]; [lia|].
    destruct (fsub_integer _ s (z + a) z Ft Fs Vt Vs) as [Fd Vd]; [lia|].
    destruct (fsub_integer _ (fsub x c) (z + a - z) a Fd Fy Vd Vy) as [Fe Ve]; [lia|].
    replace (z + a - z - a)%Z with 0%Z in Ve by lia.
    assert (G := IH zs' _ _ (z + a)%Z W' ltac:(lia) Ft Vt Fe Ve).
    destruct (fold_left _ _ _). change (integer_sum (a :: zs')) with (a + integer_sum zs')%Z. rewrite Z.add_assoc. exact G.
Qed.
Theorem c108_whole_numbers_in_groups : forall l zs,
  whole_numbers l zs -> (magnitude zs <= 2 ^ 53)%Z ->
  is_finite (grouped l) = true /\ B2R (grouped l) = IZR (integer_sum zs) /\
  (forall n, n = length l -> (0 < n)%nat -> (Z.of_nat n <= 2 ^ 53)%Z -> B2R (grouped_mean l) = rnd (IZR (integer_sum zs) / INR n)).
Proof.
  intros l zs W M. assert (G := grouped_exact l zs f0 f0 0 W ltac:(simpl; lia) eq_refl eq_refl eq_refl eq_refl).
  unfold grouped_mean, grouped, grouped_state. destruct (fold_left _ _ _) as [s c]. destruct G as (F & V & _). cbn [fst].
  split; [exact F|split; [exact V|]]. intros n -> P L. assert (B := magnitude_bounds zs).
  destruct (fdiv_integers s _ (Z.of_nat (length l)) F V) as [_ VD]; [simpl; lia|lia|]. now rewrite <- INR_IZR_INZ in VD.
Qed.

(** *** Any doubles *)
Lemma unit_error_u_ro : u_ro radix2 53 = unit_error.
Proof. unfold u_ro, unit_error. change (bpow radix2 (- (53) + 1)) with (bpow radix2 (-53 + 1)). rewrite (bpow_plus radix2 (-53) 1). change (bpow radix2 1) with 2. field. Qed.
Lemma unit_error_pos : 0 < unit_error.
Proof. apply bpow_gt_0. Qed.
Lemma rnd_plus x y : generic_format radix2 (FLT_exp (-1074) 53) x -> generic_format radix2 (FLT_exp (-1074) 53) y ->
  exists eps, Rabs eps <= unit_error /\ rnd (x + y) = (x + y) * (1 + eps).
Proof.
  intros Fx Fy. destruct (FLT_plus_error_N_ex radix2 (-1074) 53 (fun z => negb (Z.even z)) x y Fx Fy) as (eps & B & E).
  exists eps. split; [|exact E]. eapply Rle_trans; [exact B|]. rewrite <- unit_error_u_ro. apply u_rod1pu_ro_le_u_ro.
Qed.

Definition sum_abs (l : list f64) : R := exact_sum (map (fun x => Rabs (B2R x)) l).
Lemma sum_abs_app a b : sum_abs (a ++ b) = sum_abs a + sum_abs b.
Proof. unfold sum_abs. now rewrite map_app, exact_sum_app. Qed.
Lemma sum_abs_pos l : 0 <= sum_abs l.
Proof. unfold sum_abs, exact_sum. induction l; simpl; [lra|]. assert (X := Rabs_pos (B2R a)). lra. Qed.
Lemma exact_sum_abs l : Rabs (exact_sum (map B2R l)) <= sum_abs l.
Proof. unfold sum_abs, exact_sum. induction l; simpl; [rewrite Rabs_R0; lra|]. eapply Rle_trans; [apply Rabs_triang|]. lra. Qed.
Lemma growth_le m n : (m <= n)%nat -> 1 <= (1 + unit_error) ^ m <= (1 + unit_error) ^ n.
Proof.
  assert (U := unit_error_pos). intros L. split; [apply pow_R1_Rle; lra|apply Rle_pow; [lra|exact L]].
Qed.

(** Every value is rounded at most [depth] times. *)
Theorem c108_rounding_of_totals : forall o,
  Forall (fun x => is_finite x = true) (values o) ->
  (1 + unit_error) ^ depth o * sum_abs (values o) < bpow radix2 1024 ->
  is_finite (added o) = true /\
  Rabs (B2R (added o) - exact_sum (map B2R (values o))) <= ((1 + unit_error) ^ depth o - 1) * sum_abs (values o).
Proof.
  assert (U := unit_error_pos). induction o as [x|l IHl r IHr]; intros F L.
  - inversion F; subst. split; auto. simpl. unfold exact_sum, sum_abs; simpl. rewrite Rplus_0_r, Rminus_diag_eq, Rabs_R0; [lra|reflexivity].
  - cbn [values depth added] in *. apply Forall_app in F as [Fl Fr]. rewrite map_app, exact_sum_app, sum_abs_app in *.
    set (d := Nat.max (depth l) (depth r)) in *. cbn [pow] in *.
    assert (Pl := sum_abs_pos (values l)). assert (Pr := sum_abs_pos (values r)).
    destruct (growth_le (depth l) d) as [G1 G2]; [lia|]. destruct (growth_le (depth r) d) as [G3 G4]; [lia|].
    set (g := (1 + unit_error) ^ d) in *. set (gl := (1 + unit_error) ^ depth l) in *. set (gr := (1 + unit_error) ^ depth r) in *.
    set (sl := sum_abs (values l)) in *. set (sr := sum_abs (values r)) in *.
    assert (Ml : gl * sl <= g * sl) by (apply Rmult_le_compat_r; auto). assert (Mr : gr * sr <= g * sr) by (apply Rmult_le_compat_r; auto).
    assert (Nl : 0 <= g * sl) by (apply Rmult_le_pos; lra). assert (Nr : 0 <= g * sr) by (apply Rmult_le_pos; lra).
    assert (Nu : 0 <= unit_error * (g * sl + g * sr)) by (apply Rmult_le_pos; lra).
    assert (L' : g * sl + g * sr + unit_error * (g * sl + g * sr) < bpow radix2 1024) by (eapply Rle_lt_trans; [right|exact L]; ring).
    destruct (IHl Fl) as [FL EL]; [lra|]. destruct (IHr Fr) as [FR ER]; [lra|].
    assert (XL := exact_sum_abs (values l)). assert (XR := exact_sum_abs (values r)). fold sl in XL. fold sr in XR.
    set (tl := exact_sum (map B2R (values l))) in *. set (tr := exact_sum (map B2R (values r))) in *.
    destruct (rnd_plus (B2R (added l)) (B2R (added r)) (B2R_format _) (B2R_format _)) as (eps & BE & E).
    set (a := B2R (added l)) in *. set (b := B2R (added r)) in *.
    assert (D : Rabs ((a - tl) + (b - tr)) <= (g * sl + g * sr) - (sl + sr)).
    { eapply Rle_trans; [apply Rabs_triang|]. lra. }
    assert (AB : Rabs (a + b) <= g * sl + g * sr).
    { replace (a + b) with (((a - tl) + (b - tr)) + (tl + tr)) by ring. eapply Rle_trans; [apply Rabs_triang|].
      assert (Y : Rabs (tl + tr) <= sl + sr) by (eapply Rle_trans; [apply Rabs_triang|]; lra). lra. }
    assert (RE : Rabs ((a + b) * eps) <= unit_error * (g * sl + g * sr)).
    { rewrite Rabs_mult, Rmult_comm. apply Rmult_le_compat; auto using Rabs_pos. }
    assert (FIT : fits (rnd (a + b))).
    { unfold fits. rewrite E. replace ((a + b) * (1 + eps)) with ((a + b) + (a + b) * eps) by ring. eapply Rle_lt_trans; [apply Rabs_triang|]. lra. }
    destruct (fadd_cases (added l) (added r) FL FR) as [(_ & FF & V)|(NF & _)]; [|contradiction].
    split; [exact FF|]. rewrite V. fold a b. rewrite E.
    change (Rabs ((a + b) * (1 + eps) - (tl + tr)) <= ((1 + unit_error) * g - 1) * (sl + sr)).
    replace ((a + b) * (1 + eps) - (tl + tr)) with (((a - tl) + (b - tr)) + (a + b) * eps) by ring.
    eapply Rle_trans; [apply Rabs_triang|].
    apply Rle_trans with ((g * sl + g * sr) - (sl + sr) + unit_error * (g * sl + g * sr)); [now apply Rplus_le_compat|right; ring].
Qed.

Lemma growth_linear d : INR d * unit_error <= / 2 -> (1 + unit_error) ^ d - 1 <= 2 * INR d * unit_error.
Proof.
  assert (U := unit_error_pos). induction d as [|d IH]; intros H; [simpl; lra|]. rewrite S_INR in *. cbn [pow].
  assert (P := pos_INR d). assert (H' : INR d * unit_error <= / 2) by lra. assert (Q := IH H').
  assert (M : unit_error * (1 + unit_error) ^ d <= unit_error * 2) by (apply Rmult_le_compat_l; lra). lra.
Qed.
(** at most 2^52 additions in a row: at most twice the unit error for each of them *)
Theorem c108_rounding_grows_slowly : forall o,
  Forall (fun x => is_finite x = true) (values o) -> (Z.of_nat (depth o) <= 2 ^ 52)%Z -> sum_abs (values o) < bpow radix2 1023 ->
  is_finite (added o) = true /\
  Rabs (B2R (added o) - exact_sum (map B2R (values o))) <= 2 * INR (depth o) * unit_error * sum_abs (values o).
Proof.
  intros o F D S. assert (U := unit_error_pos). assert (P := sum_abs_pos (values o)).
  assert (H : INR (depth o) * unit_error <= / 2).
  { apply Rle_trans with (bpow radix2 52 * unit_error).
    - apply Rmult_le_compat_r; [lra|]. rewrite INR_IZR_INZ, <- (Rabs_pos_eq (IZR _)) by (apply IZR_le; lia). apply IZR_le_bpow; lia.
    - unfold unit_error. rewrite <- bpow_plus. change (bpow radix2 (52 + -53)) with (/ 2). apply Rle_refl. }
  assert (G := growth_linear _ H).
  destruct (c108_rounding_of_totals o F) as [FF E].
  - apply Rle_lt_trans with (2 * sum_abs (values o)).
    + apply Rmult_le_compat_r; [exact P|]. lra.
    + replace (bpow radix2 1024) with (2 * bpow radix2 1023) by (rewrite (bpow_plus radix2 1 1023 : bpow radix2 1024 = _); reflexivity). lra.
  - split; [exact FF|]. eapply Rle_trans; [exact E|]. apply Rmult_le_compat_r; [exact P|exact G].
Qed.

(** *** Trimmed means *)
Lemma values_nonempty o : (0 < length (values o))%nat.
Proof. induction o; simpl; [lia|]. rewrite app_length. lia. Qed.
Lemma rounding_of_averages o :
  Forall (fun x => is_finite x = true) (values o) -> (Z.of_nat (length (values o)) <= 2 ^ 53)%Z ->
  (1 + unit_error) ^ depth o * sum_abs (values o) <= bpow radix2 1023 ->
  is_finite (averaged o) = true /\
  Rabs (B2R (averaged o) - exact_sum (map B2R (values o)) / INR (length (values o))) <=
    ((1 + unit_error) ^ S (depth o) - 1) * (sum_abs (values o) / INR (length (values o))) + bpow radix2 (-1075).
Proof.
  intros F LN L. assert (U := unit_error_pos). assert (P := sum_abs_pos (values o)). assert (NE := values_nonempty o).
  destruct (c108_rounding_of_totals o F) as [FF E]; [eapply Rle_lt_trans; [exact L|]; apply bpow_lt; lia|].
  unfold averaged. set (n := length (values o)) in *. destruct (of_Z_correct (Z.of_nat n)) as [Fn Vn]; [lia|]. rewrite <- INR_IZR_INZ in Vn.
  assert (PN : 1 <= INR n) by (apply (le_INR 1); lia).
  set (t := exact_sum (map B2R (values o))) in *. assert (XT := exact_sum_abs (values o)). fold t in XT.
  set (s := sum_abs (values o)) in *. set (g := (1 + unit_error) ^ depth o) in *. set (a := B2R (added o)) in *.
  assert (A : Rabs a <= g * s).
  { replace a with ((a - t) + t) by ring. eapply Rle_trans; [apply Rabs_triang|]. lra. }
  assert (IN : 0 < / INR n <= 1).
  { split; [apply Rinv_0_lt_compat; lra|]. rewrite <- Rinv_1. apply Rinv_le; lra. }
  assert (AN : Rabs (a / INR n) <= g * s * / INR n).
  { unfold Rdiv. rewrite Rabs_mult, (Rabs_pos_eq (/ _)) by lra. apply Rmult_le_compat_r; lra. }
  assert (D0 : B2R (of_Z (Z.of_nat n)) <> 0) by (rewrite Vn; lra).
  assert (X := Bdiv_correct 53 1024 prec_gt_0_53 prec_lt_1024 mode_NE (added o) (of_Z (Z.of_nat n)) D0). rewrite Vn in X. fold a in X.
  change (round_mode mode_NE) with ZnearestE in X. rewrite fexp_eq in X. fold (rnd (a / INR n)) in X. rewrite Rlt_bool_true in X.
  - destruct X as (V & FD & _). unfold fdiv. rewrite V, FD. split; [exact FF|].
    assert (RE := rnd_error (a / INR n)). fold unit_error in RE.
    replace (rnd (a / INR n) - t / INR n) with ((rnd (a / INR n) - a / INR n) + (a - t) * / INR n) by (field; lra).
    eapply Rle_trans; [apply Rabs_triang|].
    assert (M1 : Rabs ((a - t) * / INR n) <= (g - 1) * s * / INR n) by (rewrite Rabs_mult, (Rabs_pos_eq (/ _)) by lra; apply Rmult_le_compat_r; lra).
    assert (M2 : unit_error * Rabs (a / INR n) <= unit_error * (g * s * / INR n)) by (apply Rmult_le_compat_l; lra).
    cbn [pow]. fold g.
    replace (((1 + unit_error) * g - 1) * (s / INR n)) with (unit_error * (g * s * / INR n) + (g - 1) * s * / INR n) by (field; lra). lra.
  - apply rnd_abs_lt. eapply Rle_trans; [exact AN|]. eapply Rle_trans; [|exact L].
    rewrite <- (Rmult_1_r (g * s)) at 2. apply Rmult_le_compat_l; [|lra]. assert (Y := Rabs_pos a). lra.
Qed.

(** The trimmed mean of the model (C42) is the one that the code computes up to a relative error. *)
Theorem c108_rounding_of_trimmed_means : forall argsort t i o,
  nth_error (values_trimmed argsort t) i = Some (map (fun x => Fin (B2R x)) (values o)) ->
  Forall (fun x => is_finite x = true) (values o) -> (Z.of_nat (length (values o)) <= 2 ^ 53)%Z ->
  (1 + unit_error) ^ depth o * sum_abs (values o) <= bpow radix2 1023 ->
  exists m, nth_error (t_mean argsort t) i = Some (Fin m) /\ is_finite (averaged o) = true /\
    Rabs (B2R (averaged o) - m) <=
      ((1 + unit_error) ^ S (depth o) - 1) * (sum_abs (values o) / INR (length (values o))) + bpow radix2 (-1075).
Proof.
  intros argsort t i o H F LN L. exists (exact_sum (map B2R (values o)) / INR (length (values o))). split.
  - unfold t_mean. rewrite (map_nth_error _ _ _ H). f_equal. rewrite <- (map_map B2R Fin), nsum_fin, !map_length. fold (exact_sum (map B2R (values o))).
    apply ndiv_fin. apply not_0_INR. assert (X := values_nonempty o). lia.
  - now apply rounding_of_averages.
Qed.

(** *** The order matters for other doubles *)
Definition big : f64 := of_Z (2 ^ 53).
Definition one_after_another : order := in_sequence big [of_Z 1; of_Z 1].
Definition small_ones_first : order := Plus (Value big) (Plus (Value (of_Z 1)) (Value (of_Z 1))).
Theorem c108_order_is_irrelevant_refuted :
  ~ (forall o o', Permutation (values o) (values o') -> Forall (fun x => is_finite x = true) (values o) -> B2R (added o) = B2R (added o')).
Proof.
  intros H. assert (E := H one_after_another small_ones_first (Permutation_refl _) ltac:(repeat constructor)).
  assert (A : added one_after_another = of_Z (2 ^ 53)) by (apply B2SF_inj; vm_compute; reflexivity).
  assert (B : added small_ones_first = of_Z (2 ^ 53 + 2)) by (apply B2SF_inj; vm_compute; reflexivity).
  rewrite A, B in E.
  assert (L : Bcompare (of_Z (2 ^ 53)) (of_Z (2 ^ 53 + 2)) = Some Lt) by (vm_compute; reflexivity).
  rewrite Bcompare_correct in L by reflexivity. rewrite E, Rcompare_Eq in L by reflexivity. discriminate.
Qed.

(** *** Examples *)
Definition clicks : order := Plus (Plus (Value (of_Z 12)) (Value (of_Z 0))) (Plus (Value (of_Z 7)) (Value (of_Z 1))).
Lemma clicks_whole : whole_numbers (values clicks) [12; 0; 7; 1]%Z.
Proof. repeat constructor; apply of_Z_correct; simpl; lia. Qed.
Example c108_clicks_example : B2R (added clicks) = 20 /\ B2R (averaged clicks) = 5 /\ B2R (grouped (values clicks)) = 20.
Proof.
  destruct (c108_whole_numbers_are_added_exactly clicks _ clicks_whole) as [_ V]; [vm_compute; discriminate|].
  destruct (c108_averages_of_whole_numbers clicks _ clicks_whole) as (_ & M & _); [vm_compute; discriminate|vm_compute; discriminate|].
  destruct (c108_whole_numbers_in_groups _ _ clicks_whole) as (_ & G & _); [vm_compute; discriminate|].
  split; [exact V|split; [|exact G]]. rewrite M. change (integer_sum [12; 0; 7; 1]%Z) with 20%Z.
  replace (20 / INR (length [12; 0; 7; 1]%Z)) with (IZR 5) by (simpl; field). apply rnd_IZR. lia.
Qed.
(** revenues of 0.1: the conditions of the bounds hold *)
Definition revenues : order := in_sequence (flit 1 10) [flit 1 10; flit 1 10].
Lemma tenth : is_finite (flit 1 10) = true /\ Rabs (B2R (flit 1 10)) <= 1.
Proof.
  split; [vm_compute; reflexivity|]. assert (C : Bcompare (Babs (flit 1 10)) (of_Z 1) = Some Lt) by (vm_compute; reflexivity).
  rewrite Bcompare_correct, B2R_Babs in C by (vm_compute; reflexivity).
  assert (C' : Rcompare (Rabs (B2R (flit 1 10))) (B2R (of_Z 1)) = Lt) by congruence. clear C. apply Rcompare_Lt_inv in C'.
  destruct (of_Z_correct 1) as [_ V]; [lia|]. rewrite V in C'. lra.
Qed.
Example c108_revenues_example :
  is_finite (added revenues) = true /\ Rabs (B2R (added revenues) - 3 * B2R (flit 1 10)) <= 4 * unit_error * (3 * Rabs (B2R (flit 1 10))) /\
  added revenues <> flit 3 10.
Proof.
  destruct tenth as [F B]. destruct (c108_rounding_grows_slowly revenues) as [FF E].
  - repeat constructor; exact F.
  - vm_compute. discriminate.
  - unfold sum_abs, exact_sum. cbn [values revenues in_sequence fold_left app map fold_right].
    apply Rlt_le_trans with (bpow radix2 2); [change (bpow radix2 2) with 4; lra|apply bpow_le; lia].
  - split; [exact FF|split].
    + unfold sum_abs, exact_sum in E. cbn [values revenues in_sequence fold_left app map fold_right depth Nat.max] in E. change (INR 2) with 2 in E.
      replace (3 * B2R (flit 1 10)) with (B2R (flit 1 10) + (B2R (flit 1 10) + (B2R (flit 1 10) + 0))) by ring. eapply Rle_trans; [exact E|right; ring].
    + intros C. apply (f_equal B2SF) in C. vm_compute in C. discriminate.
Qed.
Definition row_of (o : order) : list num := map (fun x => Fin (B2R x)) (values o).
Example c108_trimmed_means_example : forall argsort,
  exists m, t_mean argsort (mkT [row_of revenues] 0 None) = [Fin m] /\ is_finite (averaged revenues) = true /\
    Rabs (B2R (averaged revenues) - m) <= ((1 + unit_error) ^ 3 - 1) * (sum_abs (values revenues) / INR 3) + bpow radix2 (-1075).
Proof.
  intros argsort. destruct tenth as [F B].
  destruct (c108_rounding_of_trimmed_means argsort (mkT [row_of revenues] 0 None) 0 revenues) as (m & E & FF & L).
  - reflexivity.
  - repeat constructor; exact F.
  - vm_compute. discriminate.
  - unfold sum_abs, exact_sum. cbn [values revenues in_sequence fold_left app map fold_right depth Nat.max pow].
    assert (U : 0 < unit_error <= 1) by (split; [apply unit_error_pos|apply (bpow_le radix2 (-53) 0); lia]).
    apply Rle_trans with (bpow radix2 4); [|apply bpow_le; lia]. change (bpow radix2 4) with 16.
    assert (P := Rabs_pos (B2R (flit 1 10))). set (x := Rabs (B2R (flit 1 10))) in *. clearbody x.
    replace 16 with (4 * 4) by ring. apply Rmult_le_compat; try lra.
    + rewrite Rmult_1_r. apply Rmult_le_pos; lra.
    + rewrite Rmult_1_r. replace 4 with (2 * 2) by ring. apply Rmult_le_compat; lra.
  - exists m. split; [|split; [exact FF|exact L]]. unfold t_mean in *. simpl in E. simpl. now injection E as <-.
Qed.
(** the compensation of pandas gets the total right that plain additions miss *)
Example c108_groups_example : grouped [big; of_Z 1; of_Z 1] = of_Z (2 ^ 53 + 2) /\ added one_after_another = big.
Proof. split; apply B2SF_inj; vm_compute; reflexivity. Qed.

Print Assumptions c108_whole_numbers_are_added_exactly.
Print Assumptions c108_order_of_whole_numbers_is_irrelevant.
Print Assumptions c108_averages_of_whole_numbers.
Print Assumptions c108_whole_numbers_in_groups.
Print Assumptions c108_rounding_of_totals.
Print Assumptions c108_rounding_grows_slowly.
Print Assumptions c108_rounding_of_trimmed_means.
Print Assumptions c108_order_is_irrelevant_refuted.
