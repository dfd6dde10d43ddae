(** C110: winsorized covariances of doubles, in any order of the operations. *)
From Coq Require Import ZArith Reals Lra Lia List Bool Permutation.
From Flocq Require Import Core BinarySingleNaN Relative Plus_error.
Require Import Verif.Base Verif.Num Verif.F64 Verif.Table_Model Verif.Table_Props Verif.Trimmed_Model Verif.Trimmed_Spec Verif.Trimmed_Props Verif.Cuped_Props
  Verif.Sums_Model Verif.Sums_Props Verif.Vars_Model Verif.Vars_Props Verif.Covs_Model.
Import ListNotations.
Open Scope R_scope.

(** *** Specification *)
Definition winsorized_pairs (l : list (R * R)) (low high : R * R) (k : nat) : list (R * R) := l ++ repeat low k ++ repeat high k.
Definition products_about (c d : R) (l : list (R * R)) : R := exact_sum (map (fun p => (fst p - c) * (snd p - d)) l).
Definition sizes_about (c d : R) (l : list (R * R)) : R := exact_sum (map (fun p => Rabs (fst p - c) * Rabs (snd p - d)) l).
(** the mean absolute deviations, times the number of values *)
Definition distances (c : R) (l : list R) : R := exact_sum (map (fun x => Rabs (x - c)) l).
Definition real_pair (p : f64 * f64) : R * R := (B2R (fst p), B2R (snd p)).

(** *** Sums *)
Lemma pairs_sum f l low high k : exact_sum (map f (winsorized_pairs l low high k)) = exact_sum (map f l) + INR k * (f low + f high).
Proof. unfold winsorized_pairs. rewrite !map_app, !exact_sum_app, !map_repeat', !exact_sum_repeat. ring. Qed.
Lemma pairs_length l low high k : length (winsorized_pairs l low high k) = (length l + 2 * k)%nat.
Proof. unfold winsorized_pairs. rewrite !app_length, !repeat_length. lia. Qed.
Lemma pairs_fst l low high k : map fst (winsorized_pairs l low high k) = winsorized (map fst l) (fst low) (fst high) k.
Proof. unfold winsorized_pairs, winsorized. now rewrite !map_app, !map_repeat'. Qed.
Lemma pairs_snd l low high k : map snd (winsorized_pairs l low high k) = winsorized (map snd l) (snd low) (snd high) k.
Proof. unfold winsorized_pairs, winsorized. now rewrite !map_app, !map_repeat'. Qed.
Lemma products_app c d a b : products_about c d (a ++ b) = products_about c d a + products_about c d b.
Proof. unfold products_about. now rewrite map_app, exact_sum_app. Qed.
Lemma sizes_app c d a b : sizes_about c d (a ++ b) = sizes_about c d a + sizes_about c d b.
Proof. unfold sizes_about. now rewrite map_app, exact_sum_app. Qed.
Lemma products_shift c d l : l <> [] ->
  products_about c d l = products_about (centre (map fst l)) (centre (map snd l)) l + INR (length l) * ((c - centre (map fst l)) * (d - centre (map snd l))).
Proof.
  intros NE. assert (G : forall m k, products_about c d l =
    products_about m k l + (k - d) * (exact_sum (map fst l) - INR (length l) * m) + (m - c) * (exact_sum (map snd l) - INR (length l) * k) + INR (length l) * ((c - m) * (d - k))).
  { intros m k. unfold products_about, exact_sum. clear NE. induction l as [|x l IH]; [cbn; ring|]. cbn [map fold_right length]. rewrite S_INR, IH. ring. }
  rewrite (G (centre (map fst l)) (centre (map snd l))). assert (N0 : INR (length l) <> 0) by (apply not_0_INR; destruct l; [congruence|discriminate]).
  assert (E1 : INR (length l) * centre (map fst l) = exact_sum (map fst l)) by (unfold centre; rewrite map_length; field; auto).
  assert (E2 : INR (length l) * centre (map snd l) = exact_sum (map snd l)) by (unfold centre; rewrite map_length; field; auto).
  rewrite E1, E2. ring.
Qed.
Lemma sizes_shift c d m k e f l : Rabs (c - m) <= e -> Rabs (d - k) <= f ->
  sizes_about c d l <= sizes_about m k l + f * distances m (map fst l) + e * distances k (map snd l) + INR (length l) * (e * f).
Proof.
  intros HE HF. unfold sizes_about, distances, exact_sum. induction l as [|x l IH]; [cbn; lra|]. cbn [map fold_right length]. rewrite S_INR.
  assert (A : Rabs (fst x - c) <= Rabs (fst x - m) + e).
  { replace (fst x - c) with ((fst x - m) + - (c - m)) by ring. eapply Rle_trans; [apply Rabs_triang|]. rewrite Rabs_Ropp. lra. }
  assert (B : Rabs (snd x - d) <= Rabs (snd x - k) + f).
  { replace (snd x - d) with ((snd x - k) + - (d - k)) by ring. eapply Rle_trans; [apply Rabs_triang|]. rewrite Rabs_Ropp. lra. }
  assert (C : Rabs (fst x - c) * Rabs (snd x - d) <= (Rabs (fst x - m) + e) * (Rabs (snd x - k) + f)) by (apply Rmult_le_compat; auto using Rabs_pos).
  replace ((Rabs (fst x - m) + e) * (Rabs (snd x - k) + f)) with (Rabs (fst x - m) * Rabs (snd x - k) + f * Rabs (fst x - m) + e * Rabs (snd x - k) + e * f) in C by ring. lra.
Qed.

(** *** The computed values *)
Lemma near_product (x y c d : f64) : is_finite (fsub x c) = true -> is_finite (fsub y d) = true ->
  near 2 0 (B2R (fsub x c) * B2R (fsub y d)) ((B2R x - B2R c) * (B2R y - B2R d)) (Rabs (B2R x - B2R c) * Rabs (B2R y - B2R d)).
Proof.
  intros F G. assert (U := unit_error_pos). rewrite (fsub_value _ _ F), (fsub_value _ _ G).
  destruct (rnd_plus (B2R x) (- B2R c) (B2R_format _)) as (e1 & B1 & E1); [apply generic_format_opp, B2R_format|].
  destruct (rnd_plus (B2R y) (- B2R d) (B2R_format _)) as (e2 & B2 & E2); [apply generic_format_opp, B2R_format|].
  replace (B2R x - B2R c) with (B2R x + - B2R c) by ring. replace (B2R y - B2R d) with (B2R y + - B2R d) by ring. rewrite E1, E2.
  set (a := B2R x + - B2R c). set (b := B2R y + - B2R d). split; [rewrite Rabs_mult; lra|]. rewrite Rmult_0_l, Rmult_0_r, Rplus_0_r.
  replace (a * (1 + e1) * (b * (1 + e2)) - a * b) with ((e1 + e2 + e1 * e2) * (a * b)) by ring. rewrite Rabs_mult, (Rabs_mult a b).
  apply Rmult_le_compat_r; [apply Rmult_le_pos; apply Rabs_pos|].
  assert (P : Rabs (e1 * e2) <= unit_error * unit_error) by (rewrite Rabs_mult; apply Rmult_le_compat; auto using Rabs_pos).
  eapply Rle_trans; [apply Rabs_triang|]. assert (T := Rabs_triang e1 e2). cbn [pow]. lra.
Qed.
Lemma product_rounds_pos q : (1 <= product_rounds q)%nat.
Proof. destruct q; cbn; lia. Qed.
Lemma multiplied_near c d q : is_finite (multiplied c d q) = true ->
  near (product_rounds q + 2) (INR (length (factors q))) (B2R (multiplied c d q))
    (products_about (B2R c) (B2R d) (map real_pair (factors q))) (sizes_about (B2R c) (B2R d) (map real_pair (factors q))).
Proof.
  induction q as [x y|q IH x y|l IHl r IHr]; cbn [multiplied product_rounds factors]; intros F.
  - destruct (fmul_finite _ _ F) as [Fs Ft]. rewrite (fmul_value _ _ F). unfold products_about, sizes_about, exact_sum. cbn [map fold_right length real_pair fst snd]. rewrite !Rplus_0_r.
    replace (INR 1) with (0 + 1) by (cbn; ring). apply near_rnd; [now apply near_product|lra].
  - destruct (ffma_finite _ _ _ F) as (Fs & Ft & Fq). rewrite (ffma_value _ _ _ F), map_app, products_app, sizes_app, app_length, plus_INR.
    cbn [length Nat.add]. change (INR 1) with 1. apply near_rnd; [|apply pos_INR].
    assert (ONE : near 2 0 (B2R (fsub x c) * B2R (fsub y d)) (products_about (B2R c) (B2R d) (map real_pair [(x, y)])) (sizes_about (B2R c) (B2R d) (map real_pair [(x, y)]))).
    { unfold products_about, sizes_about, exact_sum. cbn [map fold_right real_pair fst snd]. rewrite !Rplus_0_r. now apply near_product. }
    rewrite (Rplus_comm (B2R (fsub x c) * _)). rewrite <- (Rplus_0_r (INR (length (factors q)))). apply near_sum; [now apply IH|].
    eapply near_more; [exact ONE|lia|lra|lra|apply Rle_refl].
  - destruct (fadd_finite _ _ F) as [Fl Fr]. rewrite (fadd_value _ _ F), map_app, products_app, sizes_app, app_length, plus_INR. cbn [Nat.add].
    assert (P1 := pos_INR (length (factors l))). assert (P2 := pos_INR (length (factors r))).
    apply near_rnd_plus; [|lra]. apply near_sum.
    + eapply near_more; [exact (IHl Fl)|lia|apply Rle_refl|exact P1|apply Rle_refl].
    + eapply near_more; [exact (IHr Fr)|lia|apply Rle_refl|exact P2|apply Rle_refl].
Qed.

Lemma covariance_near q c d low high k n : (0 < n <= 2 ^ 53)%Z -> (Z.of_nat k <= 2 ^ 53)%Z -> is_finite (winsorized_covariance q c d low high k n) = true ->
  let w := winsorized_pairs (map real_pair (factors q)) (real_pair low) (real_pair high) k in
  is_finite c = true /\ is_finite d = true /\
  near (product_rounds q + 6) (INR (length (factors q) + 2 * k + 1) / IZR n + 1) (B2R (winsorized_covariance q c d low high k n))
    (products_about (B2R c) (B2R d) w / IZR n) (sizes_about (B2R c) (B2R d) w / IZR n).
Proof.
  unfold winsorized_covariance. cbv zeta. intros Ln Lk F. assert (F1 := fdiv_finite _ _ F). destruct (fadd_finite _ _ F1) as [Fq Fm].
  destruct (fmul_finite _ _ Fm) as [_ Fs]. destruct (fadd_finite _ _ Fs) as [Fl Fh]. destruct (fmul_finite _ _ Fl) as [Rl Rl2]. destruct (fmul_finite _ _ Fh) as [Rh Rh2].
  split; [apply (fsub_finite _ _ Rl)|]. split; [apply (fsub_finite _ _ Rl2)|].
  replace (product_rounds q + 6)%nat with (S (product_rounds q + 5)) by lia. apply near_div; auto; [|apply pos_INR].
  unfold products_about at 1, sizes_about at 1. rewrite !pairs_sum. fold (products_about (B2R c) (B2R d) (map real_pair (factors q))). fold (sizes_about (B2R c) (B2R d) (map real_pair (factors q))).
  rewrite (fadd_value _ _ F1). replace (product_rounds q + 5)%nat with (S (product_rounds q + 4)) by lia. assert (R1 := product_rounds_pos q).
  assert (P1 := pos_INR (length (factors q))). assert (P2 := pos_INR k). apply near_rnd_plus; [|apply pos_INR].
  replace (INR (length (factors q) + 2 * k + 1)) with (INR (length (factors q)) + (INR k * 2 + 1)) by (rewrite !plus_INR, mult_INR; cbn; ring).
  apply near_sum.
  - eapply near_more; [now apply multiplied_near|lia|apply Rle_refl|exact P1|apply Rle_refl].
  - assert (SQ : forall p : f64 * f64, is_finite (fmul (fsub (fst p) c) (fsub (snd p) d)) = true ->
      near 3 1 (B2R (fmul (fsub (fst p) c) (fsub (snd p) d))) ((fst (real_pair p) - B2R c) * (snd (real_pair p) - B2R d)) (Rabs (fst (real_pair p) - B2R c) * Rabs (snd (real_pair p) - B2R d))).
    { intros p Fy. destruct (fmul_finite _ _ Fy) as [Fr Fr2]. rewrite (fmul_value _ _ Fy). rewrite <- (Rplus_0_l 1) at 1. apply near_rnd; [now apply near_product|lra]. }
    set (lows := fmul (fsub (fst low) c) (fsub (snd low) d)) in *. set (highs := fmul (fsub (fst high) c) (fsub (snd high) d)) in *.
    assert (N := near_sum 3 1 _ _ _ 1 _ _ _ (SQ low Fl) (SQ high Fh)). fold lows highs in N. replace (1 + 1) with 2 in N by ring.
    apply near_rnd_plus in N; [|lra]. rewrite <- (fadd_value _ _ Fs) in N.
    assert (X := near_times 4 2 _ _ _ k N ltac:(lra) Lk Fm). eapply near_more; [exact X|lia|apply Rle_refl|nra|apply Rle_refl].
Qed.

(** *** The model *)
Lemma dot_pairs c d l : ndot (map (fun x => nsub x (Fin c)) (map (fun p : f64 * f64 => Fin (B2R (fst p))) l)) (map (fun x => nsub x (Fin d)) (map (fun p : f64 * f64 => Fin (B2R (snd p))) l)) =
  Fin (products_about c d (map real_pair l)).
Proof.
  unfold ndot. transitivity (nsum (map Fin (map (fun p => (fst p - c) * (snd p - d)) (map real_pair l)))); [|apply nsum_fin].
  f_equal. induction l as [|x l IH]; [reflexivity|]. cbn [map combine fst snd real_pair]. f_equal. exact IH.
Qed.

(** The covariance of two rows [i] and [j]; [pairs] are their kept values. *)
Theorem c110_rounding_of_covariances : forall argsort rows quantile t i j (pairs : list (f64 * f64)) (low high : f64 * f64) o1 o2 q ddof,
  mk_trimmed argsort rows quantile = Ok t ->
  let first := map (fun p : f64 * f64 => Fin (B2R (fst p))) pairs in
  let second := map (fun p : f64 * f64 => Fin (B2R (snd p))) pairs in
  nth_error (values_trimmed argsort t) i = Some first -> nth_error (values_trimmed argsort t) j = Some second ->
  min_value argsort t first = Fin (B2R (fst low)) -> max_value argsort t first = Fin (B2R (fst high)) ->
  min_value argsort t second = Fin (B2R (snd low)) -> max_value argsort t second = Fin (B2R (snd high)) ->
  Permutation (values o1) (map fst pairs) -> Permutation (values o2) (map snd pairs) -> Permutation (factors q) pairs -> (Z.of_nat (t_size t) <= 2 ^ 53)%Z ->
  let n := Z.of_nat (length pairs) in
  let c := winsorized_average o1 (fst low) (fst high) (t_k t) (t_size t) in
  let d := winsorized_average o2 (snd low) (snd high) (t_k t) (t_size t) in
  let computed := winsorized_covariance q c d low high (t_k t) (n - ddof) in
  (0 <= ddof < n)%Z -> is_finite computed = true ->
  let w := winsorized_pairs (map real_pair pairs) (real_pair low) (real_pair high) (t_k t) in
  let mx := centre (map fst w) in let my := centre (map snd w) in
  let ex := mean_error (map fst w) (depth o1 + 4) in let ey := mean_error (map snd w) (depth o2 + 4) in
  let size := sizes_about mx my w + ey * distances mx (map fst w) + ex * distances my (map snd w) + INR (length w) * (ex * ey) in
  let g := (1 + unit_error) ^ (product_rounds q + 6) in
  exists v row, nth_error (t_cov argsort t ddof) i = Some row /\ nth_error row j = Some (Fin v) /\
    Rabs (B2R computed - v) <= (g - 1) * (size / IZR (n - ddof)) + INR (length w) * (ex * ey) / IZR (n - ddof) + g * ((INR (length w + 1) / IZR (n - ddof) + 1) * tiny).
Proof.
  intros argsort rows quantile t i j pairs low high o1 o2 q ddof H first second E1 E2 Hl1 Hh1 Hl2 Hh2 P1 P2 PQ L n c d computed DD F w mx my ex ey size g.
  destruct (trimmed_sizes _ _ _ _ _ _ H E1) as (SZ & TL & _). unfold first in SZ, TL. rewrite map_length in SZ, TL.
  assert (HP : (0 < t_size t)%nat) by (rewrite SZ; unfold n in DD; lia). assert (LK : (Z.of_nat (t_k t) <= 2 ^ 53)%Z) by lia.
  assert (LD : (0 < n - ddof <= 2 ^ 53)%Z) by (unfold n in *; lia).
  assert (LW : length w = t_size t) by (unfold w; rewrite pairs_length, map_length; lia).
  assert (W1 : map fst w = winsorized (map B2R (map fst pairs)) (B2R (fst low)) (B2R (fst high)) (t_k t)) by (unfold w; rewrite pairs_fst; f_equal; now rewrite !map_map).
  assert (W2 : map snd w = winsorized (map B2R (map snd pairs)) (B2R (snd low)) (B2R (snd high)) (t_k t)) by (unfold w; rewrite pairs_snd; f_equal; now rewrite !map_map).
  assert (R1 : first = map (fun x : f64 => Fin (B2R x)) (map fst pairs)) by (unfold first; now rewrite map_map).
  assert (R2 : second = map (fun x : f64 => Fin (B2R x)) (map snd pairs)) by (unfold second; now rewrite map_map).
  assert (S1 : t_size t = (@length f64 (map fst pairs) + 2 * t_k t)%nat) by (rewrite map_length; exact SZ).
  assert (S2 : t_size t = (@length f64 (map snd pairs) + 2 * t_k t)%nat) by (rewrite map_length; exact SZ).
  assert (M1 : wmean_of argsort t first = Fin mx).
  { assert (A := Hl1). assert (B := Hh1). rewrite R1 in A, B. unfold mx. rewrite W1, R1. exact (model_mean argsort t (map fst pairs) (fst low) (fst high) S1 HP A B). }
  assert (M2 : wmean_of argsort t second = Fin my).
  { assert (A := Hl2). assert (B := Hh2). rewrite R2 in A, B. unfold my. rewrite W2, R2. exact (model_mean argsort t (map snd pairs) (snd low) (snd high) S2 HP A B). }
  assert (PD : 0 < IZR (n - ddof)) by (apply IZR_lt; lia). assert (PI := Rinv_0_lt_compat _ PD).
  exists (products_about mx my w / IZR (n - ddof)), (map (cov_of argsort t ddof first) (values_trimmed argsort t)).
  split; [unfold t_cov; exact (map_nth_error _ _ _ E1)|split].
  - rewrite (map_nth_error _ _ _ E2). f_equal. unfold cov_of. cbv zeta. rewrite M1, M2, Hl1, Hh1, Hl2, Hh2, TL. fold n. unfold first, second. rewrite dot_pairs, !nsub_fin. cbn [nadd nmul].
    rewrite ndiv_fin by lra. f_equal. f_equal. unfold products_about at 2, w. rewrite pairs_sum. reflexivity.
  - destruct (covariance_near q c d low high (t_k t) (n - ddof) LD LK F) as (FC & FD & _ & B). fold computed in B.
    rewrite R1 in E1, Hl1, Hh1. rewrite R2 in E2, Hl2, Hh2.
    destruct (c110_rounding_of_winsorized_means argsort rows quantile t i (map fst pairs) (fst low) (fst high) o1 H E1 Hl1 Hh1 P1 L FC) as (m1 & EM1 & B1).
    destruct (c110_rounding_of_winsorized_means argsort rows quantile t j (map snd pairs) (snd low) (snd high) o2 H E2 Hl2 Hh2 P2 L FD) as (m2 & EM2 & B2).
    unfold winsorized_mean in EM1, EM2. rewrite (map_nth_error _ _ _ E1), <- R1, M1 in EM1. rewrite (map_nth_error _ _ _ E2), <- R2, M2 in EM2. injection EM1 as <-. injection EM2 as <-.
    rewrite <- W1 in B1. rewrite <- W2 in B2. fold c ex in B1. fold d ey in B2.
    assert (W : Permutation (winsorized_pairs (map real_pair (factors q)) (real_pair low) (real_pair high) (t_k t)) w).
    { unfold w, winsorized_pairs. apply Permutation_app_tail. now apply Permutation_map. }
    unfold products_about, sizes_about in B. rewrite (exact_sum_perm _ _ (Permutation_map _ W)), (exact_sum_perm _ _ (Permutation_map (fun p => Rabs (fst p - B2R c) * Rabs (snd p - B2R d)) W)) in B.
    fold (products_about (B2R c) (B2R d) w) in B. fold (sizes_about (B2R c) (B2R d) w) in B.
    assert (NE : w <> []) by (intros Z0; rewrite Z0 in LW; cbn in LW; lia).
    rewrite (products_shift (B2R c) (B2R d) w NE) in B. fold mx my in B.
    replace (length (factors q) + 2 * t_k t + 1)%nat with (length w + 1)%nat in B by (rewrite LW, SZ, (Permutation_length PQ); lia).
    assert (SS := sizes_shift (B2R c) (B2R d) mx my ex ey w B1 B2). fold size in SS.
    assert (G := growth (product_rounds q + 6)). fold g in G, B.
    set (e := INR (length w) * ((B2R c - mx) * (B2R d - my)) / IZR (n - ddof)).
    assert (BE : Rabs e <= INR (length w) * (ex * ey) / IZR (n - ddof)).
    { unfold e, Rdiv. rewrite !Rabs_mult, (Rabs_pos_eq (INR _)) by apply pos_INR. rewrite (Rabs_pos_eq (/ _)) by lra. apply Rmult_le_compat_r; [lra|].
      apply Rmult_le_compat_l; [apply pos_INR|]. apply Rmult_le_compat; auto using Rabs_pos. }
    set (v := products_about mx my w / IZR (n - ddof)) in *.
    replace ((products_about mx my w + INR (length w) * ((B2R c - mx) * (B2R d - my))) / IZR (n - ddof)) with (v + e) in B by (unfold v, e, Rdiv; ring).
    assert (X : (g - 1) * (sizes_about (B2R c) (B2R d) w / IZR (n - ddof)) <= (g - 1) * (size / IZR (n - ddof))).
    { apply Rmult_le_compat_l; [lra|]. apply Rmult_le_compat_r; lra. }
    replace (B2R computed - v) with ((B2R computed - (v + e)) + e) by ring. eapply Rle_trans; [apply Rabs_triang|]. lra.
Qed.

(** *** Example *)
(** two rows of four values, of which one is trimmed on each side; the winsorized pairs are (2, 1), (2, 1), (4, 2), (4, 2) *)
Definition other_values : list f64 := [of_Z 5; of_Z 1; of_Z 2; of_Z 0].
Definition kept_pairs : list (f64 * f64) := [(of_Z 2, of_Z 1); (of_Z 4, of_Z 2)].
Definition kept_other : order := Plus (Value (of_Z 2)) (Value (of_Z 1)).
Definition products_of_two : products := FusedProduct (Product (of_Z 4) (of_Z 2)) (of_Z 2) (of_Z 1).
Example c110_covariances_example :
  exists t v row, mk_trimmed in_order [map (fun x => Fin (B2R x)) four_values; map (fun x => Fin (B2R x)) other_values] (flit 1 4) = Ok t /\
    let c := winsorized_average kept_two (of_Z 2) (of_Z 4) 1 4 in
    let d := winsorized_average kept_other (of_Z 1) (of_Z 2) 1 4 in
    let computed := winsorized_covariance products_of_two c d (of_Z 2, of_Z 1) (of_Z 4, of_Z 2) 1 1 in
    is_finite computed = true /\ computed = of_Z 2 /\ nth_error (t_cov in_order t 1) 0 = Some row /\ nth_error row 1 = Some (Fin v) /\
    let w := winsorized_pairs (map real_pair kept_pairs) (real_pair (of_Z 2, of_Z 1)) (real_pair (of_Z 4, of_Z 2)) 1 in
    let mx := centre (map fst w) in let my := centre (map snd w) in
    let ex := mean_error (map fst w) 5 in let ey := mean_error (map snd w) 5 in
    let size := sizes_about mx my w + ey * distances mx (map fst w) + ex * distances my (map snd w) + INR 4 * (ex * ey) in
    let g := (1 + unit_error) ^ 8 in
    Rabs (B2R computed - v) <= (g - 1) * (size / 1) + INR 4 * (ex * ey) / 1 + g * ((INR 5 / 1 + 1) * tiny).
Proof.
  set (rs := [map (fun x => Fin (B2R x)) four_values; map (fun x => Fin (B2R x)) other_values]).
  assert (H : exists t, mk_trimmed in_order rs (flit 1 4) = Ok t /\ t_rows t = rs /\ t_k t = 1%nat).
  { unfold mk_trimmed. replace (fltb (flit 1 4) f0 || fgeb (flit 1 4) fhalf)%bool with false by (vm_compute; reflexivity). cbn [raise_if bind].
    change (sample_size rs) with 4%nat. replace (floor_mul (flit 1 4) (Z.of_nat 4)) with (Ok 1%Z : result Z) by (vm_compute; reflexivity). cbn [bind]. unfold rs at 1.
    match goal with |- context [raise_if ?b _] => change b with false end. cbn [raise_if bind]. unfold any_array_is_constant.
    match goal with |- context [raise_if ?b (IndexError _)] => change b with false end. cbn [raise_if bind].
    match goal with |- context [if ?b then Ok (mkT _ _ (Some WConstant)) else _] => destruct b end; [eexists; repeat split|].
    eexists; repeat split. }
  destruct H as (t & H & TR & TK).
  assert (VT : values_trimmed in_order t = [map (fun p : f64 * f64 => Fin (B2R (fst p))) kept_pairs; map (fun p : f64 * f64 => Fin (B2R (snd p))) kept_pairs])
    by (unfold values_trimmed; rewrite TR, TK; reflexivity).
  assert (V2 := proj2 (of_Z_correct 2 ltac:(lia))). assert (V4 := proj2 (of_Z_correct 4 ltac:(lia))).
  assert (SZ : t_size t = 4%nat) by (unfold t_size; rewrite TR; reflexivity).
  assert (MIN : forall r, min_value in_order t r = nth 0 r NaN).
  { intros r. unfold min_value. rewrite VT. cbn [hd map kept_pairs fst argmin arg_best nis_nan orb nltb]. rewrite V2, V4, Rlt_bool_false by lra. reflexivity. }
  assert (MAX : forall r, max_value in_order t r = nth 1 r NaN).
  { intros r. unfold max_value. rewrite VT. cbn [hd map kept_pairs fst argmax arg_best nis_nan orb nltb]. rewrite V2, V4, Rlt_bool_true by lra. reflexivity. }
  destruct (c110_rounding_of_covariances in_order _ _ t 0 1 kept_pairs (of_Z 2, of_Z 1) (of_Z 4, of_Z 2) kept_two kept_other products_of_two 1 H) as (v & row & EV & ER & B).
  - now rewrite VT.
  - now rewrite VT.
  - now rewrite MIN.
  - now rewrite MAX.
  - now rewrite MIN.
  - now rewrite MAX.
  - apply Permutation_refl.
  - apply perm_swap.
  - apply perm_swap.
  - rewrite SZ. lia.
  - cbn; lia.
  - rewrite SZ, TK. vm_compute. reflexivity.
  - rewrite SZ, TK in B. exists t, v, row. split; [exact H|]. split; [vm_compute; reflexivity|]. split; [apply B2SF_inj; vm_compute; reflexivity|]. split; [exact EV|split; [exact ER|exact B]].
Qed.

Print Assumptions c110_rounding_of_covariances.
