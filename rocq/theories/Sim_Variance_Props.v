(** C79: the variance that the minimum detectable effect of a crossover design is based on, against the variance the analysis reports
    when the items are assigned to the arms by coin flips. *)
From Coq Require Import ZArith Reals Lra Lia List String Bool Permutation Sorting.Sorted.
From Flocq Require Import Core BinarySingleNaN.
Require Import Verif.Base Verif.Num Verif.NumOrd Verif.F64 Verif.Frame Verif.ListLib Verif.Design_Model Verif.Design_Spec Verif.Design_Proofs Verif.Design_Yaml_Proofs Verif.Design_Props
  Verif.Trimmed_Model Verif.Trimmed_Spec Verif.Moments Verif.Trimmed_Proofs Verif.Trimmed_Real Verif.Trimmed_Props
  Verif.Cuped_Model Verif.Cuped_Props Verif.Stats_Model Verif.Stats_Num Verif.Stats_Props Verif.Tests_Proofs
  Verif.Tests_Props Verif.Pivot_Model Verif.Analysis_Spec Verif.Analysis_Model Verif.Analysis_Props Verif.Effect_Props
  Verif.Simulation_Model Verif.Sim_Stats_Props.
Import ListNotations.
Open Scope string_scope.
Open Scope list_scope.
Open Scope R_scope.

(** *** Specification *)
(** the outcomes of [n] coin flips *)
Fixpoint coin_flips (n : nat) : list (list (option Z)) :=
  match n with
  | O => [[]]
  | S k => map (cons (Some 1%Z)) (coin_flips k) ++ map (cons (Some 0%Z)) (coin_flips k)
  end.
(** the mean over all of them, each equally likely *)
Definition expected (n : nat) (F : list (option Z) -> R) : R := avg (map F (coin_flips n)).

Lemma coin_flips_spec n a : In a (coin_flips n) <-> List.length a = n /\ forall x, In x a -> x = Some 0%Z \/ x = Some 1%Z.
Proof.
  revert a. induction n as [|n IH]; intros a; cbn [coin_flips].
  - split; [intros [<-|[]]; split; [reflexivity|intros x []]|]. intros [L _]. destruct a; [now left|discriminate].
  - rewrite in_app_iff, !in_map_iff. split.
    + intros [(b & <- & Hb)|(b & <- & Hb)]; apply IH in Hb as [L H]; (split; [simpl; congruence|]); intros x [<-|Hx]; auto.
    + intros [L H]. destruct a as [|x a]; [discriminate|]. assert (I : In a (coin_flips n)) by (apply IH; split; [simpl in L; congruence|intros; apply H; now right]).
      destruct (H x (or_introl eq_refl)) as [-> | ->]; [right|left]; now exists a.
Qed.
Lemma coin_flips_nodup n : NoDup (coin_flips n).
Proof.
  induction n as [|n IH]; cbn [coin_flips]; [repeat constructor; auto|].
  apply NoDup_app'.
  - now apply FinFun.Injective_map_NoDup; [intros x y [=]|].
  - now apply FinFun.Injective_map_NoDup; [intros x y [=]|].
  - intros x H1 H2. apply in_map_iff in H1 as (u & <- & _). apply in_map_iff in H2 as (v & E & _). discriminate.
Qed.
Lemma coin_flips_length n : INR (List.length (coin_flips n)) = 2 ^ n.
Proof. induction n as [|n IH]; cbn [coin_flips]; [reflexivity|]. rewrite app_length, !map_length, plus_INR, IH. simpl. ring. Qed.

(** *** The values under one assignment *)
Definition sgn (a : option Z) : R := if in_treatment_arm a then 1 else -1.
Definition flip (a : list (option Z)) (z : list R) : list R := map (fun p => sgn (fst p) * snd p) (combine a z).
Definition squares (z : list R) : R := total (map (fun x => x ^ 2) z).

Lemma flip_length a z : List.length a = List.length z -> List.length (flip a z) = List.length z.
Proof. intros H. unfold flip. rewrite map_length, combine_length. lia. Qed.
Lemma flip_squares a z : List.length a = List.length z -> squares (flip a z) = squares z.
Proof.
  unfold flip, squares. revert a. induction z as [|x z IH]; intros [|b a] L; try discriminate; auto. cbn [combine map total fold_right fst snd].
  fold (total (map (fun x => x ^ 2) (map (fun p => sgn (fst p) * snd p) (combine a z)))). fold (total (map (fun x => x ^ 2) z)).
  rewrite IH by (simpl in L; lia). assert (S2 : sgn b ^ 2 = 1) by (unfold sgn; destruct (in_treatment_arm b); ring).
  replace ((sgn b * x) ^ 2) with (sgn b ^ 2 * x ^ 2) by ring. rewrite S2. ring.
Qed.
Lemma squares_sqdev z : z <> [] -> sqdev z = squares z - INR (List.length z) * avg z ^ 2.
Proof.
  intros N. assert (P : INR (List.length z) <> 0) by (apply not_0_INR; destruct z; [congruence|simpl; lia]).
  rewrite <- (map_id z) at 1. rewrite <- Cv_sqdev, Cv_S.
  assert (E : Sm z (fun x => (x - Av z (fun x => x)) * (x - Av z (fun x => x))) =
              Sm z (fun x => x ^ 2 - (2 * Av z (fun x => x)) * x + Av z (fun x => x) ^ 2)) by (apply Sm_ext; intros; ring).
  rewrite E, Sm_plus, Sm_minus, Sm_scale, Sm_const.
  assert (A : Av z (fun x => x) = avg z) by (unfold Av; now rewrite map_id).
  assert (T : Sm z (fun x => x) = INR (List.length z) * avg z) by (unfold Sm; rewrite map_id; unfold avg; field; auto).
  rewrite A, T. unfold Sm at 1. fold (squares z). ring.
Qed.

(** the squared sum of the values with random signs *)
Lemma flips_total z c : total (map (fun a => (c + total (flip a z)) ^ 2) (coin_flips (List.length z))) = 2 ^ List.length z * (c ^ 2 + squares z).
Proof.
  revert c. induction z as [|x z IH]; intros c; cbn [List.length coin_flips].
  - unfold flip, squares. simpl. ring.
  - rewrite map_app, total_app, !map_map.
    assert (G : forall b, total (map (fun a => (c + total (flip (b :: a) (x :: z))) ^ 2) (coin_flips (List.length z))) =
                2 ^ List.length z * ((c + sgn b * x) ^ 2 + squares z)).
    { intros b. rewrite <- IH. f_equal. apply map_ext. intros a. unfold flip. cbn [combine map total fold_right fst snd]. fold (total (map (fun p => sgn (fst p) * snd p) (combine a z))). ring. }
    rewrite !G. unfold sgn. cbn [in_treatment_arm]. unfold squares. cbn [map total fold_right]. fold (total (map (fun x => x ^ 2) z)). simpl. ring.
Qed.

Lemma expected_sqdev z : z <> [] -> expected (List.length z) (fun a => sqdev (flip a z)) = (INR (List.length z) - 1) / INR (List.length z) * squares z.
Proof.
  intros N. assert (P : INR (List.length z) <> 0) by (apply not_0_INR; destruct z; [congruence|simpl; lia]).
  assert (Q : 2 ^ List.length z <> 0) by (apply pow_nonzero; lra).
  unfold expected, avg. rewrite map_length, coin_flips_length.
  assert (E : map (fun a => sqdev (flip a z)) (coin_flips (List.length z)) =
              map (fun a => squares z - / INR (List.length z) * (0 + total (flip a z)) ^ 2) (coin_flips (List.length z))).
  { apply map_ext_in. intros a Ha. apply coin_flips_spec in Ha as [L _].
    rewrite squares_sqdev; [|intros E0; apply N; apply length_zero_iff_nil; rewrite <- (flip_length a z L), E0; reflexivity].
    rewrite (flip_squares a z L), (flip_length a z L). unfold avg. rewrite (flip_length a z L). field. auto. }
  rewrite E. fold (Sm (coin_flips (List.length z)) (fun a => squares z - / INR (List.length z) * (0 + total (flip a z)) ^ 2)).
  rewrite Sm_minus, Sm_const, Sm_scale. unfold Sm. rewrite flips_total, coin_flips_length. field. auto.
Qed.

(** *** The analysis under one assignment *)
Definition cross_of (a : list (option Z)) (xs ys : list R) : list (cross R) := map (fun q => mkX (fst q) (fst (snd q)) (snd (snd q))) (combine a (combine xs ys)).
Lemma cross_of_columns a xs ys : List.length a = List.length xs -> List.length xs = List.length ys ->
  map x_arm (cross_of a xs ys) = a /\ ones (cross_of a xs ys) = xs /\ twos (cross_of a xs ys) = ys.
Proof.
  unfold cross_of, ones, twos. revert xs ys. induction a as [|b a IH]; intros [|x xs] [|y ys] L1 L2; try discriminate; auto.
  destruct (IH xs ys) as (E1 & E2 & E3); [simpl in *; lia|simpl in *; lia|]. cbn [combine map fst snd x_arm x_one x_two]. rewrite E1, E2, E3. auto.
Qed.
Lemma cross_of_flip a xs ys c e : map (fun q => signed q ((x_one q - c) - (x_two q - e))) (cross_of a xs ys) = flip a (map (fun x => x - (c - e)) (minus xs ys)).
Proof.
  unfold cross_of, minus, flip. revert xs ys. induction a as [|b a IH]; intros [|x xs] [|y ys]; auto.
  cbn [combine map fst snd x_one x_two]. rewrite <- IH. f_equal. unfold signed, sgn. cbn [x_arm]. destruct (in_treatment_arm b); ring.
Qed.

(** the values whose signs are flipped: the differences, after removing the period means when nothing is trimmed *)
Definition base_values (p : params) (xs ys : list R) : list R :=
  if is_zero (post p) then map (fun x => x - avg (minus xs ys)) (minus xs ys) else minus xs ys.

Lemma avg_minus xs ys : List.length xs = List.length ys -> xs <> [] -> avg xs - avg ys = avg (minus xs ys).
Proof.
  intros L N. unfold avg. rewrite (minus_length xs ys L), <- L. assert (P : INR (List.length xs) <> 0) by (apply not_0_INR; destruct xs; [congruence|simpl; lia]).
  assert (T : total (minus xs ys) = total xs - total ys).
  { clear N P. unfold minus. revert ys L. induction xs as [|x xs IH]; intros [|y ys] L; try discriminate; [simpl; ring|].
    cbn [combine map total fold_right fst snd]. unfold total in IH. rewrite IH by (simpl in L; lia). ring. }
  rewrite T. field. auto.
Qed.
Lemma base_length p xs ys : List.length xs = List.length ys -> List.length (base_values p xs ys) = List.length xs.
Proof. intros L. unfold base_values. destruct (is_zero _); rewrite ?map_length; now apply minus_length. Qed.

Section Analysis.
Context {K : Type} (T : tdist) (argsort : list num -> list nat) (HS : sorts argsort).
Context (p : params) (d : design) (HD : mk_design p = Ok d) (CR : crossover p = true).
Context (t : table K) (xs ys : list R) (ND : NoDup (t_cols t)).
Context (H1 : holds t (metric p, "test_1") (data xs)) (H2 : holds t (metric p, "test_2") (data ys)).
Context (NE : xs <> []) (LB : (Z.of_nat (List.length xs) <= 2 ^ 53)%Z).

Lemma same_lengths : List.length xs = List.length ys.
Proof. exact (holds_data _ _ _ _ _ H1 H2). Qed.

Lemma analysis_of_flips arm a : in_arms arm t a ->
  exists r tr co, analyze_single_metric T argsort arm t true p (metric p) None None = Ok r /\
    yuens_t_test_paired T argsort (data tr) (data co) (post p) None None "two-sided" default_alpha = Ok r /\
    List.length tr = List.length xs /\ minus tr co = flip a (base_values p xs ys).
Proof.
  intros HA. assert (L := same_lengths).
  assert (LA : List.length a = List.length xs).
  { unfold in_arms in HA. rewrite <- HA, map_length. apply holds_length in H1. unfold data in H1. rewrite map_length in H1. congruence. }
  destruct (cross_of_columns a xs ys LA L) as (E1 & E2 & E3).
  set (l := cross_of a xs ys) in *. assert (LL : List.length l = List.length xs) by (rewrite <- E2; unfold ones; now rewrite map_length).
  assert (NL : l <> []) by (intros E; apply NE; apply length_zero_iff_nil; rewrite <- LL, E; reflexivity).
  assert (CI : crossover_items arm t (metric p) (map finite l)).
  { assert (F1 : map x_arm (map finite l) = map x_arm l) by (rewrite map_map; reflexivity).
    assert (F2 : map x_one (map finite l) = data (ones l)) by (unfold data, ones; rewrite !map_map; reflexivity).
    assert (F3 : map x_two (map finite l) = data (twos l)) by (unfold data, twos; rewrite !map_map; reflexivity).
    unfold crossover_items. rewrite F1, F2, F3, E1, E2, E3. auto. }
  assert (U : usable (List.length xs) (post p)) by (apply (usable_design_post p d); auto; destruct xs; [congruence|simpl; lia]).
  assert (G : exists tr co, prepare_crossover (map x_one (map finite l)) (map x_two (map finite l)) (map x_arm (map finite l)) (is_zero (post p)) = (data tr, data co) /\
    List.length tr = List.length l /\ List.length co = List.length l /\ minus tr co = flip a (base_values p xs ys)).
  { unfold base_values. destruct (is_zero (post p)).
    - destruct (c62_demeaned l NL) as (tr & co & E & La & Lb & _ & M). exists tr, co. repeat (split; auto). rewrite M, E2, E3.
      unfold l. rewrite cross_of_flip. now rewrite (avg_minus xs ys L NE).
    - exists (map while_treated l), (map while_control l). rewrite c62_pairs_raw_values, !map_length, !map_map. split; [|split; [|split]]; auto.
      + f_equal; unfold data; rewrite map_map; apply map_ext; intros c; unfold while_treated, while_control; cbn [finite x_arm x_one x_two]; now destruct (in_treatment_arm (x_arm c)).
      + rewrite minus_map. transitivity (flip a (map (fun x => x - (0 - 0)) (minus xs ys))).
        * rewrite <- cross_of_flip. apply map_ext. intros c. unfold while_treated, while_control, signed. destruct (in_treatment_arm (x_arm c)); ring.
        * f_equal. rewrite <- (map_id (minus xs ys)) at 2. apply map_ext. intros. ring. }
  destruct G as (tr & co & E & La & Lb & M).
  destruct (paired_runs T argsort tr co (post p) "two-sided" default_alpha HS) as (r & Hr); [congruence|congruence|now left|].
  exists r, tr, co. split; [|split; [auto|split; [congruence|auto]]].
  rewrite (analysis_crossover arm T argsort t p (metric p) (map finite l) None ND CR CI). cbv zeta. unfold chosen. rewrite E. exact Hr.
Qed.

(** the standard error when no item is trimmed *)
Definition flip_error (a : list (option Z)) : R :=
  sqrt (sqdev (flip a (base_values p xs ys)) / (INR (List.length xs) - 1) / INR (List.length xs)).

Lemma sqdev_pos l : 0 <= sqdev l.
Proof. rewrite <- (map_id l), <- Cv_sqdev. apply Cv_nonneg. Qed.

Context (L2 : (2 <= List.length xs)%nat) (TE : trim_each (List.length xs) (post p) = 0%Z).
Let n := INR (List.length xs).
Lemma n_gt : 1 < n.
Proof. apply (lt_INR 1). lia. Qed.

Lemma flip_error_square a : flip_error a ^ 2 = sqdev (flip a (base_values p xs ys)) / (n - 1) / n.
Proof.
  unfold flip_error. fold n. rewrite pow2_sqrt; auto. assert (G := n_gt). assert (S0 := sqdev_pos (flip a (base_values p xs ys))).
  apply Rmult_le_pos; [apply Rmult_le_pos; auto|]; apply Rlt_le, Rinv_0_lt_compat; lra.
Qed.

Lemma flip_error_is_reported arm a : in_arms arm t a ->
  exists r, analyze_single_metric T argsort arm t true p (metric p) None None = Ok r /\ r_standard_error r = Fin (flip_error a).
Proof.
  intros HA. destruct (analysis_of_flips arm a HA) as (r & tr & co & HR & HY & LT & M). exists r. split; auto.
  destruct (sorted_exists (minus tr co)) as (s & SS).
  assert (SA : sample tr) by (split; [intros E; apply NE; apply length_zero_iff_nil; rewrite <- LT, E; reflexivity|now rewrite LT]).
  destruct (c52_what_the_test_computes T argsort tr co (post p) _ _ r s HS SA SS HY) as (_ & k & EK & R). cbv zeta in R.
  rewrite LT in *. rewrite TE in EK. assert (k = 0%nat) by lia. subst k. rewrite Nat.mul_0_r, Nat.sub_0_r in R. destruct R as (_ & _ & _ & _ & R).
  destruct (R L2) as (e & RE & E0 & E2 & _). rewrite RE. f_equal. rewrite (tdev_0 _ s SS), M in E2. fold n in E2.
  rewrite <- flip_error_square in E2. assert (F0 : 0 <= flip_error a) by apply sqrt_pos.
  apply (Rsqr_inj e (flip_error a)); auto. unfold Rsqr. simpl in E2. lra.
Qed.

Lemma expected_error : expected (List.length xs) (fun a => flip_error a ^ 2) = squares (base_values p xs ys) / n / n.
Proof.
  assert (LBV := base_length p xs ys same_lengths). assert (G := n_gt).
  assert (NB : base_values p xs ys <> []) by (intros E; rewrite E in LBV; simpl in LBV; lia).
  assert (X := expected_sqdev _ NB). rewrite LBV in X. fold n in X.
  unfold expected in *. assert (E : map (fun a => flip_error a ^ 2) (coin_flips (List.length xs)) =
    map (fun a => / ((n - 1) * n) * sqdev (flip a (base_values p xs ys))) (coin_flips (List.length xs))).
  { apply map_ext. intros a. rewrite flip_error_square. field. split; lra. }
  rewrite E. fold (Av (coin_flips (List.length xs)) (fun a => / ((n - 1) * n) * sqdev (flip a (base_values p xs ys)))).
  rewrite Av_S, Sm_scale. unfold Rdiv at 1. rewrite Rmult_assoc.
  fold (Sm (coin_flips (List.length xs)) (fun a => sqdev (flip a (base_values p xs ys))) / INR (List.length (coin_flips (List.length xs)))).
  rewrite <- Av_S. unfold Av. rewrite X. field. split; lra.
Qed.
End Analysis.

(** the reported standard errors of all possible assignments of the items to the arms *)
Definition reports {K} T argsort (p : params) (t : table K) (se : list (option Z) -> R) : Prop :=
  forall (arm : K -> option Z) a, in_arms arm t a ->
    exists r, analyze_single_metric T argsort arm t true p (metric p) None None = Ok r /\ r_standard_error r = Fin (se a).

Theorem c79_estimate_without_trimming_covers_the_analysis :
  forall T argsort p d (t : table ikey) xs ys,
    sorts argsort -> mk_design p = Ok d -> crossover p = true -> NoDup (t_cols t) ->
    holds t (metric p, "test_1") (data xs) -> holds t (metric p, "test_2") (data ys) ->
    Z.of_nat (List.length xs) = n_pre d -> (n_pre d <= 2 ^ 53)%Z -> xs <> [] -> B2R (post p) = 0 ->
    let n := INR (List.length xs) in
    exists se average v, reports T argsort p t se /\
      primary_metric_stats argsort d t = Ok (Fin average, Fin v, List.length xs) /\
      expected (List.length xs) (fun a => se a ^ 2) = v / n * ((n - 1) / n) /\
      expected (List.length xs) (fun a => se a ^ 2) <= v / n.
Proof.
  intros T argsort p d t xs ys HS HD CR ND H1 H2 EN LB NE PZ n.
  assert (PD := post_items p d HD).
  assert (TE : trim_each (List.length xs) (post p) = 0%Z) by (unfold trim_each; rewrite PZ, Rmult_0_l, rnd_0; apply (Zfloor_IZR 0)).
  destruct (sorted_exists (minus xs ys)) as (s & SS).
  destruct (c73_crossover_statistics argsort HS p d HD t xs ys s CR ND H1 H2 EN LB NE SS) as (k & kept & R). cbv zeta in R.
  destruct R as (EK & EH & _ & _ & _ & _ & R). rewrite TE in EK. assert (k = 0%nat) by lia. subst k. rewrite Nat.mul_0_r, Nat.sub_0_r in *.
  assert (L2 : (2 <= List.length xs)%nat) by lia. assert (LX : (Z.of_nat (List.length xs) <= 2 ^ 53)%Z) by lia.
  exists (flip_error p xs ys). eexists. eexists. split; [|split; [exact R|]].
  { intros arm a HA. eapply flip_error_is_reported; eauto. }
  rewrite (expected_error p t xs ys H1 H2 L2). fold n.
  assert (G : 1 < n) by (apply (lt_INR 1); lia).
  assert (IZ : is_zero (post p) = true).
  { apply is_zero_iff; auto. destruct (proj1 (mk_design_iff p d) HD) as [D _]. now destruct (ok_finite _ D) as (_ & _ & F). }
  assert (SQ : squares (base_values p xs ys) = sqdev (minus xs ys)) by (unfold base_values, squares, sqdev; rewrite IZ, map_map; reflexivity).
  unfold mean_gap_term. destruct (Rlt_dec 0 (B2R (post p))) as [W|_]; [lra|]. rewrite SQ, (tdev_0 _ s SS), Rplus_0_r. split.
  - field. split; lra.
  - assert (S0 := sqdev_pos (minus xs ys)). apply Rmult_le_compat_r; [apply Rlt_le, Rinv_0_lt_compat; lra|].
    apply Rmult_le_compat_l; auto. apply Rinv_le_contravar; lra.
Qed.

(** with trimming the periods are not de-meaned; the exact error when the quantile is too small to trim an item *)
Theorem c79_gap_of_the_estimate_with_trimming :
  forall T argsort p d (t : table ikey) xs ys,
    sorts argsort -> mk_design p = Ok d -> crossover p = true -> NoDup (t_cols t) ->
    holds t (metric p, "test_1") (data xs) -> holds t (metric p, "test_2") (data ys) ->
    Z.of_nat (List.length xs) = n_pre d -> (n_pre d <= 2 ^ 53)%Z -> xs <> [] ->
    0 < B2R (post p) -> trim_each (List.length xs) (post p) = 0%Z ->
    let n := INR (List.length xs) in let mu := avg (minus xs ys) in let sigma2 := sqdev (minus xs ys) / (n - 1) in
    exists se average v, reports T argsort p t se /\
      primary_metric_stats argsort d t = Ok (Fin average, Fin v, List.length xs) /\
      v = sigma2 + mu ^ 2 / 4 /\
      expected (List.length xs) (fun a => se a ^ 2) = ((n - 1) / n * sigma2 + mu ^ 2) / n /\
      v / n - expected (List.length xs) (fun a => se a ^ 2) = (sigma2 / n - 3 / 4 * mu ^ 2) / n.
Proof.
  intros T argsort p d t xs ys HS HD CR ND H1 H2 EN LB NE PP TE n mu sigma2.
  assert (PD := post_items p d HD).
  destruct (sorted_exists (minus xs ys)) as (s & SS).
  destruct (c73_crossover_statistics argsort HS p d HD t xs ys s CR ND H1 H2 EN LB NE SS) as (k & kept & R). cbv zeta in R.
  destruct R as (EK & EH & _ & _ & _ & _ & R). rewrite TE in EK. assert (k = 0%nat) by lia. subst k. rewrite Nat.mul_0_r, Nat.sub_0_r in *.
  assert (L2 : (2 <= List.length xs)%nat) by lia. assert (LX : (Z.of_nat (List.length xs) <= 2 ^ 53)%Z) by lia.
  exists (flip_error p xs ys). eexists. eexists. split; [|split; [exact R|]].
  { intros arm a HA. eapply flip_error_is_reported; eauto. }
  rewrite (expected_error p t xs ys H1 H2 L2). fold n.
  assert (G : 1 < n) by (apply (lt_INR 1); lia).
  assert (IZ : is_zero (post p) = false).
  { destruct (is_zero (post p)) eqn:E; auto. apply is_zero_iff in E; [lra|]. destruct (proj1 (mk_design_iff p d) HD) as [D _]. now destruct (ok_finite _ D) as (_ & _ & F). }
  unfold base_values. rewrite IZ.
  assert (LM := minus_length xs ys (holds_data _ _ _ _ _ H1 H2)).
  assert (NM : minus xs ys <> []) by (intros E; rewrite E in LM; simpl in LM; lia).
  assert (SQ := squares_sqdev _ NM). rewrite LM in SQ. fold n mu in SQ.
  assert (SQ' : squares (minus xs ys) = sigma2 * (n - 1) + n * mu ^ 2) by (unfold sigma2; rewrite <- (Rplus_0_r (squares _)); field_simplify; [lra|lra]).
  unfold mean_gap_term. destruct (Rlt_dec 0 (B2R (post p))) as [_|W]; [|lra]. rewrite (tdev_0 _ s SS), (tmean_0 _ s SS). fold mu. fold sigma2.
  rewrite SQ'. split; [reflexivity|]. split; field; lra.
Qed.

(** *** Cases *)
Example c79_example_without_trimming :
  exists se average v, reports cauchy argsort_ref (panel_params true) (two_columns "test_1" "test_2" INR (fun _ => 1)) se /\
    primary_metric_stats argsort_ref (panel_design true) (two_columns "test_1" "test_2" INR (fun _ => 1)) = Ok (Fin average, Fin v, 60%nat) /\
    expected 60 (fun a => se a ^ 2) <= v / INR 60.
Proof.
  destruct (two_columns_hold "test_1" "test_2" INR (fun _ => 1)) as [H1 H2].
  destruct (c79_estimate_without_trimming_covers_the_analysis cauchy argsort_ref _ _ (two_columns "test_1" "test_2" INR (fun _ => 1)) _ _
    argsort_ref_sorts (panel_design_ok true) eq_refl (two_columns_nodup "test_1" "test_2" INR (fun _ => 1) ltac:(discriminate)) H1 H2)
    as (se & average & v & A & B & _ & D).
  - reflexivity.
  - cbn. lia.
  - discriminate.
  - exact (proj2 f0_val).
  - exists se, average, v. auto.
Qed.

(** a quantile of 1 % of 60 items trims no item *)
Definition tiny_params : params :=
  mkParams 60 2 "clicks" 1 true f0 f0 (flit 1 100) (Some 0%Z) (flit 5 100) (flit 8 10) None.
Definition tiny_design : design := mkDesignRec tiny_params 60 60.
Lemma tiny_design_ok : mk_design tiny_params = Ok tiny_design.
Proof. apply mk_design_check; vm_compute; reflexivity. Qed.
Lemma tiny_trims_none : trim_each 60 (post tiny_params) = 0%Z.
Proof.
  destruct (design_array argsort_ref argsort_ref_sorts tiny_params tiny_design tiny_design_ok 60 [repeat NaN 60]) as (t & _ & _ & EK & _ & _ & EP);
    try discriminate; auto; [intros r [<-|[]]; apply repeat_length|lia|].
  rewrite <- EK. cbn [n_post tiny_design] in EP. lia.
Qed.

(** the metric drops from 3 to 1 for every item: the estimated variance is a quarter of what the analysis finds on average *)
Theorem c79_estimate_with_trimming_covers_the_analysis_refuted :
  exists T argsort p d (t : table ikey) se average v n,
    sorts argsort /\ mk_design p = Ok d /\ crossover p = true /\ reports T argsort p t se /\
    primary_metric_stats argsort d t = Ok (Fin average, Fin v, n) /\
    v / INR n < expected n (fun a => se a ^ 2) /\ expected n (fun a => se a ^ 2) = 4 * (v / INR n).
Proof.
  exists cauchy, argsort_ref, tiny_params, tiny_design, (two_columns "test_1" "test_2" (fun _ => 3) (fun _ => 1)).
  destruct (two_columns_hold "test_1" "test_2" (fun _ => 3) (fun _ => 1)) as [H1 H2]. rewrite !const_repeat in H1, H2.
  destruct (c79_gap_of_the_estimate_with_trimming cauchy argsort_ref _ _ (two_columns "test_1" "test_2" (fun _ => 3) (fun _ => 1)) _ _
    argsort_ref_sorts tiny_design_ok eq_refl (two_columns_nodup "test_1" "test_2" (fun _ => 3) (fun _ => 1) ltac:(discriminate)) H1 H2)
    as (se & average & v & A & B & D & F & _).
  - reflexivity.
  - cbn. lia.
  - discriminate.
  - apply (post_positive _ _ tiny_design_ok). vm_compute. reflexivity.
  - rewrite repeat_length. apply tiny_trims_none.
  - rewrite repeat_length in *. exists se, average, v, 60%nat. split; [apply argsort_ref_sorts|]. split; [apply tiny_design_ok|]. split; auto. split; auto. split; auto.
    rewrite minus_repeat in *. assert (Z0 : sqdev (repeat (3 - 1) 60) = 0) by (rewrite <- codev_self; apply codev_repeat).
    assert (AV : avg (repeat (3 - 1) 60) = 2) by (apply avg_same; [discriminate|]; intros x Hx; apply repeat_spec in Hx; lra).
    rewrite Z0, AV in *. rewrite F, D. assert (P : 0 < INR 60) by (apply lt_0_INR; lia). unfold Rdiv. assert (I : 0 < / INR 60) by now apply Rinv_0_lt_compat.
    split; lra.
Qed.

(** the same data when 5 % are really trimmed on each side, items assigned alternately: variance 240/53 instead of 1 *)
Definition alternating (k : ikey) : option Z := match k with IInt z => Some (z mod 2)%Z | _ => None end.
Theorem c79_estimate_with_trimmed_items_refuted :
  exists r s average v, 
    primary_metric_stats argsort_ref (cut_design true) (two_columns "test_1" "test_2" (fun _ => 3) (fun _ => 1)) = Ok (Fin average, Fin v, 54%nat) /\
    analyze_single_metric cauchy argsort_ref alternating (two_columns "test_1" "test_2" (fun _ => 3) (fun _ => 1)) true (cut_params true) "clicks" None None = Ok r /\
    r_standard_error r = Fin s /\ v = 1 /\ s ^ 2 * INR 54 = 240 / 53.
Proof.
  destruct (two_columns_hold "test_1" "test_2" (fun _ => 3) (fun _ => 1)) as [H1 H2]. rewrite !const_repeat in H1, H2.
  set (a := map (fun i => Some (Z.of_nat i mod 2)%Z) (seq 0 60)).
  assert (HA : in_arms alternating (two_columns "test_1" "test_2" (fun _ => 3) (fun _ => 1)) a).
  { unfold in_arms, two_columns, a. cbn [t_rows]. rewrite map_map. reflexivity. }
  destruct (analysis_of_flips cauchy argsort_ref argsort_ref_sorts _ _ (cut_design_ok true) eq_refl _ _ _
    (two_columns_nodup "test_1" "test_2" (fun _ => 3) (fun _ => 1) ltac:(discriminate)) H1 H2 ltac:(discriminate) ltac:(now rewrite repeat_length) alternating a HA)
    as (r & tr & co & HR & HY & LT & M).
  rewrite repeat_length in LT.
  assert (IZ : is_zero (post (cut_params true)) = false) by (vm_compute; reflexivity).
  unfold base_values in M. rewrite IZ, minus_repeat in M.
  set (sd := repeat (-2) 30 ++ repeat 2 30).
  assert (E : flip a (repeat (3 - 1) 60) = flat_map (fun _ => [-2; 2]) (seq 0 30)).
  { unfold flip, a. cbn [seq map repeat combine flat_map app fst snd]. unfold sgn.
    repeat match goal with |- context [in_treatment_arm (Some (?x mod 2)%Z)] => let b := eval vm_compute in (in_treatment_arm (Some (x mod 2)%Z)) in change (in_treatment_arm (Some (x mod 2)%Z)) with b end.
    cbv iota. replace (-1 * (3 - 1)) with (-2) by ring. replace (1 * (3 - 1)) with 2 by ring. reflexivity. }
  rewrite E in M.
  assert (SS : sorted_as (minus tr co) sd).
  { rewrite M. split.
    - unfold sd. assert (W : forall n, Permutation (flat_map (fun _ : nat => [-2; 2]) (seq 0 n)) (repeat (-2) n ++ repeat 2 n)); [|apply W].
      induction n as [|n IH]; [constructor|].
      replace (flat_map (fun _ : nat => [-2; 2]) (seq 0 (S n))) with (-2 :: 2 :: flat_map (fun _ : nat => [-2; 2]) (seq 0 n)).
      + cbn [repeat app]. constructor. rewrite IH. apply Permutation_middle.
      + cbn [seq flat_map app]. do 2 f_equal. rewrite <- seq_shift, flat_map_concat_map, flat_map_concat_map, map_map. reflexivity.
    - unfold sd. assert (W : forall n m, StronglySorted Rle (repeat (-2) n ++ repeat 2 m)); [|apply W].
      induction n as [|n IH]; intros m; cbn [repeat app]; [apply repeat_sorted|]. constructor; auto.
      apply Forall_forall. intros x Hx. apply in_app_iff in Hx as [Hx|Hx]; apply repeat_spec in Hx; lra. }
  assert (SA : sample tr) by (split; [intros Q; rewrite Q in LT; discriminate|rewrite LT; lia]).
  destruct (c52_what_the_test_computes cauchy argsort_ref tr co _ _ _ r sd argsort_ref_sorts SA SS HY) as (_ & k & EK & R). cbv zeta in R.
  rewrite LT in *. rewrite cut_trims_three in EK. assert (k = 3%nat) by lia. subst k. destruct R as (_ & _ & _ & _ & R).
  destruct (R ltac:(lia)) as (s & RS & _ & E2 & _).
  exists r, s, 2, 1. split; [apply c73_example_crossover_statistics|]. split; [exact HR|]. split; auto. split; auto.
  rewrite E2. change (60 - 2 * 3)%nat with 54%nat.
  assert (TD : tdev 3 (minus tr co) sd = 240).
  { unfold tdev. rewrite M. unfold sd.
    assert (Q1 : nth 3 (repeat (-2) 30 ++ repeat 2 30) 0 = -2) by reflexivity.
    assert (Q2 : nth (List.length (flat_map (fun _ : nat => [-2; 2]) (seq 0 30)) - 1 - 3) (repeat (-2) 30 ++ repeat 2 30) 0 = 2) by reflexivity.
    rewrite Q1, Q2. assert (C1 : clip (-2) 2 (-2) = -2) by (unfold clip; rewrite Rmin_right, Rmax_left; lra). assert (C2 : clip (-2) 2 2 = 2) by (unfold clip; rewrite Rmin_left, Rmax_right; lra).
    cbn [seq flat_map app map]. rewrite C1, C2.
    unfold sqdev. assert (AV : forall l, total l = 0 -> avg l = 0) by (intros l H; unfold avg; rewrite H; unfold Rdiv; ring).
    rewrite AV; [|cbn [total fold_right]; ring]. cbn [map total fold_right]. ring. }
  rewrite TD. assert (P : INR 54 = 54) by (rewrite INR_IZR_INZ; reflexivity). rewrite P. field.
Qed.

Print Assumptions c79_estimate_without_trimming_covers_the_analysis.
Print Assumptions c79_gap_of_the_estimate_with_trimming.
Print Assumptions c79_estimate_with_trimming_covers_the_analysis_refuted.
Print Assumptions c79_estimate_with_trimmed_items_refuted.
