(** C91: the sample size that a design announces and the sample size that its analysis reports. *)
From Coq Require Import ZArith Reals Lra Lia List String Bool Permutation.
From Flocq Require Import Core BinarySingleNaN.
Require Import Verif.Base Verif.Num Verif.NumOrd Verif.F64 Verif.Frame Verif.ListLib Verif.Design_Model Verif.Design_Spec Verif.Design_Proofs
  Verif.Design_Yaml_Proofs Verif.Design_Props Verif.Trimmed_Model Verif.Trimmed_Spec Verif.Moments Verif.Trimmed_Proofs Verif.Trimmed_Real Verif.Trimmed_Props
  Verif.Cuped_Model Verif.Cuped_Props Verif.Stats_Model Verif.Stats_Num Verif.Stats_Props Verif.Tests_Proofs
  Verif.Pivot_Model Verif.Analysis_Spec Verif.Analysis_Model Verif.Analysis_Props Verif.Analysis_Props2 Verif.Effect_Props Verif.Table_Props Verif.Text_Props3
  Verif.Regular_Props Verif.Tests_Props.
Import ListNotations.
Open Scope string_scope.
Open Scope list_scope.
Open Scope Z_scope.

(** the number of items in an arm *)
Definition items_in_arm {K} (arm : K -> option Z) (t : table K) (a : Z) : nat :=
  List.length (filter (fun r => match arm (fst r) with Some z => Z.eqb z a | None => false end) (t_rows t)).

(** *** Sizes of trimmed arrays and of the test results, for all values *)
Lemma trimmed_len argsort rows q t : mk_trimmed argsort rows q = Ok t ->
  exists k, floor_mul q (Z.of_nat (Trimmed_Model.sample_size rows)) = Ok k /\
    Z.of_nat (t_len argsort t) = Z.of_nat (Trimmed_Model.sample_size rows) - 2 * k.
Proof.
  unfold mk_trimmed. intros H. apply bind_ok in H as (? & _ & H). apply bind_ok in H as (k & K & H). exists k. split; auto.
  destruct rows as [|r rows]; [discriminate|]. set (all := r :: rows) in *.
  apply bind_ok in H as (? & A & H). apply raise_if_ok in A.
  apply negb_false_iff, Z.eqb_eq in A.
  assert (E : Trimmed_Model.t_rows t = all /\ t_k t = Z.to_nat k).
  { apply bind_ok in H as (c & _ & H). destruct c; [inversion H; auto|]. apply bind_ok in H as (c' & _ & H). inversion H; auto. }
  destruct E as [E1 E2]. unfold t_len, values_trimmed. rewrite E1, E2. exact A.
Qed.
Lemma stack_ok rows l : np_stack rows = Ok l -> l = rows.
Proof. unfold np_stack. intros H. apply bind_ok in H as (? & _ & H). congruence. Qed.
Lemma differences_length a b : List.length a = List.length b -> List.length (differences a b) = List.length a.
Proof. intros E. unfold differences. rewrite map_length, combine_length. lia. Qed.

Lemma paired_size T argsort a b q d1 d2 alt al r : yuens_t_test_paired T argsort a b q d1 d2 alt al = Ok r ->
  exists k, floor_mul q (Z.of_nat (List.length a)) = Ok k /\ Z.of_nat (r_sample_size r) = Z.of_nat (List.length a) - 2 * k.
Proof.
  unfold yuens_t_test_paired. intros H. apply bind_ok in H as (u0 & L & H). apply raise_if_ok in L.
  apply negb_false_iff, Nat.eqb_eq in L. apply bind_ok in H as (ratio & _ & H).
  destruct ratio as [[dx dy]|].
  - apply bind_ok in H as (st & S & H). apply stack_ok in S. subst st. apply bind_ok in H as (t & M & H).
    apply trimmed_len in M as (k & K & E). unfold Trimmed_Model.sample_size in K, E. cbn [hd] in K, E. rewrite differences_length in K, E by auto.
    exists k. split; auto. destruct (difference_of_ratios _ _) as [[[[[[x1 x2] x3] x4] x5] x6] x7].
    apply finish_test_ok in H. now rewrite (fi_n _ _ _ _ _ _ _ _ _ _ _ _ _ _ H).
  - apply bind_ok in H as (st & S & H). apply stack_ok in S. subst st. apply bind_ok in H as (t & M & H).
    apply trimmed_len in M as (k & K & E). unfold Trimmed_Model.sample_size in K, E. cbn [hd] in K, E. rewrite differences_length in K, E by auto.
    exists k. split; auto. apply finish_test_ok in H. now rewrite (fi_n _ _ _ _ _ _ _ _ _ _ _ _ _ _ H).
Qed.
Lemma ind_size T argsort a b q d1 d2 ev alt al r : yuens_t_test_ind T argsort a b q d1 d2 ev alt al = Ok r ->
  exists k1 k2, floor_mul q (Z.of_nat (List.length a)) = Ok k1 /\ floor_mul q (Z.of_nat (List.length b)) = Ok k2 /\
    Z.of_nat (r_sample_size r) = (Z.of_nat (List.length a) - 2 * k1) + (Z.of_nat (List.length b) - 2 * k2).
Proof.
  unfold yuens_t_test_ind. intros H. apply bind_ok in H as (ratio & _ & H).
  assert (F : forall div m1 m2 v1 v2 n1 n2, finish_ind T div m1 m2 v1 v2 n1 n2 ev alt al = Ok r -> r_sample_size r = (n1 + n2)%nat).
  { intros div m1 m2 v1 v2 n1 n2 X. unfold finish_ind in X. destruct (two_sample_standard_errors _ _ _ _ _) as [[se e1] e2].
    apply finish_test_ok in X. exact (fi_n _ _ _ _ _ _ _ _ _ _ _ _ _ _ X). }
  destruct ratio as [[dx dy]|].
  - apply bind_ok in H as (s1 & S & H). apply stack_ok in S. subst s1. apply bind_ok in H as (s2 & S & H). apply stack_ok in S. subst s2.
    apply bind_ok in H as (t1 & M1 & H). apply bind_ok in H as (t2 & M2 & H).
    apply trimmed_len in M1 as (k1 & K1 & E1). apply trimmed_len in M2 as (k2 & K2 & E2).
    unfold Trimmed_Model.sample_size in *. cbn [hd] in *.
    exists k1, k2. split; auto. split; auto. apply F in H. lia.
  - apply bind_ok in H as (t1 & M1 & H). apply bind_ok in H as (t2 & M2 & H).
    apply trimmed_len in M1 as (k1 & K1 & E1). apply trimmed_len in M2 as (k2 & K2 & E2).
    unfold Trimmed_Model.sample_size in *. cbn [hd] in *.
    exists k1, k2. split; auto. split; auto. apply F in H. lia.
Qed.

(** *** The numbers of values that reach the tests *)
Section Table.
Context {K : Type} (arm : K -> option Z).

Lemma subset_lengths t m sub : metric_subset arm t true m = Ok sub ->
  s_arms sub = Some (map (fun r => arm (fst r)) (t_rows t)) /\
  forall s v, sget s (s_periods sub) = Some v -> List.length v = List.length (t_rows t).
Proof.
  unfold metric_subset. destruct (existsb _ _); [|discriminate]. intros H.
  apply (f_equal (fun r => match r with Ok a => a | Err _ => sub end)) in H. cbn beta iota in H. rewrite <- H. clear H.
  cbn [s_arms s_periods]. split; auto. intros s v. generalize (filter (fun ic : nat * (string * string) => String.eqb m (fst (snd ic)))
    (combine (seq 0 (List.length (t_cols t))) (t_cols t))) as l.
  induction l as [|x l IH]; cbn [map sget]; [discriminate|]. destruct (String.eqb s _); auto.
  intros [= <-]. unfold column_at. apply map_length.
Qed.
Lemma complete_lengths t m sub p s : metric_subset arm t true m = Ok sub -> complete p sub = true -> In s (required_periods p) ->
  List.length (period_values sub s) = List.length (t_rows t).
Proof.
  intros H C R. apply subset_lengths in H as [_ H]. unfold complete in C. apply andb_true_iff in C as [_ C]. rewrite forallb_forall in C.
  specialize (C s R). unfold period_values. destruct (sget s (s_periods sub)) eqn:E; [|discriminate]. eauto.
Qed.
Lemma replace_where_length {A} mask (a b : list A) n : List.length mask = n -> List.length a = n -> List.length b = n ->
  List.length (replace_where mask a b) = n.
Proof. intros. unfold replace_where. rewrite map_length, !combine_length. lia. Qed.
Lemma prepare_crossover_length y1 y2 arms b n : List.length y1 = n -> List.length y2 = n -> List.length arms = n ->
  List.length (fst (prepare_crossover y1 y2 arms b)) = n.
Proof.
  intros L1 L2 L3. unfold prepare_crossover, shift, unshift.
  destruct b; cbn [fst]; rewrite ?map_length; apply replace_where_length; rewrite ?map_length; auto.
Qed.
Lemma zip_length {A B C} (f : A -> B -> C) a b n : List.length a = n -> List.length b = n -> List.length (zip_with f a b) = n.
Proof. revert b n. induction a as [|x a IH]; intros [|y b] n L1 L2; cbn in *; try lia. destruct n; [lia|]. f_equal. apply IH; lia. Qed.
Lemma cuped_keeps_length argsort m c q y : apply_cuped_adjustment argsort m c q = Ok y -> List.length y = List.length m.
Proof.
  unfold apply_cuped_adjustment. intros H. apply bind_ok in H as (? & L & H). apply raise_if_ok in L. apply negb_false_iff, Nat.eqb_eq in L.
  apply bind_ok in H as (t & _ & H). destruct (Nat.eqb (t_k t) 0).
  - assert (E := f_equal (fun r => match r with Ok a => a | Err _ => y end) H). cbn beta iota in E. rewrite <- E. apply zip_length; auto.
  - apply bind_ok in H as (t1 & _ & H). apply bind_ok in H as (t2 & _ & H). destruct (nltb _ _);
      assert (E := f_equal (fun r => match r with Ok a => a | Err _ => y end) H); cbn beta iota in E; rewrite <- E; auto.
    rewrite map_length. apply zip_length; auto.
Qed.
Lemma select_length {A} (f : K * list num -> bool) (rows : list (K * list num)) (l : list A) : List.length l = List.length rows ->
  List.length (select (map f rows) l) = List.length (filter f rows).
Proof.
  unfold select. rewrite map_length. revert l. induction rows as [|r rows IH]; intros [|x l] L; cbn in *; try lia.
  destruct (f r); cbn; rewrite IH; lia.
Qed.

(** what a crossover analysis reports *)
Lemma crossover_size T argsort t p m den override r : crossover p = true ->
  analyze_single_metric T argsort arm t true p m den override = Ok r ->
  let n := Z.of_nat (List.length (t_rows t)) in
  exists k, floor_mul (match override with None => post p | Some q => q end) n = Ok k /\ Z.of_nat (r_sample_size r) = n - 2 * k.
Proof.
  intros C H n. unfold analyze_single_metric in H. apply bind_ok in H as (sub & S & H). apply bind_ok in H as (den' & D & H).
  apply bind_ok in H as (? & G & H). apply raise_if_ok in G. apply negb_false_iff, andb_true_iff in G as [G _]. rewrite C in H.
  assert (R : required_periods p = ["test_1"; "test_2"]) by (unfold required_periods; now rewrite C).
  assert (L1 := complete_lengths t m sub p "test_1" S G ltac:(rewrite R; cbn; auto)).
  assert (L2 := complete_lengths t m sub p "test_2" S G ltac:(rewrite R; cbn; auto)).
  assert (L3 : List.length (arm_values sub) = List.length (t_rows t)).
  { apply subset_lengths in S as [S _]. unfold arm_values. rewrite S. apply map_length. }
  set (q := match override with None => post p | Some q => q end) in *. unfold analyze_crossover in H.
  set (y := prepare_crossover (period_values sub "test_1") (period_values sub "test_2") (arm_values sub) (is_zero q)) in *.
  assert (LY : List.length (fst y) = List.length (t_rows t)) by (apply prepare_crossover_length; auto).
  destruct den' as [dn|]; apply paired_size in H; rewrite LY in H; exact H.
Qed.

(** what a regular analysis reports *)
Lemma regular_size T argsort t p m den override r : crossover p = false ->
  analyze_single_metric T argsort arm t true p m den override = Ok r ->
  let n a := Z.of_nat (items_in_arm arm t a) in let q := match override with None => post p | Some q => q end in
  exists k1 k0, floor_mul q (n 1) = Ok k1 /\ floor_mul q (n 0) = Ok k0 /\
    Z.of_nat (r_sample_size r) = (n 1 - 2 * k1) + (n 0 - 2 * k0).
Proof.
  intros C H n q. unfold analyze_single_metric in H. apply bind_ok in H as (sub & S & H). apply bind_ok in H as (den' & D & H).
  apply bind_ok in H as (? & G & H). apply raise_if_ok in G. apply negb_false_iff, andb_true_iff in G as [G _]. rewrite C in H. fold q in H.
  assert (L1 := complete_lengths t m sub p "test" S G ltac:(unfold required_periods; rewrite C; destruct (0 <? pretest p); cbn; auto)).
  assert (L3 : arm_values sub = map (fun r => arm (fst r)) (t_rows t)).
  { apply subset_lengths in S as [S _]. unfold arm_values. now rewrite S. }
  unfold analyze_regular in H. apply bind_ok in H as (y & Y & H).
  assert (LY : List.length (fst y) = items_in_arm arm t 1 /\ List.length (snd y) = items_in_arm arm t 0).
  { unfold prepare_regular in Y. apply bind_ok in Y as (v & V & Y).
    assert (E := f_equal (fun r => match r with Ok a => a | Err _ => y end) Y). cbn beta iota in E. rewrite <- E. cbn [fst snd].
    rewrite L3, !map_map. assert (LV : List.length v = List.length (t_rows t)).
    { destruct (sget "pretest" (s_periods sub)); [apply cuped_keeps_length in V; congruence|]. inversion V. now rewrite <- L1. }
    split; apply (select_length (fun r => arm_is _ (arm (fst r)))); exact LV. }
  destruct LY as [N1 N0]. unfold n.
  destruct den' as [dn|]; [apply bind_ok in H as (d & _ & H)|]; apply ind_size in H; rewrite N1, N0 in H; exact H.
Qed.
End Table.

(** *** The numbers of the design *)
Lemma design_post_count p d : mk_design p = Ok d -> exists k, floor_mul (post p) (n_pre d) = Ok k /\ n_post d = n_pre d - 2 * k.
Proof.
  unfold mk_design. intros H. apply bind_ok in H as (a & _ & H). apply bind_ok in H as (b & _ & H).
  apply bind_ok in H as (k & E & H). apply bind_ok in H as (? & _ & H).
  assert (X : d = mkDesignRec p (n_before p - a - b) (n_before p - a - b - 2 * k)) by congruence. subst d. cbn [n_pre n_post]. eauto.
Qed.

Theorem c91_crossover_results_have_the_announced_size :
  forall T argsort K (arm : K -> option Z) t p d m denominator r,
    mk_design p = Ok d -> crossover p = true -> Z.of_nat (List.length (t_rows t)) = n_pre d ->
    analyze_single_metric T argsort arm t true p m denominator None = Ok r ->
    Z.of_nat (r_sample_size r) = n_post d.
Proof.
  intros T argsort K arm t p d m den r HD C N H. destruct (crossover_size arm T argsort t p m den None r C H) as (k & F & E).
  destruct (design_post_count p d HD) as (k' & F' & E'). rewrite N in *. assert (k = k') by congruence. lia.
Qed.

(** *** Trimming the arms and trimming all items *)
Lemma rnd_near x : (0 <= x <= 2 ^ 50)%R -> (Rabs (rnd x - x) <= 1 / 4)%R.
Proof.
  intros B. assert (E := Table_Props.rnd_error x). rewrite (Rabs_right x) in E by lra.
  assert (P := bpow_ge_0 radix2 (-53)).
  assert (X : (bpow radix2 (-53) * x <= bpow radix2 (-53) * 2 ^ 50)%R) by (apply Rmult_le_compat_l; lra).
  assert (Y : (bpow radix2 (-53) * 2 ^ 50 = 1 / 8)%R) by (simpl; lra).
  assert (Z : (bpow radix2 (-1075) <= bpow radix2 (-3))%R) by (apply bpow_le; lia).
  assert (W : (bpow radix2 (-3) = 1 / 8)%R) by (simpl; lra). lra.
Qed.
Lemma floor_mul_near q n k : floor_mul q n = Ok k -> (0 <= B2R q <= 1)%R -> 0 <= n <= 2 ^ 50 ->
  (B2R q * IZR n - 5 / 4 < IZR k <= B2R q * IZR n + 1 / 4)%R.
Proof.
  intros H Q N. apply floor_mul_ok in H as (_ & _ & _ & ->). rewrite rnd_IZR by lia.
  assert (N' : (0 <= IZR n <= 2 ^ 50)%R).
  { split; [apply IZR_le; lia|]. replace (2 ^ 50)%R with (IZR (2 ^ 50)) by (simpl; lra). apply IZR_le. lia. }
  assert (B : (0 <= B2R q * IZR n <= 2 ^ 50)%R).
  { split; [apply Rmult_le_pos; lra|]. apply Rle_trans with (1 * IZR n)%R; [apply Rmult_le_compat_r; lra|lra]. }
  assert (E := rnd_near _ B). apply Rabs_le_inv in E.
  assert (L := Zfloor_lb (rnd (B2R q * IZR n))). assert (U := Zfloor_ub (rnd (B2R q * IZR n))). lra.
Qed.

Lemma arm_trimming p d n1 n0 k1 k0 : mk_design p = Ok d -> n_pre d <= 2 ^ 50 -> 0 <= n1 -> 0 <= n0 -> n1 + n0 = n_pre d ->
  floor_mul (post p) n1 = Ok k1 -> floor_mul (post p) n0 = Ok k0 ->
  let size := (n1 - 2 * k1) + (n0 - 2 * k0) in n_post d - 2 <= size <= n_post d + 4 /\ Z.Even (size - n_post d).
Proof.
  intros HD B P1 P0 S F1 F0 size. unfold size. destruct (design_post_count p d HD) as (k & F & E').
  assert (V := proj1 (proj1 (mk_design_iff p d) HD)).
  assert (Q : (0 <= B2R (post p) <= 1)%R) by (assert (X := ok_post p V); lra).
  assert (G1 := floor_mul_near _ _ _ F1 Q ltac:(lia)). assert (G0 := floor_mul_near _ _ _ F0 Q ltac:(lia)).
  assert (G := floor_mul_near _ _ _ F Q ltac:(lia)). rewrite <- S, plus_IZR, Rmult_plus_distr_l in G.
  assert (D : (-2 < IZR (k - k1 - k0) < 3)%R) by (rewrite !minus_IZR; lra).
  assert (D1 : -2 < k - k1 - k0) by (apply lt_IZR; lra). assert (D2 : k - k1 - k0 < 3) by (apply lt_IZR; lra).
  split; [lia|]. exists (k - k1 - k0). lia.
Qed.
Theorem c91_regular_results_have_nearly_the_announced_size :
  forall T argsort K (arm : K -> option Z) t p d m denominator r,
    mk_design p = Ok d -> crossover p = false -> n_pre d <= 2 ^ 50 ->
    Z.of_nat (List.length (t_rows t)) = n_pre d ->
    (forall row, In row (t_rows t) -> arm (fst row) = Some 0 \/ arm (fst row) = Some 1) ->
    analyze_single_metric T argsort arm t true p m denominator None = Ok r ->
    n_post d - 2 <= Z.of_nat (r_sample_size r) <= n_post d + 4 /\ Z.Even (Z.of_nat (r_sample_size r) - n_post d).
Proof.
  intros T argsort K arm t p d m den r HD C B N A H.
  destruct (regular_size arm T argsort t p m den None r C H) as (k1 & k0 & F1 & F0 & E).
  assert (S : Z.of_nat (items_in_arm arm t 1) + Z.of_nat (items_in_arm arm t 0) = n_pre d).
  { rewrite <- N, <- Nat2Z.inj_add. f_equal. unfold items_in_arm. clear - A. induction (t_rows t) as [|x l IH]; [reflexivity|].
    cbn [filter List.length]. assert (I := IH (fun r Hr => A r (or_intror Hr))). destruct (A x (or_introl eq_refl)) as [-> | ->]; cbn [Z.eqb Pos.eqb List.length]; lia. }
  rewrite E. apply (arm_trimming p d _ _ k1 k0 HD B); auto; lia.
Qed.

(** *** Witnesses: tables full of ones *)
Definition arm_of_pair (k : nat * Z) : option Z := Some (snd k).
Definition ones (n1 n0 : nat) : table (nat * Z) :=
  mkT [("clicks", "test")] (map (fun i => ((i, 1), [Fin 1])) (seq 0 n1) ++ map (fun i => ((i, 0), [Fin 1])) (seq n1 n0)).
Definition ones_list (n1 n0 : nat) : list (option Z * R) := repeat (Some 1, 1%R) n1 ++ repeat (Some 0, 1%R) n0.

Lemma map_repeat_ {A B} (f : A -> B) x n : map f (repeat x n) = repeat (f x) n.
Proof. induction n; cbn; f_equal; auto. Qed.
Lemma map_seq_const {A} (x : A) n a : map (fun _ => x) (seq a n) = repeat x n.
Proof. revert a. induction n; intros; cbn; f_equal; auto. Qed.
Lemma values_ones n1 n0 : values_of_arm 1 (ones_list n1 n0) = repeat 1%R n1 /\ values_of_arm 0 (ones_list n1 n0) = repeat 1%R n0.
Proof.
  unfold values_of_arm, ones_list. rewrite !filter_app, !map_app. split.
  - replace (filter _ (repeat (Some 0, 1%R) n0)) with (@nil (option Z * R)) by (induction n0; auto). rewrite app_nil_r.
    induction n1; cbn; f_equal; auto.
  - replace (filter _ (repeat (Some 1, 1%R) n1)) with (@nil (option Z * R)) by (induction n1; auto). cbn [map app].
    induction n0; cbn; f_equal; auto.
Qed.
Lemma ones_trimmed_mean n s k : sorted_as (repeat 1%R n) s -> (2 * k < n)%nat -> tmean k s = 1%R.
Proof.
  intros (P & _) L. assert (LN : List.length s = n) by (rewrite <- (Permutation_length P); apply repeat_length).
  assert (A : forall x, In x (middle k s) -> x = 1%R).
  { intros x I. assert (J : In x s).
    { unfold middle in I. rewrite <- (firstn_skipn k s). apply in_or_app. right. rewrite <- (firstn_skipn (List.length s - 2 * k) (skipn k s)). apply in_or_app. now left. }
    apply (Permutation_in x (Permutation_sym P)) in J. now apply repeat_spec in J. }
  assert (M : List.length (middle k s) = (n - 2 * k)%nat) by (unfold middle; rewrite firstn_length, skipn_length; lia).
  unfold tmean, avg. assert (T : Trimmed_Spec.total (middle k s) = INR (List.length (middle k s))).
  { revert A. generalize (middle k s). intros l A. induction l as [|x l IH]; [reflexivity|]. unfold Trimmed_Spec.total in *. cbn [fold_right List.length].
    rewrite IH by (intros; apply A; now right). rewrite (A x) by now left. rewrite S_INR. ring. }
  rewrite T. apply Rinv_r. rewrite M. apply not_0_INR. lia.
Qed.
Lemma items_in_ones n1 n0 : items_in_arm arm_of_pair (ones n1 n0) 1 = n1 /\ items_in_arm arm_of_pair (ones n1 n0) 0 = n0.
Proof.
  unfold items_in_arm, ones. cbn [t_rows]. rewrite !filter_app, !app_length.
  assert (X : forall (c a : Z) b n, List.length (filter (fun r : (nat * Z) * list num => match arm_of_pair (fst r) with Some z => z =? a | None => false end)
      (map (fun i => ((i, c), [Fin 1])) (seq b n))) = if c =? a then n else 0%nat).
  { intros c a b n. revert b. induction n as [|n IH]; intros b; cbn; [now destruct (c =? a)|]. destruct (c =? a) eqn:E; cbn; rewrite IH; auto. }
  rewrite !X. cbn. lia.
Qed.

Lemma ones_result p n1 n0 : crossover p = false -> pretest p = 0 -> is_finite (post p) = true -> (0 <= B2R (post p) < 1 / 2)%R ->
  (0 < n1)%nat -> (0 < n0)%nat -> Z.of_nat (n1 + n0) <= 2 ^ 53 ->
  exists r, analyze_single_metric cauchy argsort_ref arm_of_pair (ones n1 n0) true p "clicks" None None = Ok r.
Proof.
  intros C PT F Q P1 P0 B.
  assert (LL : List.length (ones_list n1 n0) = (n1 + n0)%nat) by (unfold ones_list; rewrite app_length, !repeat_length; lia).
  apply (c89_without_pretest_succeeds_iff arm_of_pair cauchy argsort_ref (ones n1 n0) p "clicks" (ones_list n1 n0) None); auto.
  - apply argsort_ref_sorts.
  - repeat constructor; intros [].
  - cbn. intuition discriminate.
  - now rewrite LL.
  - split.
    + unfold in_arms, ones, ones_list. cbn [t_rows]. rewrite !map_app, !map_map. rewrite !map_repeat_. unfold arm_of_pair. cbn [fst snd finite_pair].
      f_equal; apply map_seq_const.
    + exists 0%nat. split; [reflexivity|]. unfold ones, ones_list. cbn [t_rows]. rewrite !map_app, !map_map.
      cbn [fst snd]. rewrite !map_repeat_. cbn [fst snd finite_pair].
      assert (X : forall (c : Z) a n, Forall2 (fun (r : (nat * Z) * list num) x => nth_error (snd r) 0 = Some x)
        (map (fun i => ((i, c), [Fin 1])) (seq a n)) (repeat (Fin 1) n)) by (intros c a n; revert a; induction n; intros; cbn; constructor; auto).
      apply Forall2_app; apply X.
  - destruct (values_ones n1 n0) as [-> ->]. split; [destruct n1; [lia|discriminate]|]. split; [destruct n0; [lia|discriminate]|].
    intros st sc _ Sc. rewrite repeat_length. intros Z. exfalso.
    rewrite (ones_trimmed_mean n0 sc) in Z; auto; [lra|].
    assert (U : usable n0 (post p)) by (repeat split; auto; try lia; lra).
    destruct (mk_trimmed_usable argsort_ref [repeat (Fin 1) n0] (post p) n0 argsort_ref_sorts U) as (t & _ & _ & E & L); [discriminate|intros r [<-|[]]; apply repeat_length|].
    cbn [chosen]. rewrite <- E, Nat2Z.id. exact L.
Qed.

Lemma ones_arms n1 n0 row : In row (t_rows (ones n1 n0)) -> arm_of_pair (fst row) = Some 0 \/ arm_of_pair (fst row) = Some 1.
Proof. intros I. cbn [ones t_rows] in I. apply in_app_or in I as [I|I]; apply in_map_iff in I as (i & <- & _); auto. Qed.
Lemma ones_length n1 n0 : List.length (t_rows (ones n1 n0)) = (n1 + n0)%nat.
Proof. cbn [ones t_rows]. now rewrite app_length, !map_length, !seq_length. Qed.

Lemma ones_size p n1 n0 k1 k0 r : crossover p = false ->
  floor_mul (post p) (Z.of_nat n1) = Ok k1 -> floor_mul (post p) (Z.of_nat n0) = Ok k0 ->
  analyze_single_metric cauchy argsort_ref arm_of_pair (ones n1 n0) true p "clicks" None None = Ok r ->
  Z.of_nat (r_sample_size r) = Z.of_nat n1 - 2 * k1 + (Z.of_nat n0 - 2 * k0).
Proof.
  intros C F1 F0 H. destruct (regular_size arm_of_pair _ _ _ _ _ _ _ _ C H) as (a & b & A & B & E).
  destruct (items_in_ones n1 n0) as [I1 I0]. rewrite I1, I0 in *.
  assert (a = k1) by congruence. assert (b = k0) by congruence. subst. exact E.
Qed.

(** one percent of 150 items on either side are two items, one percent of 75 items is none *)
Definition two_arms : params :=
  mkParams 150 8 "clicks" 0 false f0 f0 (flit 1 100) None (flit 5 100) (flit 8 10) None.
(** percentages just below 20 % and 10 % *)
Definition below_20 : params :=
  mkParams 85 8 "clicks" 0 false f0 f0 (flit 7205759403792793 36028797018963968) None (flit 5 100) (flit 8 10) None.
Definition below_10 : params :=
  mkParams 140 8 "clicks" 0 false f0 f0 (flit 7205759403792793 72057594037927936) None (flit 5 100) (flit 8 10) None.

Lemma ones_witness p n1 n0 k1 k0 a b :
  match mk_design p with Ok d => andb (n_pre d =? a) (n_post d =? b) | Err _ => false end = true ->
  crossover p = false -> pretest p = 0 -> (0 < n1)%nat -> (0 < n0)%nat -> Z.of_nat (n1 + n0) <= 2 ^ 53 ->
  floor_mul (post p) (Z.of_nat n1) = Ok k1 -> floor_mul (post p) (Z.of_nat n0) = Ok k0 -> Z.of_nat (n1 + n0) = a ->
  exists d r, mk_design p = Ok d /\ n_post d = b /\ Z.of_nat (List.length (t_rows (ones n1 n0))) = n_pre d /\
    analyze_single_metric cauchy argsort_ref arm_of_pair (ones n1 n0) true p "clicks" None None = Ok r /\
    Z.of_nat (r_sample_size r) = Z.of_nat n1 - 2 * k1 + (Z.of_nat n0 - 2 * k0).
Proof.
  intros M C PT P1 P0 B F1 F0 N. destruct (computed_counts p a b M) as (d & HD & E1 & E2).
  assert (V := proj1 (proj1 (mk_design_iff p d) HD)). destruct (ok_finite p V) as (_ & _ & Fp).
  destruct (ones_result p n1 n0 C PT Fp (ok_post p V) P1 P0 B) as (r & R).
  exists d, r. repeat (split; auto); [rewrite ones_length; lia|]. exact (ones_size p n1 n0 k1 k0 r C F1 F0 R).
Qed.

(** so the announced number need not be the reported one, and the bounds of the theorem are attained *)
Theorem c91_regular_results_have_the_announced_size_refuted :
  exists p d t r, mk_design p = Ok d /\ crossover p = false /\ Z.of_nat (List.length (t_rows t)) = n_pre d /\
    (forall row, In row (t_rows t) -> arm_of_pair (fst row) = Some 0 \/ arm_of_pair (fst row) = Some 1) /\
    analyze_single_metric cauchy argsort_ref arm_of_pair t true p "clicks" None None = Ok r /\
    post p = flit 1 100 /\ items_in_arm arm_of_pair t 1 = 75%nat /\ items_in_arm arm_of_pair t 0 = 75%nat /\
    n_post d = 148 /\ Z.of_nat (r_sample_size r) = 150.
Proof.
  destruct (ones_witness two_arms 75 75 0 0 150 148
    ltac:(vm_compute; reflexivity) eq_refl eq_refl ltac:(lia) ltac:(lia) ltac:(vm_compute; discriminate)
    ltac:(vm_compute; reflexivity) ltac:(vm_compute; reflexivity) eq_refl) as (d & r & HD & E & L & R & S).
  exists two_arms, d, (ones 75 75), r. split; [exact HD|]. split; [reflexivity|]. split; [exact L|]. split; [exact (ones_arms 75 75)|].
  split; [exact R|]. split; [reflexivity|]. destruct (items_in_ones 75 75) as [I1 I0]. split; [exact I1|]. split; [exact I0|].
  split; [exact E|]. rewrite S. reflexivity.
Qed.
Theorem c91_the_size_bounds_are_attained :
  (exists p d t r, mk_design p = Ok d /\ crossover p = false /\ Z.of_nat (List.length (t_rows t)) = n_pre d /\
     (forall row, In row (t_rows t) -> arm_of_pair (fst row) = Some 0 \/ arm_of_pair (fst row) = Some 1) /\
     analyze_single_metric cauchy argsort_ref arm_of_pair t true p "clicks" None None = Ok r /\
     Z.of_nat (r_sample_size r) = n_post d + 4) /\
  (exists p d t r, mk_design p = Ok d /\ crossover p = false /\ Z.of_nat (List.length (t_rows t)) = n_pre d /\
     (forall row, In row (t_rows t) -> arm_of_pair (fst row) = Some 0 \/ arm_of_pair (fst row) = Some 1) /\
     analyze_single_metric cauchy argsort_ref arm_of_pair t true p "clicks" None None = Ok r /\
     Z.of_nat (r_sample_size r) = n_post d - 2).
Proof.
  split.
  - destruct (ones_witness below_20 30 55 5 10 85 51
    ltac:(vm_compute; reflexivity) eq_refl eq_refl ltac:(lia) ltac:(lia) ltac:(vm_compute; discriminate)
    ltac:(vm_compute; reflexivity) ltac:(vm_compute; reflexivity) eq_refl) as (d & r & HD & E & L & R & S).
    exists below_20, d, (ones 30 55), r. split; [exact HD|]. split; [reflexivity|]. split; [exact L|]. split; [exact (ones_arms 30 55)|].
    split; [exact R|]. rewrite S, E. lia.
  - destruct (ones_witness below_10 50 90 5 9 140 114
    ltac:(vm_compute; reflexivity) eq_refl eq_refl ltac:(lia) ltac:(lia) ltac:(vm_compute; discriminate)
    ltac:(vm_compute; reflexivity) ltac:(vm_compute; reflexivity) eq_refl) as (d & r & HD & E & L & R & S).
    exists below_10, d, (ones 50 90), r. split; [exact HD|]. split; [reflexivity|]. split; [exact L|]. split; [exact (ones_arms 50 90)|].
    split; [exact R|]. rewrite S, E. lia.
Qed.

(** A crossover with sixty items that meets the hypotheses of the first theorem is in Totals_Props3.v. *)
Print Assumptions c91_crossover_results_have_the_announced_size.
Print Assumptions c91_regular_results_have_nearly_the_announced_size.
Print Assumptions c91_regular_results_have_the_announced_size_refuted.
Print Assumptions c91_the_size_bounds_are_attained.
