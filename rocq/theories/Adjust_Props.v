(** C100: what the CUPED adjustment does to the test of a regular experiment. *)
From Coq Require Import ZArith Reals Lra Lia List String Bool Permutation Sorting.Sorted.
From Flocq Require Import Core BinarySingleNaN.
Require Import Verif.Base Verif.Num Verif.NumOrd Verif.F64 Verif.ListLib Verif.Design_Model Verif.Design_Spec Verif.Design_Proofs Verif.Design_Props
  Verif.Trimmed_Model Verif.Trimmed_Spec Verif.Moments Verif.Trimmed_Proofs Verif.Trimmed_Real Verif.Trimmed_Props
  Verif.Cuped_Model Verif.Cuped_Props Verif.Stats_Model Verif.Stats_Num Verif.Stats_Props Verif.Tests_Proofs
  Verif.Tests_Props Verif.Tests_Props2 Verif.Pivot_Model Verif.Analysis_Spec Verif.Analysis_Model Verif.Analysis_Props Verif.Effect_Props.
Import ListNotations.
Open Scope string_scope.
Open Scope list_scope.
Open Scope R_scope.

(** *** Specification *)
(** the slope of the test values on the pretest values, over the items of both arms *)
Definition slope (l : list item) : R := codev (map i_test l) (map i_pre l) / sqdev (map i_pre l).
(** treatment less control *)
Definition gap (g : item -> R) (l : list item) : R := avg (map g (in_arm 1 l)) - avg (map g (in_arm 0 l)).
(** the squared deviations in one arm from the line with slope [b] through the averages of the arm *)
Definition around_line (b : R) (a : list item) : R :=
  sqdev (map i_test a) - 2 * b * codev (map i_test a) (map i_pre a) + b ^ 2 * sqdev (map i_pre a).
(** the squared standard error of a difference of averages, from the squared deviations *)
Definition error_of (d1 : R) (n1 : nat) (d0 : R) (n0 : nat) : R :=
  d1 / (INR n1 - 1) / INR n1 + d0 / (INR n0 - 1) / INR n0.

(** *** Proofs *)
Lemma untrimmed_test T argsort xs ys q r : sorts argsort -> sample xs -> sample ys -> B2R q = 0 ->
  yuens_t_test_ind T argsort (data xs) (data ys) q None None false "two-sided" default_alpha = Ok r ->
  r_abs r = Fin (avg xs - avg ys) /\
  ((2 <= List.length xs)%nat -> (2 <= List.length ys)%nat ->
   exists s, r_standard_error r = Fin s /\ 0 <= s /\ s ^ 2 = error_of (sqdev xs) (List.length xs) (sqdev ys) (List.length ys)).
Proof.
  intros HS Sx Sy Q H.
  assert (TZ : forall n, trim_each n q = 0%Z) by (intros n; unfold trim_each; rewrite Q, Rmult_0_l, rnd_0; apply (Zfloor_IZR 0)).
  destruct (sorted_exists xs) as (s1 & S1). destruct (sorted_exists ys) as (s0 & S0).
  destruct (c51_what_the_test_computes T argsort _ _ q _ _ _ r s1 s0 HS Sx Sy S1 S0 H) as (k1 & k2 & E1 & E2 & G).
  rewrite TZ in E1, E2. assert (k1 = 0%nat) by lia. assert (k2 = 0%nat) by lia. subst k1 k2. cbv zeta in G.
  rewrite (tmean_0 _ _ S1), (tmean_0 _ _ S0), (tdev_0 _ _ S1), (tdev_0 _ _ S0) in G.
  replace (List.length xs - 2 * 0)%nat with (List.length xs) in G by lia. replace (List.length ys - 2 * 0)%nat with (List.length ys) in G by lia.
  destruct G as (_ & _ & EA & _ & _ & G). split; [exact EA|]. intros H1 H0. destruct (G H1 H0) as (s & ES & P & E & _).
  exists s. split; [exact ES|]. split; [exact P|]. exact E.
Qed.

Lemma around_sqdev b c a : a <> [] -> sqdev (map (fun x => i_test x - b * (i_pre x - c)) a) = around_line b a.
Proof.
  intros N. unfold around_line. rewrite <- !Cv_sqdev.
  change (codev (map i_test a) (map i_pre a)) with (Cv a i_test i_pre).
  set (h := fun x => 1 * i_test x + (- b) * i_pre x).
  transitivity (Cv a (fun x => 1 * h x + (b * c) * 1) (fun x => 1 * h x + (b * c) * 1)).
  { apply Cv_ext; intros x _; unfold h; ring. }
  rewrite Cv_lin_l, !Cv_lin_r, !Cv_const_l, !Cv_const_r by auto. unfold h.
  rewrite !Cv_lin_l, !Cv_lin_r by auto. rewrite (Cv_sym a i_pre i_test). ring.
Qed.

Lemma gap_adjusted b c l : in_arm 1 l <> [] -> in_arm 0 l <> [] ->
  avg (map (fun x => i_test x - b * (i_pre x - c)) (in_arm 1 l)) - avg (map (fun x => i_test x - b * (i_pre x - c)) (in_arm 0 l)) =
  gap i_test l - b * gap i_pre l.
Proof.
  intros N1 N0. unfold gap.
  assert (E : forall a : list item, a <> [] -> avg (map (fun x => i_test x - b * (i_pre x - c)) a) = avg (map i_test a) - b * avg (map i_pre a) + b * c).
  { intros a N. transitivity (Av a (fun x => 1 * i_test x + 1 * ((- b) * i_pre x + (b * c) * 1))).
    - unfold Av. f_equal. apply map_ext. intros; ring.
    - rewrite Av_lin, Av_lin, Av_const by auto. unfold Av. ring. }
  rewrite !E by auto. ring.
Qed.

(** codeviations of two arms with the same pretest average add up *)
Lemma balanced_codev (f : item -> R) l : (forall x, In x l -> i_arm x = Some 0%Z \/ i_arm x = Some 1%Z) ->
  in_arm 1 l <> [] -> in_arm 0 l <> [] -> gap i_pre l = 0 ->
  codev (map f l) (map i_pre l) = codev (map f (in_arm 1 l)) (map i_pre (in_arm 1 l)) + codev (map f (in_arm 0 l)) (map i_pre (in_arm 0 l)).
Proof.
  intros AR N1 N0 B. unfold gap in B. set (a1 := in_arm 1 l) in *. set (a0 := in_arm 0 l) in *.
  assert (N : l <> []) by (intros ->; now apply N1).
  change (Cv l f i_pre = Cv a1 f i_pre + Cv a0 f i_pre).
  set (n1 := INR (List.length a1)). set (n0 := INR (List.length a0)). set (n := INR (List.length l)).
  assert (P1 : 0 < n1) by (apply (n_pos a1 N1)). assert (P0 : 0 < n0) by (apply (n_pos a0 N0)). assert (Pn : 0 < n) by (apply (n_pos l N)).
  assert (ONE : forall (a : list item), total (map (fun _ => 1) a) = INR (List.length a)).
  { intros a. fold (Sm a (fun _ => 1)). rewrite Sm_const. ring. }
  assert (EN : n = n1 + n0). { unfold n, n1, n0. rewrite <- !ONE. apply two_arms; auto. }
  assert (TOT : forall g (a : list item), a <> [] -> Sm a g = INR (List.length a) * Av a g).
  { intros g a Na. rewrite Av_S. field. assert (Z := n_pos a Na). lra. }
  set (p := Av a0 i_pre) in *. assert (E1 : Av a1 i_pre = p) by (unfold Av, p, Av; lra).
  assert (EL : Av l i_pre = p).
  { rewrite Av_S. unfold Sm. rewrite two_arms by auto. fold a1 a0. fold (Sm a1 i_pre) (Sm a0 i_pre). rewrite !TOT by auto. rewrite E1. fold p n1 n0.
    change (INR (List.length l)) with n. rewrite EN. field. lra. }
  assert (CV : forall a : list item, a <> [] -> Av a i_pre = p -> Cv a f i_pre = Sm a (fun x => f x * (i_pre x - p))).
  { intros a Na Ea. rewrite Cv_S, Ea. rewrite (Sm_ext a _ (fun x => f x * (i_pre x - p) - Av a f * (1 * i_pre x - 1 * p))) by (intros; ring).
    rewrite Sm_minus, Sm_scale, Sm_minus, Sm_const, Sm_scale, (TOT i_pre a Na), Ea. ring. }
  rewrite !CV by auto. unfold Sm. apply two_arms. auto.
Qed.

Section Adjust.
Context {K : Type} (arm : K -> option Z) (T : tdist) (argsort : list num -> list nat) (t : table K) (p : params) (m : string)
  (l : list item) (override : option f64).

(** a regular experiment with pretest values whose items are in the two arms, analysed without trimming *)
Record untrimmed_experiment : Prop := {
  u_sorts : sorts argsort;
  u_columns : NoDup (t_cols t);
  u_regular : crossover p = false;
  u_size : usable (List.length l) (chosen p override);
  u_quantile : B2R (chosen p override) = 0;
  u_varies : sqdev (map i_pre l) <> 0;
  u_arms : forall x, In x l -> i_arm x = Some 0%Z \/ i_arm x = Some 1%Z;
  u_items : pretest_items arm t m l
}.

Lemma arms_inhabited q g g0 r :
  yuens_t_test_ind T argsort (data (map g (in_arm 1 l))) (data (map g0 (in_arm 0 l))) q None None false "two-sided" default_alpha = Ok r ->
  in_arm 1 l <> [] /\ in_arm 0 l <> [].
Proof.
  intros H.
  assert (EMP : forall t0, mk_trimmed argsort [data []] q = Ok t0 -> False).
  { intros t0. unfold mk_trimmed. intros X. apply bind_ok in X as (u & _ & X). apply bind_ok in X as (kz & _ & X).
    cbn [data map] in X. apply bind_ok in X as (u' & _ & X). discriminate X. }
  unfold yuens_t_test_ind in H. cbn [ratio_arguments bind] in H. apply bind_ok in H as (t1 & E1 & H). apply bind_ok in H as (t2 & E2 & _).
  split; intros X; rewrite X in *; cbn [map] in *; eauto.
Qed.

Lemma arm_sample (U : untrimmed_experiment) g a : in_arm a l <> [] -> sample (map g (in_arm a l)).
Proof.
  intros N. split; [intros E; now apply map_eq_nil in E|]. rewrite map_length.
  destruct (u_size U) as (_ & B & _). assert (X := Rank.filter_length_le (fun x => match i_arm x with Some z => Z.eqb z a | None => false end) l).
  unfold in_arm. lia.
Qed.

(** the estimate is the difference of the test values less the slope times the difference before
    the test; the standard error is that of the deviations from the line *)
Theorem c100_what_the_adjusted_analysis_computes : forall r,
  untrimmed_experiment -> analyze_single_metric T argsort arm t true p m None override = Ok r ->
  r_abs r = Fin (gap i_test l - slope l * gap i_pre l) /\
  let n1 := List.length (in_arm 1 l) in let n0 := List.length (in_arm 0 l) in
  ((2 <= n1)%nat -> (2 <= n0)%nat -> exists s, r_standard_error r = Fin s /\ 0 <= s /\
     s ^ 2 = error_of (around_line (slope l) (in_arm 1 l)) n1 (around_line (slope l) (in_arm 0 l)) n0).
Proof.
  intros r U H. assert (U' := U). destruct U'.
  rewrite (analysis_with_pretest arm T argsort t p m l override) in H by auto.
  destruct (arms_inhabited _ _ _ _ H) as [N1 N0].
  destruct (untrimmed_test T argsort _ _ _ r u_sorts0 (arm_sample U _ _ N1) (arm_sample U _ _ N0) u_quantile0 H) as [EA ES].
  split; [rewrite EA; f_equal; now apply gap_adjusted|]. cbv zeta. intros H1 H0. rewrite !map_length in ES.
  destruct (ES H1 H0) as (s & E & P & Q). exists s. split; auto. split; auto. rewrite Q.
  rewrite !around_sqdev by auto. reflexivity.
Qed.

(** with the same pretest averages in both arms the estimate is that of the plain test, and with
    arms of the same size the standard error is at most that of the plain test: less unless test and
    pretest values do not vary together *)
Theorem c100_balanced_arms_gain : forall r r0 n,
  untrimmed_experiment -> analyze_single_metric T argsort arm t true p m None override = Ok r ->
  yuens_t_test_ind T argsort (data (map i_test (in_arm 1 l))) (data (map i_test (in_arm 0 l))) (chosen p override) None None false
    "two-sided" default_alpha = Ok r0 ->
  avg (map i_pre (in_arm 1 l)) = avg (map i_pre (in_arm 0 l)) ->
  r_abs r = r_abs r0 /\
  (List.length (in_arm 1 l) = n -> List.length (in_arm 0 l) = n -> (2 <= n)%nat ->
   exists s s0, r_standard_error r = Fin s /\ r_standard_error r0 = Fin s0 /\ 0 <= s <= s0 /\
     (s = s0 <-> codev (map i_test l) (map i_pre l) = 0)).
Proof.
  intros r r0 n U H H0 B. destruct (arms_inhabited _ _ _ _ H0) as [N1 N0].
  assert (G0 : gap i_pre l = 0) by (unfold gap; lra).
  destruct (c100_what_the_adjusted_analysis_computes r U H) as [EA ES].
  destruct (untrimmed_test T argsort _ _ _ r0 (u_sorts U) (arm_sample U _ _ N1) (arm_sample U _ _ N0) (u_quantile U) H0) as [EA0 ES0].
  split. { rewrite EA, EA0. f_equal. rewrite G0. unfold gap. ring. }
  intros L1 L0 Hn. cbv zeta in ES. rewrite !map_length in ES0. rewrite L1, L0 in ES, ES0.
  destruct (ES Hn Hn) as (s & E & P & Q). destruct (ES0 Hn Hn) as (s0 & E0 & P0 & Q0).
  exists s, s0. split; auto. split; auto.
  assert (C := balanced_codev i_test l (u_arms U) N1 N0 G0).
  assert (V := balanced_codev i_pre l (u_arms U) N1 N0 G0). rewrite !codev_self in V.
  assert (SX := u_varies U). assert (PX := sqdev_nonneg (map i_pre l)).
  unfold error_of, around_line, slope in Q, Q0.
  set (c := codev (map i_test l) (map i_pre l)) in *. set (v := sqdev (map i_pre l)) in *.
  set (c1 := codev (map i_test (in_arm 1 l)) (map i_pre (in_arm 1 l))) in *. set (c0 := codev (map i_test (in_arm 0 l)) (map i_pre (in_arm 0 l))) in *.
  set (v1 := sqdev (map i_pre (in_arm 1 l))) in *. set (v0 := sqdev (map i_pre (in_arm 0 l))) in *.
  set (y1 := sqdev (map i_test (in_arm 1 l))) in *. set (y0 := sqdev (map i_test (in_arm 0 l))) in *.
  assert (Hm : 1 < INR n) by (apply (lt_INR 1); lia). set (k := INR n) in *.
  assert (D : s0 ^ 2 - s ^ 2 = c ^ 2 / v / (k - 1) / k).
  { rewrite Q, Q0. transitivity ((2 * (c / v) * (c1 + c0) - (c / v) ^ 2 * (v1 + v0)) / (k - 1) / k); [field; lra|].
    rewrite <- C, <- V. field. lra. }
  assert (W : 0 < / v / (k - 1) / k). { unfold Rdiv. repeat apply Rmult_lt_0_compat; try (apply Rinv_0_lt_compat; lra). }
  replace (c ^ 2 / v / (k - 1) / k) with (c ^ 2 * (/ v / (k - 1) / k)) in D by (field; lra).
  set (w := / v / (k - 1) / k) in *. assert (C2 : 0 <= c ^ 2) by apply pow2_ge_0.
  split; [split; auto|split].
  - apply Rnot_lt_le. intros L. assert (s0 ^ 2 < s ^ 2) by nra. nra.
  - intros ->. assert (c ^ 2 * w = 0) by lra. apply Rmult_integral in H1 as [H1|H1]; [|lra]. now apply Rsqr_0_uniq; rewrite Rsqr_pow2.
  - intros Z. rewrite Z in D. assert (s ^ 2 = s0 ^ 2) by lra. nra.
Qed.
End Adjust.

(** *** Cases *)
Section Case.
Context (l : list item).
Definition case_row (x : item) : (string * Z) * list num := (("i", match i_arm x with Some z => z | None => 2%Z end), [Fin (i_pre x); Fin (i_test x)]).
Definition case_table : table (string * Z) := mkT [("clicks", "pretest"); ("clicks", "test")] (map case_row l).
Context (AR : forall x, In x l -> i_arm x = Some 0%Z \/ i_arm x = Some 1%Z) (SX : sqdev (map i_pre l) <> 0)
  (SZ : (1 <= List.length l)%nat /\ (Z.of_nat (List.length l) <= 2 ^ 53)%Z).

Lemma case_experiment : untrimmed_experiment arm_of argsort_ref case_table pretest_design "clicks" l None.
Proof.
  constructor; auto.
  - exact argsort_ref_sorts.
  - repeat constructor; simpl; intuition discriminate.
  - destruct SZ. apply usable_0; [lia|]. first [exact H0|lia].
  - assert (IT : forall k, (forall x, In x k -> i_arm x = Some 0%Z \/ i_arm x = Some 1%Z) ->
      map (fun r => arm_of (fst r)) (map case_row k) = map i_arm k).
    { intros k A. rewrite map_map. apply map_ext_in. intros x I. cbn. destruct (A x I) as [->| ->]; reflexivity. }
    split; [now apply IT|].
    split; [exists 0%nat|exists 1%nat]; (split; [reflexivity|]); unfold case_table; cbn [t_rows]; clear; induction l; constructor; auto; reflexivity.
Qed.
End Case.

Definition far_list : list item :=
  [mkI (Some 1%Z) 10 11; mkI (Some 1%Z) 11 10; mkI (Some 0%Z) 0 1; mkI (Some 0%Z) 1 0].
Definition unequal_list : list item :=
  [mkI (Some 1%Z) 3 5; mkI (Some 1%Z) 1 5; mkI (Some 0%Z) 3 3; mkI (Some 0%Z) 1 1; mkI (Some 0%Z) 3 3; mkI (Some 0%Z) 1 1].
Definition gain_list : list item :=
  [mkI (Some 1%Z) 1 5; mkI (Some 1%Z) 3 9; mkI (Some 0%Z) 1 2; mkI (Some 0%Z) 3 4].

Ltac in_list := intros x I; repeat (destruct I as [<-|I]; [cbn; auto|]); destruct I.

Lemma case_runs l (AR : forall x, In x l -> i_arm x = Some 0%Z \/ i_arm x = Some 1%Z) (SX : sqdev (map i_pre l) <> 0)
  (SZ : (1 <= List.length l)%nat /\ (Z.of_nat (List.length l) <= 2 ^ 53)%Z) :
  in_arm 1 l <> [] -> in_arm 0 l <> [] ->
  0 <= avg (map (fun x => i_test x - slope l * (i_pre x - avg (map i_pre l))) (in_arm 1 l)) ->
  0 < avg (map (fun x => i_test x - slope l * (i_pre x - avg (map i_pre l))) (in_arm 0 l)) ->
  exists r, analyze_single_metric cauchy argsort_ref arm_of (case_table l) true pretest_design "clicks" None None = Ok r.
Proof.
  intros N1 N0 P1 P0. destruct (case_experiment l AR SX SZ).
  rewrite (analysis_with_pretest arm_of cauchy argsort_ref (case_table l) pretest_design "clicks" l None) by auto.
  assert (F : forall a, in_arm a l <> [] -> usable (List.length (in_arm a l)) f0).
  { intros a N. assert (X := Rank.filter_length_le (fun x => match i_arm x with Some z => Z.eqb z a | None => false end) l).
    destruct (in_arm a l) as [|y k] eqn:E; [easy|]. fold (in_arm a l) in X. rewrite E in X. destruct SZ. apply usable_0; [cbn; lia|]. cbn in *. lia. }
  apply positive_runs; rewrite ?map_length; auto.
Qed.

(** far apart arms, of the same size: the adjusted standard error is larger *)
Theorem c100_adjusted_error_never_larger_refuted :
  exists r r0 s s0,
    untrimmed_experiment arm_of argsort_ref (case_table far_list) pretest_design "clicks" far_list None /\
    List.length (in_arm 1 far_list) = List.length (in_arm 0 far_list) /\
    analyze_single_metric cauchy argsort_ref arm_of (case_table far_list) true pretest_design "clicks" None None = Ok r /\
    yuens_t_test_ind cauchy argsort_ref (data (map i_test (in_arm 1 far_list))) (data (map i_test (in_arm 0 far_list))) f0 None None false
      "two-sided" default_alpha = Ok r0 /\
    r_standard_error r = Fin s /\ r_standard_error r0 = Fin s0 /\ s0 < s.
Proof.
  assert (AR : forall x, In x far_list -> i_arm x = Some 0%Z \/ i_arm x = Some 1%Z) by in_list.
  assert (SX : sqdev (map i_pre far_list) = 101) by (unfold sqdev, avg, far_list; simpl; field).
  assert (CX : codev (map i_test far_list) (map i_pre far_list) = 99) by (unfold codev, avg, far_list; simpl; field).
  assert (SL : slope far_list = 99 / 101) by (unfold slope; rewrite SX, CX; reflexivity).
  assert (SX' : sqdev (map i_pre far_list) <> 0) by (rewrite SX; lra).
  assert (SZ : (1 <= List.length far_list)%nat /\ (Z.of_nat (List.length far_list) <= 2 ^ 53)%Z) by (split; [simpl; lia|vm_compute; discriminate]).
  destruct (case_runs far_list AR SX' SZ) as (r & H); [discriminate|discriminate| | |].
  { rewrite SL. unfold avg, far_list; simpl. lra. }
  { rewrite SL. unfold avg, far_list; simpl. lra. }
  assert (U2 : usable 2 f0) by (apply usable_0; [lia|vm_compute; discriminate]).
  destruct (positive_runs (map i_test (in_arm 1 far_list)) (map i_test (in_arm 0 far_list)) U2 U2) as (r0 & H0).
  { unfold avg; simpl; lra. } { unfold avg; simpl; lra. }
  assert (U := case_experiment far_list AR SX' SZ).
  destruct (c100_what_the_adjusted_analysis_computes _ _ _ _ _ _ _ _ r U H) as [_ ES].
  destruct (ES ltac:(cbn; lia) ltac:(cbn; lia)) as (s & E & P & Q).
  destruct (untrimmed_test _ _ _ _ _ r0 argsort_ref_sorts (arm_sample _ _ _ _ _ far_list _ U i_test 1%Z ltac:(discriminate)) (arm_sample _ _ _ _ _ far_list _ U i_test 0%Z ltac:(discriminate)) (proj2 f0_val) H0) as [_ ES0].
  destruct (ES0 ltac:(cbn; lia) ltac:(cbn; lia)) as (s0 & E0 & P0 & Q0).
  exists r, r0, s, s0. split; auto. split; [reflexivity|]. split; auto. split; auto. split; auto. split; auto.
  rewrite SL in Q.
  assert (Q1 : s ^ 2 = (1 + 99 / 101) ^ 2 / 2) by (rewrite Q; unfold error_of, around_line, codev, sqdev, avg; simpl; field).
  assert (Q2 : s0 ^ 2 = 1 / 2) by (rewrite Q0; unfold error_of, sqdev, avg; simpl; field).
  apply Rnot_le_lt. intros L. nra.
Qed.

(** the same pretest averages in arms of different sizes: the adjusted standard error may be larger *)
Theorem c100_balance_alone_gains_refuted :
  exists r r0 s s0,
    untrimmed_experiment arm_of argsort_ref (case_table unequal_list) pretest_design "clicks" unequal_list None /\
    avg (map i_pre (in_arm 1 unequal_list)) = avg (map i_pre (in_arm 0 unequal_list)) /\
    analyze_single_metric cauchy argsort_ref arm_of (case_table unequal_list) true pretest_design "clicks" None None = Ok r /\
    yuens_t_test_ind cauchy argsort_ref (data (map i_test (in_arm 1 unequal_list))) (data (map i_test (in_arm 0 unequal_list))) f0 None None false
      "two-sided" default_alpha = Ok r0 /\
    r_standard_error r = Fin s /\ r_standard_error r0 = Fin s0 /\ s0 < s.
Proof.
  assert (AR : forall x, In x unequal_list -> i_arm x = Some 0%Z \/ i_arm x = Some 1%Z) by in_list.
  assert (SX : sqdev (map i_pre unequal_list) = 6) by (unfold sqdev, avg, unequal_list; simpl; field).
  assert (CX : codev (map i_test unequal_list) (map i_pre unequal_list) = 4) by (unfold codev, avg, unequal_list; simpl; field).
  assert (SL : slope unequal_list = 4 / 6) by (unfold slope; rewrite SX, CX; reflexivity).
  assert (SX' : sqdev (map i_pre unequal_list) <> 0) by (rewrite SX; lra).
  assert (SZ : (1 <= List.length unequal_list)%nat /\ (Z.of_nat (List.length unequal_list) <= 2 ^ 53)%Z) by (split; [simpl; lia|vm_compute; discriminate]).
  destruct (case_runs unequal_list AR SX' SZ) as (r & H); [discriminate|discriminate| | |].
  { rewrite SL. unfold avg, unequal_list; simpl. lra. }
  { rewrite SL. unfold avg, unequal_list; simpl. lra. }
  assert (U2 : usable 2 f0) by (apply usable_0; [lia|vm_compute; discriminate]).
  assert (U4 : usable 4 f0) by (apply usable_0; [lia|vm_compute; discriminate]).
  destruct (positive_runs (map i_test (in_arm 1 unequal_list)) (map i_test (in_arm 0 unequal_list)) U2 U4) as (r0 & H0).
  { unfold avg; simpl; lra. } { unfold avg; simpl; lra. }
  assert (U := case_experiment unequal_list AR SX' SZ).
  destruct (c100_what_the_adjusted_analysis_computes _ _ _ _ _ _ _ _ r U H) as [_ ES].
  destruct (ES ltac:(cbn; lia) ltac:(cbn; lia)) as (s & E & P & Q).
  destruct (untrimmed_test _ _ _ _ _ r0 argsort_ref_sorts (arm_sample _ _ _ _ _ unequal_list _ U i_test 1%Z ltac:(discriminate)) (arm_sample _ _ _ _ _ unequal_list _ U i_test 0%Z ltac:(discriminate)) (proj2 f0_val) H0) as [_ ES0].
  destruct (ES0 ltac:(cbn; lia) ltac:(cbn; lia)) as (s0 & E0 & P0 & Q0).
  exists r, r0, s, s0. split; auto. split; [unfold avg; simpl; field|]. split; auto. split; auto. split; auto. split; auto.
  rewrite SL in Q.
  assert (Q1 : s ^ 2 = 13 / 27) by (rewrite Q; unfold error_of, around_line, codev, sqdev, avg; simpl; field).
  assert (Q2 : s0 ^ 2 = 1 / 3) by (rewrite Q0; unfold error_of, sqdev, avg; simpl; field).
  apply Rnot_le_lt. intros L. nra.
Qed.

(** a case of the gain: the standard error falls from sqrt 5 to sqrt (1/2) *)
Example c100_example : exists r r0 s s0,
  untrimmed_experiment arm_of argsort_ref (case_table gain_list) pretest_design "clicks" gain_list None /\
  analyze_single_metric cauchy argsort_ref arm_of (case_table gain_list) true pretest_design "clicks" None None = Ok r /\
  yuens_t_test_ind cauchy argsort_ref (data (map i_test (in_arm 1 gain_list))) (data (map i_test (in_arm 0 gain_list))) f0 None None false
      "two-sided" default_alpha = Ok r0 /\
  avg (map i_pre (in_arm 1 gain_list)) = avg (map i_pre (in_arm 0 gain_list)) /\
  r_abs r = Fin 4 /\ r_abs r0 = Fin 4 /\ r_standard_error r = Fin s /\ r_standard_error r0 = Fin s0 /\ s < s0.
Proof.
  assert (AR : forall x, In x gain_list -> i_arm x = Some 0%Z \/ i_arm x = Some 1%Z) by in_list.
  assert (SX : sqdev (map i_pre gain_list) = 4) by (unfold sqdev, avg, gain_list; simpl; field).
  assert (CX : codev (map i_test gain_list) (map i_pre gain_list) = 6) by (unfold codev, avg, gain_list; simpl; field).
  assert (SL : slope gain_list = 6 / 4) by (unfold slope; rewrite SX, CX; reflexivity).
  assert (SX' : sqdev (map i_pre gain_list) <> 0) by (rewrite SX; lra).
  assert (SZ : (1 <= List.length gain_list)%nat /\ (Z.of_nat (List.length gain_list) <= 2 ^ 53)%Z) by (split; [simpl; lia|vm_compute; discriminate]).
  destruct (case_runs gain_list AR SX' SZ) as (r & H); [discriminate|discriminate| | |].
  { rewrite SL. unfold avg, gain_list; simpl. lra. }
  { rewrite SL. unfold avg, gain_list; simpl. lra. }
  assert (U2 : usable 2 f0) by (apply usable_0; [lia|vm_compute; discriminate]).
  destruct (positive_runs (map i_test (in_arm 1 gain_list)) (map i_test (in_arm 0 gain_list)) U2 U2) as (r0 & H0).
  { unfold avg; simpl; lra. } { unfold avg; simpl; lra. }
  assert (U := case_experiment gain_list AR SX' SZ).
  assert (B : avg (map i_pre (in_arm 1 gain_list)) = avg (map i_pre (in_arm 0 gain_list))) by (unfold avg; simpl; field).
  destruct (c100_what_the_adjusted_analysis_computes _ _ _ _ _ _ _ _ r U H) as [EA _].
  destruct (c100_balanced_arms_gain _ _ _ _ _ _ _ _ r r0 2%nat U H H0 B) as (EE & G).
  destruct (G eq_refl eq_refl ltac:(lia)) as (s & s0 & E & E0 & L & I).
  exists r, r0, s, s0. split; auto. split; auto. split; auto. split; auto.
  assert (R4 : r_abs r = Fin 4) by (rewrite EA, SL; f_equal; unfold gap, avg; simpl; field).
  split; auto. split; [congruence|]. split; auto. split; auto.
  destruct L as [_ [L|L]]; auto. apply I in L. lra.
Qed.

Print Assumptions c100_what_the_adjusted_analysis_computes.
Print Assumptions c100_balanced_arms_gain.
Print Assumptions c100_adjusted_error_never_larger_refuted.
Print Assumptions c100_balance_alone_gains_refuted.
