(** C51-C54, C59: the two t-tests. *)
From Coq Require Import ZArith Reals Lra Lia List String Bool Permutation Sorting.Sorted.
From Flocq Require Import Core BinarySingleNaN.
Require Import Verif.Base Verif.Num Verif.NumOrd Verif.F64 Verif.ListLib
  Verif.Trimmed_Model Verif.Trimmed_Spec Verif.Moments Verif.Trimmed_Proofs Verif.Trimmed_Real Verif.Trimmed_Props
  Verif.Cuped_Props Verif.Stats_Model Verif.Stats_Num Verif.Stats_Props Verif.Tests_Proofs.
Import ListNotations.
Open Scope string_scope.
Open Scope list_scope.
Open Scope R_scope.

(** a finite sample, of a size that float arithmetic represents exactly *)
Definition sample (xs : list R) : Prop := xs <> [] /\ (Z.of_nat (List.length xs) <= 2 ^ 53)%Z.
Definition data (xs : list R) : list num := map Fin xs.
Definition odata (d : option (list R)) : option (list num) := option_map data d.

Lemma sample_array xs rows : sample xs -> (forall r, In r rows -> List.length r = List.length xs) -> rows <> [] ->
  array (List.length xs) (fins rows).
Proof.
  intros [N B] H NR. split. { unfold fins. intros E. now apply map_eq_nil in E. }
  split. { intros r Hr. unfold fins in Hr. apply in_map_iff in Hr as (r' & <- & Hr). rewrite map_length. auto. }
  split; auto. destruct xs; [congruence|simpl; lia].
Qed.

Lemma nth_of {A B} (f : A -> B) l i x d : nth_error l i = Some x -> nth i (map f l) d = f x.
Proof. intros H. apply nth_error_nth. now rewrite nth_error_map, H. Qed.

Section Real.
Context (argsort : list num -> list nat) (HS : sorts argsort).

Lemma rows_finite q xs rows t : sample xs -> (forall r, In r rows -> List.length r = List.length xs) -> rows <> [] ->
  mk_trimmed argsort (fins rows) q = Ok t -> finite_trimmed t rows (List.length xs) (t_k t).
Proof. intros S H N E. eapply trimmed_finite; eauto. now apply sample_array. Qed.

(** numerator of a covariance, and the divisor *)
Definition cc (t : tarray) (rows : list (list R)) (r s : list R) : R :=
  codev (rtake (widx argsort t rows (t_k t)) r) (rtake (widx argsort t rows (t_k t)) s).

Lemma cov_entry t rows n i j r s : finite_trimmed t rows n (t_k t) ->
  nth_error rows i = Some r -> nth_error rows j = Some s ->
  mat (t_cov argsort t 1) i j = ndiv (Fin (cc t rows r s)) (Fin (IZR (Z.of_nat (t_len argsort t) - 1))).
Proof.
  intros FT Hi Hj. rewrite (cov_matrix argsort HS t rows n (t_k t) FT), (len_real argsort HS t rows n (t_k t) FT).
  unfold mat, vec.
  rewrite (nth_of _ _ _ _ _ Hi). rewrite (nth_of _ _ _ _ _ Hj). reflexivity.
Qed.

Lemma mean_entry t rows n i r : finite_trimmed t rows n (t_k t) -> nth_error rows i = Some r ->
  vec (t_mean argsort t) i = Fin (avg (rtake (t_kept argsort t) r)).
Proof.
  intros FT Hi. rewrite (mean_real argsort HS t rows n (t_k t) FT). unfold vec.
  rewrite (nth_of _ _ _ _ _ Hi). reflexivity.
Qed.

Lemma var_entry t rows n i r : finite_trimmed t rows n (t_k t) -> nth_error rows i = Some r ->
  vec (t_var argsort t 1) i = ndiv (Fin (cc t rows r r)) (Fin (IZR (Z.of_nat (t_len argsort t) - 1))).
Proof.
  intros FT Hi. rewrite (var_real argsort HS t rows n (t_k t) FT), (len_real argsort HS t rows n (t_k t) FT). unfold vec.
  rewrite (nth_of _ _ _ _ _ Hi). reflexivity.
Qed.

Lemma len_pos t rows n : finite_trimmed t rows n (t_k t) -> (1 <= t_len argsort t)%nat.
Proof. intros FT. rewrite (len_real argsort HS t rows n (t_k t) FT). destruct FT; lia. Qed.

Lemma len_two t rows n x s : finite_trimmed t rows n (t_k t) ->
  ndiv x (Fin (IZR (Z.of_nat (t_len argsort t) - 1))) = Fin s -> (2 <= t_len argsort t)%nat.
Proof.
  intros FT E. apply ndiv_is_fin in E as (a & _ & D & _). assert (L := len_pos t rows n FT).
  destruct (Nat.eq_dec (t_len argsort t) 1) as [K|K]; [|lia]. exfalso. apply D. rewrite K. reflexivity.
Qed.

(** statistics of the first row, from its order statistics *)
Lemma first_row t rows n s : finite_trimmed t rows n (t_k t) -> sorted_as (hd [] rows) s ->
  avg (rtake (t_kept argsort t) (hd [] rows)) = tmean (t_k t) s /\
  cc t rows (hd [] rows) (hd [] rows) = tdev (t_k t) (hd [] rows) s.
Proof.
  intros FT [P SS]. split.
  - apply avg_perm. exact (kept_middle argsort HS t rows n (t_k t) FT s P SS).
  - unfold cc. rewrite codev_self. unfold tdev. apply sqdev_perm.
    rewrite (r0_length t rows n (t_k t) FT). exact (widx_clip argsort HS t rows n (t_k t) FT s P SS).
Qed.
End Real.

(** *** C51 *)

Lemma ratio_fin m1 m2 v1 v2 c a : snd (ratio_mean_and_variance m1 m2 v1 v2 c) = Fin a ->
  exists m, fst (ratio_mean_and_variance m1 m2 v1 v2 c) = Fin m.
Proof.
  unfold ratio_mean_and_variance. cbn [fst snd]. intros H. destruct (ndiv m1 m2) eqn:E; eauto; exfalso;
    revert H; apply notfin_nmul_l; intros ?; discriminate.
Qed.
Lemma ratio_var1 m1 m2 v1 v2 c a b : snd (ratio_mean_and_variance (Fin m1) m2 v1 v2 c) = Fin a ->
  (v1 = Fin b -> False) \/ True -> notfin v1 -> False.
Proof.
  intros H _ N. revert H. unfold ratio_mean_and_variance. cbn [snd].
  apply notfin_nmul_r, notfin_nsub_l, notfin_nadd_l. apply (notfin_ndiv_l v1 (m1 * m1)). exact N.
Qed.

Lemma stack_ok rows r : np_stack rows = Ok r ->
  r = rows /\ forall x, In x rows -> List.length x = List.length (hd [] rows).
Proof.
  unfold np_stack. intros H. apply bind_ok in H as (u & H1 & H). apply raise_if_ok in H1.
  apply Bool.negb_false_iff in H1. split; [congruence|]. intros x Hx. rewrite forallb_forall in H1.
  apply H1 in Hx. now apply Nat.eqb_eq in Hx.
Qed.

Theorem c51_significant_iff_interval_excludes_zero :
  forall T argsort xs ys d1 d2 q equal_var alternative alpha r s,
    sorts argsort -> sample xs -> sample ys ->
    yuens_t_test_ind T argsort (data xs) (data ys) q (odata d1) (odata d2) equal_var alternative alpha = Ok r ->
    r_standard_error r = Fin s -> 0 < s -> 0 < alpha < 1 ->
    consistent alternative alpha r.
Proof.
  intros T argsort xs ys d1 d2 q ev alternative alpha r s HS Sx Sy H ES Ps Ha.
  unfold yuens_t_test_ind in H.
  assert (ONE : forall zs t, sample zs -> mk_trimmed argsort [data zs] q = Ok t ->
    forall a, vec (t_var argsort t 1) 0 = Fin a -> (2 <= t_len argsort t)%nat /\ exists m, vec (t_mean argsort t) 0 = Fin m).
  { intros zs t Sz Ht a E.
    assert (FT : finite_trimmed t [zs] (List.length zs) (t_k t)).
    { eapply (rows_finite argsort HS q); eauto; [|discriminate]. intros r0 [<-|[]]; auto. }
    split; [|rewrite (mean_entry argsort HS t [zs] _ 0 zs FT eq_refl); eauto].
    rewrite (var_entry argsort HS t [zs] _ 0 zs FT eq_refl) in E. eapply (len_two argsort HS); eauto. }
  assert (TWO : forall zs ds t st, sample zs -> np_stack [data zs; data ds] = Ok st -> mk_trimmed argsort st q = Ok t ->
    let m := t_mean argsort t in let c := t_cov argsort t 1 in
    let rr := ratio_mean_and_variance (vec m 0) (vec m 1) (mat c 0 0) (mat c 1 1) (mat c 0 1) in
    forall a, snd rr = Fin a -> (2 <= t_len argsort t)%nat /\ exists m, fst rr = Fin m).
  { intros zs ds t st Sz Hst Ht m c rr a E. apply stack_ok in Hst as [-> HL].
    assert (FT : finite_trimmed t [zs; ds] (List.length zs) (t_k t)).
    { eapply (rows_finite argsort HS q); eauto; [|discriminate]. intros r0 [<-|[<-|[]]]; auto.
      specialize (HL (data ds) ltac:(right; now left)). unfold data in HL. cbn [hd] in HL. now rewrite !map_length in HL. }
    split; [|eapply ratio_fin; eauto].
    unfold rr, m, c in E. rewrite (mean_entry argsort HS t [zs; ds] _ 0 zs FT eq_refl) in E.
    rewrite (cov_entry argsort HS t [zs; ds] _ 0 0 zs zs FT eq_refl eq_refl) in E.
    destruct (ndiv (Fin (cc argsort t [zs; ds] zs zs)) (Fin (IZR (Z.of_nat (t_len argsort t) - 1)))) eqn:EV;
      try (exfalso; eapply (ratio_var1 _ _ _ _ _ _ 0); eauto; intros ?; discriminate).
    eapply (len_two argsort HS); eauto. }
  destruct d1 as [d1|], d2 as [d2|]; cbn [odata option_map ratio_arguments bind] in H; try discriminate.
  - apply bind_ok in H as (s1 & H1 & H). apply bind_ok in H as (s2 & H2 & H).
    apply bind_ok in H as (t1 & Ht1 & H). apply bind_ok in H as (t2 & Ht2 & H).
    eapply (finish_ind_consistent T); eauto.
  - apply bind_ok in H as (t1 & Ht1 & H). apply bind_ok in H as (t2 & Ht2 & H).
    eapply (finish_ind_consistent T); eauto.
Qed.

(** the estimate, standard error, sample size and degrees of freedom of the plain test, from the
    order statistics of the two samples: h samples left after trimming k on each side *)
Theorem c51_what_the_test_computes :
  forall T argsort xs ys q equal_var alternative alpha r sx sy,
    sorts argsort -> sample xs -> sample ys -> sorted_as xs sx -> sorted_as ys sy ->
    yuens_t_test_ind T argsort (data xs) (data ys) q None None equal_var alternative alpha = Ok r ->
    exists k1 k2, Z.of_nat k1 = trim_each (List.length xs) q /\ Z.of_nat k2 = trim_each (List.length ys) q /\
    let h1 := (List.length xs - 2 * k1)%nat in
    let h2 := (List.length ys - 2 * k2)%nat in
    let v1 := tdev k1 xs sx / (INR h1 - 1) in
    let v2 := tdev k2 ys sy / (INR h2 - 1) in
    (1 <= h1)%nat /\ (1 <= h2)%nat /\
    r_abs r = Fin (tmean k1 sx - tmean k2 sy) /\ r_control_average r = Fin (tmean k2 sy) /\
    r_sample_size r = (h1 + h2)%nat /\
    ((2 <= h1)%nat -> (2 <= h2)%nat ->
      exists s, r_standard_error r = Fin s /\ 0 <= s /\
      if equal_var then
        s ^ 2 = (tdev k1 xs sx + tdev k2 ys sy) / (INR h1 + INR h2 - 2) * (/ INR h1 + / INR h2) /\
        r_df r = Fin (INR h1 + INR h2 - 2)
      else
        s ^ 2 = v1 / INR h1 + v2 / INR h2 /\
        (0 < s -> r_df r = Fin (s ^ 4 / ((v1 / INR h1) ^ 2 / (INR h1 - 1) + (v2 / INR h2) ^ 2 / (INR h2 - 1))))).
Proof.
  intros T argsort xs ys q ev alternative alpha r sx sy HS Sx Sy Px Py H.
  unfold yuens_t_test_ind in H. cbn [ratio_arguments bind] in H.
  apply bind_ok in H as (t1 & Ht1 & H). apply bind_ok in H as (t2 & Ht2 & H).
  assert (ONE : forall zs sz t, sample zs -> sorted_as zs sz -> mk_trimmed argsort [data zs] q = Ok t ->
    finite_trimmed t [zs] (List.length zs) (t_k t) /\ Z.of_nat (t_k t) = trim_each (List.length zs) q /\
    vec (t_mean argsort t) 0 = Fin (tmean (t_k t) sz) /\ t_len argsort t = (List.length zs - 2 * t_k t)%nat /\
    vec (t_var argsort t 1) 0 = ndiv (Fin (tdev (t_k t) zs sz)) (Fin (IZR (Z.of_nat (List.length zs - 2 * t_k t) - 1)))).
  { intros zs sz t Sz Pz Ht.
    assert (FT : finite_trimmed t [zs] (List.length zs) (t_k t)).
    { eapply (rows_finite argsort HS q); eauto; [|discriminate]. intros r0 [<-|[]]; auto. }
    assert (FR := first_row argsort HS t [zs] _ sz FT Pz). cbn [hd] in FR. destruct FR as [F1 F2].
    assert (LN := len_real argsort HS t [zs] _ (t_k t) FT).
    split; auto. split.
    { assert (A : array (List.length zs) (fins [zs])) by (apply sample_array; auto; [intros r0 [<-|[]]; auto|discriminate]).
      now destruct (c43_trims_floor_of_quantile_times_n argsort _ q _ t HS A Ht) as (E & _). }
    rewrite (mean_entry argsort HS t [zs] _ 0 zs FT eq_refl), (var_entry argsort HS t [zs] _ 0 zs FT eq_refl), F1, F2, LN.
    auto. }
  destruct (ONE xs sx t1 Sx Px Ht1) as (FT1 & K1 & M1 & L1 & V1).
  destruct (ONE ys sy t2 Sy Py Ht2) as (FT2 & K2 & M2 & L2 & V2). clear ONE.
  exists (t_k t1), (t_k t2). split; auto. split; auto. intros h1 h2 v1 v2.
  assert (H1 : (1 <= h1)%nat) by (unfold h1; destruct FT1; lia).
  assert (H2 : (1 <= h2)%nat) by (unfold h2; destruct FT2; lia).
  split; auto. split; auto.
  fold h1 in L1, V1. fold h2 in L2, V2. rewrite M1, M2, V1, V2, L1, L2 in H.
  apply finish_ind_ok in H as (se & e1 & e2 & ES & F). destruct F.
  split; [now rewrite fi_abs|]. split; [exact fi_control|]. split; [exact fi_n|].
  intros G1 G2.
  assert (R1 : 1 < INR h1) by (apply (lt_INR 1); lia). assert (R2 : 1 < INR h2) by (apply (lt_INR 1); lia).
  assert (I1 : IZR (Z.of_nat h1 - 1) = INR h1 - 1) by (rewrite minus_IZR, <- INR_IZR_INZ; reflexivity).
  assert (I2 : IZR (Z.of_nat h2 - 1) = INR h2 - 1) by (rewrite minus_IZR, <- INR_IZR_INZ; reflexivity).
  rewrite I1, I2 in ES, fi_df. rewrite !ndiv_fin in ES by lra. rewrite !(ndiv_fin (tdev _ _ _)) in fi_df by lra. fold v1 v2 in ES, fi_df.
  assert (TD : forall k zs sz, 0 <= tdev k zs sz) by (intros; unfold tdev; apply sqdev_nonneg).
  assert (P1 : 0 <= v1) by (apply Rmult_le_pos; [apply TD|apply Rlt_le, Rinv_0_lt_compat; lra]).
  assert (P2 : 0 <= v2) by (apply Rmult_le_pos; [apply TD|apply Rlt_le, Rinv_0_lt_compat; lra]).
  rewrite !nsqrt_fin in ES, fi_df by auto.
  destruct (c55_standard_errors (sqrt v1) (sqrt v2) (INR h1) (INR h2) ev R1 R2 (sqrt_pos _) (sqrt_pos _))
    as (s & a1 & a2 & E & Q0 & Q1 & Q2 & QS & QV).
  fold (nnat h1) (nnat h2) in E. rewrite E in ES.
  assert (X : se = Fin s) by congruence. clear ES. rewrite X in fi_se.
  exists s. split; [exact fi_se|]. split; [exact Q0|].
  destruct ev; cbv zeta in QV; rewrite !pow2_sqrt in QV by auto; destruct QV as [W1 W2].
  - split; [|rewrite fi_df; reflexivity]. rewrite QS, W1, W2. unfold v1, v2. field. lra.
  - split; [now rewrite QS, W1, W2|]. intros Ps. rewrite fi_df. unfold two_sample_degrees_of_freedom, nsq, nnat.
    cbn [nmul]. rewrite !sqrt_sqrt, !ndiv_fin by lra. cbn [nadd nmul nsub nneg].
    rewrite (ndiv_fin _ (INR h1 + - (1))), (ndiv_fin _ (INR h2 + - (1))) by lra. cbn [nadd].
    rewrite ndiv_fin.
    + f_equal. replace (s ^ 4) with (s ^ 2 * s ^ 2) by ring. rewrite QS, W1, W2. f_equal. f_equal; field; lra.
    + set (a := v1 / INR h1) in *. set (b := v2 / INR h2) in *.
      assert (Pa : 0 <= a) by (apply Rmult_le_pos; auto; apply Rlt_le, Rinv_0_lt_compat; lra).
      assert (Pb : 0 <= b) by (apply Rmult_le_pos; auto; apply Rlt_le, Rinv_0_lt_compat; lra).
      assert (AB : 0 < a + b) by (rewrite <- W1, <- W2, <- QS; nra).
      assert (W := welch_bounds a b (INR h1 - 1) (INR h2 - 1) Pa Pb AB ltac:(lra) ltac:(lra)).
      assert (0 < Rmin (INR h1 - 1) (INR h2 - 1)) by (apply Rmin_glb_lt; lra).
      intros Z. change (INR h1 + - (1)) with (INR h1 - 1) in Z. change (INR h2 + - (1)) with (INR h2 - 1) in Z.
      rewrite Z in W. unfold Rdiv in W. rewrite Rinv_0 in W. lra.
Qed.

(** *** C52 *)

Lemma nan_nadd x y : nadd x y <> NaN -> x <> NaN /\ y <> NaN.
Proof. destruct x, y; simpl; split; congruence. Qed.
Lemma nan_nsub x y : nsub x y <> NaN -> x <> NaN /\ y <> NaN.
Proof. destruct x, y; simpl; split; congruence. Qed.
Lemma nan_nmul x y : nmul x y <> NaN -> x <> NaN /\ y <> NaN.
Proof. destruct x, y; simpl; split; congruence. Qed.
Lemma nan_ndiv x y : ndiv x y <> NaN -> x <> NaN /\ y <> NaN.
Proof. destruct x, y; simpl; split; congruence. Qed.
Lemma nan_nsqrt x : nsqrt x <> NaN -> x = PInf \/ exists v, x = Fin v /\ 0 <= v.
Proof.
  destruct x; simpl; auto; try congruence. case Rlt_bool_spec; [congruence|]. intros H _. right. eauto.
Qed.

Lemma ci_not_nan T m1 m2 e1 e2 corr df alternative alpha lo hi :
  absolute_difference_confidence_interval T m1 m2 e1 e2 corr df alternative alpha = Ok (lo, hi) ->
  lo <> NaN -> hi <> NaN ->
  nsub (nadd (nmul e1 e1) (nmul e2 e2)) (nmul (Fin 2) (nmul (nmul e1 e2) corr)) <> NaN.
Proof.
  unfold absolute_difference_confidence_interval, nsq. intros H NL NH E. rewrite E in H. cbn [nsqrt] in H.
  assert (MN : forall x, nmul x NaN = NaN) by (destruct x; reflexivity).
  assert (SN : forall x, nsub x NaN = NaN) by (destruct x; reflexivity).
  assert (AN : forall x, nadd x NaN = NaN) by (destruct x; reflexivity).
  rewrite !MN, !SN, !AN in H.
  destruct (alternative =? "two-sided"); [congruence|]. destruct (alternative =? "greater"); [congruence|].
  destruct (alternative =? "less"); congruence.
Qed.

Definition minus (xs ys : list R) : list R := map (fun p => fst p - snd p) (combine xs ys).
Lemma differences_data xs ys : differences (data xs) (data ys) = data (minus xs ys).
Proof.
  unfold differences, minus, data. revert ys. induction xs as [|x xs IH]; intros [|y ys]; simpl; auto. now rewrite IH.
Qed.
Lemma minus_length xs ys : List.length xs = List.length ys -> List.length (minus xs ys) = List.length xs.
Proof. intros H. unfold minus. rewrite map_length, combine_length. lia. Qed.
Lemma minus_nth xs ys i : List.length xs = List.length ys -> (i < List.length xs)%nat ->
  nth i (minus xs ys) 0 = 1 * nth i xs 0 + (-1) * nth i ys 0.
Proof.
  intros L H. unfold minus.
  rewrite nth_indep with (d' := (fun p => fst p - snd p) (0, 0)) by (rewrite map_length, combine_length; lia).
  rewrite (map_nth (fun p => fst p - snd p)). rewrite combine_nth by auto. cbn [fst snd]. ring.
Qed.

Section Paired.
Context (argsort : list num -> list nat) (HS : sorts argsort).

Lemma minus_av xs ys idx : List.length xs = List.length ys -> idx <> [] -> (forall i, In i idx -> (i < List.length xs)%nat) ->
  avg (rtake idx (minus xs ys)) = avg (rtake idx xs) - avg (rtake idx ys) /\
  codev (rtake idx (minus xs ys)) (rtake idx (minus xs ys)) =
    codev (rtake idx xs) (rtake idx xs) + codev (rtake idx ys) (rtake idx ys) - 2 * codev (rtake idx xs) (rtake idx ys).
Proof.
  intros L N H.
  assert (E : rtake idx (minus xs ys) = map (fun i => 1 * nth i xs 0 + (-1) * nth i ys 0) idx).
  { unfold rtake. apply map_ext_in. intros i Hi. apply minus_nth; auto. }
  rewrite E. split.
  - assert (K := Av_lin idx 1 (-1) (fun i => nth i xs 0) (fun i => nth i ys 0)). unfold Av in K. rewrite K by auto.
    unfold rtake. ring.
  - assert (K := Cv_lin2 idx 1 (-1) (fun i => nth i xs 0) (fun i => nth i ys 0)). unfold Cv in K. rewrite K by auto.
    unfold rtake. ring.
Qed.

Lemma paired_plain T xs ys q alternative alpha r :
  sample xs -> yuens_t_test_paired T argsort (data xs) (data ys) q None None alternative alpha = Ok r ->
  List.length xs = List.length ys /\
  exists t, let rows := [minus xs ys; xs; ys] in
    mk_trimmed argsort (fins rows) q = Ok t /\ finite_trimmed t rows (List.length xs) (t_k t) /\
    let D := Fin (IZR (Z.of_nat (t_len argsort t) - 1)) in
    let n := nnat (t_len argsort t) in
    let v := fun a b => ndiv (Fin (cc argsort t rows a b)) D in
    let m := fun a => avg (rtake (t_kept argsort t) a) in
    let se := fun a => one_sample_standard_error (nsqrt (v a a)) n in
    m (minus xs ys) = m xs - m ys /\
    cc argsort t rows (minus xs ys) (minus xs ys) = cc argsort t rows xs xs + cc argsort t rows ys ys - 2 * cc argsort t rows xs ys /\
    finished T np_div (Fin (m xs - m ys)) (se (minus xs ys)) (Fin (m xs)) (Fin (m ys)) (se xs) (se ys)
      (ndiv (v xs ys) (nsqrt (nmul (v xs xs) (v ys ys)))) (one_sample_degrees_of_freedom n) (t_len argsort t)
      alternative alpha r.
Proof.
  intros Sx H. unfold yuens_t_test_paired in H. apply bind_ok in H as (u & H0 & H). apply raise_if_ok in H0.
  apply Bool.negb_false_iff, Nat.eqb_eq in H0. unfold data in H0. rewrite !map_length in H0.
  split; auto. cbn [ratio_arguments bind] in H. apply bind_ok in H as (st & Hst & H). apply stack_ok in Hst as [-> _].
  rewrite differences_data in H. apply bind_ok in H as (t & Ht & H). exists t. intros rows. split; [exact Ht|].
  assert (HR : forall x, In x rows -> List.length x = List.length xs).
  { intros x [<-|[<-|[<-|[]]]]; auto. now apply minus_length. }
  assert (FT : finite_trimmed t rows (List.length xs) (t_k t)) by (eapply (rows_finite argsort HS q); eauto; discriminate).
  split; auto. intros D n v m se.
  assert (EV : forall i a, nth_error rows i = Some a -> vec (t_std argsort t 1) i = nsqrt (v a a)).
  { intros i a Hi. unfold v, D. rewrite <- (var_entry argsort HS t rows _ i a FT Hi). unfold t_std, vec.
    assert (LV : (i < List.length (t_var argsort t 1))%nat).
    { unfold t_var. rewrite map_length, seq_length, (ft_rows _ _ _ _ FT). unfold fins. rewrite map_length. apply nth_error_Some. congruence. }
    rewrite nth_indep with (d' := nsqrt NaN) by (now rewrite map_length). now rewrite map_nth. }
  assert (ESE : forall i a, nth_error rows i = Some a -> vec (map (fun sd => one_sample_standard_error sd n) (t_std argsort t 1)) i = se a).
  { intros i a Hi. unfold se. rewrite <- (EV i a Hi). unfold vec.
    assert (LV : (i < List.length (t_std argsort t 1))%nat).
    { unfold t_std, t_var. rewrite !map_length, seq_length, (ft_rows _ _ _ _ FT). unfold fins. rewrite map_length. apply nth_error_Some. congruence. }
    rewrite nth_indep with (d' := (fun sd => one_sample_standard_error sd n) NaN) by (now rewrite map_length).
    now rewrite (map_nth (fun sd => one_sample_standard_error sd n)). }
  assert (KN : t_kept argsort t <> []) by (apply (kept_nonempty argsort HS t rows _ _ FT)).
  assert (KB : forall i, In i (t_kept argsort t) -> (i < List.length xs)%nat) by (intros; eapply (kept_bound argsort HS t rows); eauto).
  assert (WN : widx argsort t rows (t_k t) <> []) by (apply (widx_nonempty argsort HS t rows _ _ FT)).
  assert (WB : forall i, In i (widx argsort t rows (t_k t)) -> (i < List.length xs)%nat).
  { intros i Hi. apply KB. now apply (widx_kept argsort HS t rows _ _ FT) in Hi. }
  assert (A1 := minus_av xs ys (t_kept argsort t) H0 KN KB). assert (A2 := minus_av xs ys (widx argsort t rows (t_k t)) H0 WN WB).
  split; [exact (proj1 A1)|]. split; [exact (proj2 A2)|].
  apply finish_test_ok in H. revert H. unfold n in ESE. 
  rewrite !(mean_entry argsort HS t rows _ 0 (minus xs ys) FT eq_refl), (mean_entry argsort HS t rows _ 1 xs FT eq_refl),
    (mean_entry argsort HS t rows _ 2 ys FT eq_refl).
  rewrite (ESE 0%nat (minus xs ys) eq_refl), (ESE 1%nat xs eq_refl), (ESE 2%nat ys eq_refl).
  rewrite (cov_entry argsort HS t rows _ 1 2 xs ys FT eq_refl eq_refl), (cov_entry argsort HS t rows _ 1 1 xs xs FT eq_refl eq_refl),
    (cov_entry argsort HS t rows _ 2 2 ys ys FT eq_refl eq_refl).
  rewrite (proj1 A1). intros H. exact H.
Qed.

Lemma se_fin_len t rows n c s : finite_trimmed t rows n (t_k t) -> 
  one_sample_standard_error (nsqrt (ndiv (Fin c) (Fin (IZR (Z.of_nat (t_len argsort t) - 1))))) (nnat (t_len argsort t)) = Fin s ->
  (2 <= t_len argsort t)%nat /\ 0 <= c / (INR (t_len argsort t) - 1) /\
  s = sqrt (c / (INR (t_len argsort t) - 1)) / sqrt (INR (t_len argsort t)).
Proof.
  intros FT H. assert (L := len_pos argsort HS t rows n FT).
  unfold one_sample_standard_error, nnat in H. rewrite nsqrt_fin in H by apply pos_INR.
  apply ndiv_is_fin in H as (a & E & _ & ->). apply nsqrt_is_fin in E as (v & E & Pv & ->).
  assert (L2 := len_two argsort HS t rows n _ _ FT E).
  assert (I : IZR (Z.of_nat (t_len argsort t) - 1) = INR (t_len argsort t) - 1) by (rewrite minus_IZR, <- INR_IZR_INZ; reflexivity).
  rewrite I in E. assert (1 < INR (t_len argsort t)) by (apply (lt_INR 1); lia).
  rewrite ndiv_fin in E by lra. assert (v = c / (INR (t_len argsort t) - 1)) by congruence. subst v. auto.
Qed.

(** the plain paired test on non-degenerate data *)
Lemma paired_plain_core T xs ys q alternative alpha r s :
  sample xs -> yuens_t_test_paired T argsort (data xs) (data ys) q None None alternative alpha = Ok r ->
  r_standard_error r = Fin s ->
  r_abs_lower r <> NaN /\ r_abs_upper r <> NaN \/
  (forall t, mk_trimmed argsort (fins [minus xs ys; xs; ys]) q = Ok t ->
    cc argsort t [minus xs ys; xs; ys] xs xs * cc argsort t [minus xs ys; xs; ys] ys ys <> 0) ->
  exists m1 m2 e1 e2 rho h, (2 <= h)%nat /\ 0 <= s /\ s * s = e1 * e1 + e2 * e2 - 2 * (e1 * e2 * rho) /\
    finished T np_div (Fin (m1 - m2)) (Fin s) (Fin m1) (Fin m2) (Fin e1) (Fin e2) (Fin rho) (Fin (INR h - 1)) h alternative alpha r.
Proof.
  intros Sx H ES NN. apply paired_plain in H as (L & t & Ht & FT & EM & EC & F); auto.
  set (rows := [minus xs ys; xs; ys]) in *.
  assert (FS := fi_se _ _ _ _ _ _ _ _ _ _ _ _ _ _ F). rewrite ES in FS. symmetry in FS. rewrite FS in F.
  destruct (se_fin_len t rows _ _ s FT FS) as (L2 & P0 & Es).
  set (h := t_len argsort t) in *.
  assert (Rh : 1 < INR h) by (apply (lt_INR 1); lia).
  assert (I : IZR (Z.of_nat h - 1) = INR h - 1) by (rewrite minus_IZR, <- INR_IZR_INZ; reflexivity).
  rewrite I in F. rewrite !(ndiv_fin _ (INR h - 1)) in F by lra.
  set (c0 := cc argsort t rows (minus xs ys) (minus xs ys)) in *. set (c1 := cc argsort t rows xs xs) in *.
  set (c2 := cc argsort t rows ys ys) in *. set (c12 := cc argsort t rows xs ys) in *.
  assert (Pc1 : 0 <= c1) by (unfold c1, cc; rewrite codev_self; apply sqdev_nonneg).
  assert (Pc2 : 0 <= c2) by (unfold c2, cc; rewrite codev_self; apply sqdev_nonneg).
  assert (CS : c12 ^ 2 <= c1 * c2).
  { unfold c12, c1, c2, cc. set (w := widx argsort t rows (t_k t)).
    exact (Cv_cauchy w (fun i => nth i xs 0) (fun i => nth i ys 0)). }
  assert (IP : 0 < / (INR h - 1)) by (apply Rinv_0_lt_compat; lra).
  assert (Pv1 : 0 <= c1 / (INR h - 1)) by (apply Rmult_le_pos; lra).
  assert (Pv2 : 0 <= c2 / (INR h - 1)) by (apply Rmult_le_pos; lra).
  unfold one_sample_standard_error, nnat, one_sample_degrees_of_freedom in F. cbn [nmul] in F.
  assert (SH : 0 < sqrt (INR h)) by (apply sqrt_lt_R0; lra).
  rewrite !nsqrt_fin in F by (auto; try lra; apply Rmult_le_pos; auto). rewrite !(ndiv_fin _ (sqrt (INR h))) in F by lra.
  rewrite nsub_fin in F.
  destruct (Req_dec (sqrt (c1 / (INR h - 1) * (c2 / (INR h - 1)))) 0) as [Z|Z].
  - exfalso. assert (C1C2 : c1 * c2 = 0).
    { assert (Q : c1 / (INR h - 1) * (c2 / (INR h - 1)) = 0) by (apply sqrt_eq_0; auto; now apply Rmult_le_pos).
      unfold Rdiv in Q. replace (c1 * / (INR h - 1) * (c2 * / (INR h - 1))) with (c1 * c2 * (/ (INR h - 1) * / (INR h - 1))) in Q by ring.
      apply Rmult_integral in Q as [Q|Q]; auto. nra. }
    destruct NN as [[NL NH]|NN]; [|now apply (NN t)].
    assert (C12 : c12 = 0) by (rewrite C1C2 in CS; nra).
    assert (CI := fi_ci _ _ _ _ _ _ _ _ _ _ _ _ _ _ F). apply ci_not_nan in CI; auto. apply CI.
    rewrite Z, C12. unfold Rdiv. rewrite Rmult_0_l. cbn [ndiv]. rewrite Req_bool_true by reflexivity. rewrite ninf_of_0. reflexivity.
  - rewrite ndiv_fin in F by auto.
    do 6 eexists. split; [exact L2|]. split; [rewrite Es; apply Rmult_le_pos; [apply sqrt_pos|apply Rlt_le, Rinv_0_lt_compat; lra]|].
    split; [|exact F].
    (* the two computations of the standard error agree *)
    rewrite Es. set (v1 := c1 / (INR h - 1)) in *. set (v2 := c2 / (INR h - 1)) in *.
    assert (EV : c0 / (INR h - 1) = v1 + v2 - 2 * (c12 / (INR h - 1))) by (unfold v1, v2; rewrite EC; field; lra).
    assert (Sq : sqrt (v1 * v2) = sqrt v1 * sqrt v2) by (now apply sqrt_mult).
    assert (N1 : sqrt v1 <> 0) by (intros E; apply Z; rewrite Sq, E; ring).
    assert (N2 : sqrt v2 <> 0) by (intros E; apply Z; rewrite Sq, E; ring).
    rewrite Sq.
    transitivity ((c0 / (INR h - 1)) / INR h).
    + transitivity ((sqrt (c0 / (INR h - 1)) * sqrt (c0 / (INR h - 1))) / (sqrt (INR h) * sqrt (INR h))); [field; lra|].
      rewrite !sqrt_sqrt by lra. reflexivity.
    + rewrite EV. symmetry.
      transitivity ((sqrt v1 * sqrt v1 + sqrt v2 * sqrt v2 - 2 * (c12 / (INR h - 1))) / (sqrt (INR h) * sqrt (INR h))).
      * field. repeat split; auto; lra.
      * rewrite !sqrt_sqrt by lra. reflexivity.
Qed.

Lemma zero_times_ninf x : nmul (Fin 0) (ninf_of x) = NaN.
Proof.
  unfold ninf_of. destruct (Rlt_bool 0 x); [|destruct (Rlt_bool x 0)]; simpl; auto; unfold ninf_of; rewrite Rlt_bool_false by lra;
    rewrite ?Rlt_bool_false by lra; reflexivity.
Qed.
Lemma ratio_corr V1 V2 dv h T d s m1 m2 df n alternative alpha r :
  1 < INR h -> 0 <= dv ->
  (forall a, V1 = Fin a -> exists m, m1 = Fin m) -> (forall a, V2 = Fin a -> exists m, m2 = Fin m) ->
  d = nsub m1 m2 -> s = sqrt dv / sqrt (INR h) ->
  finished T np_div d (Fin s) m1 m2 (one_sample_standard_error (nsqrt V1) (nnat h))
    (one_sample_standard_error (nsqrt V2) (nnat h))
    (ndiv (nsub (nadd V1 V2) (Fin dv)) (nmul (Fin 2) (nsqrt (nmul V1 V2)))) df n alternative alpha r ->
  r_abs_lower r <> NaN -> r_abs_upper r <> NaN ->
  exists a b e1 e2 rho, d = Fin (a - b) /\ s * s = e1 * e1 + e2 * e2 - 2 * (e1 * e2 * rho) /\
    finished T np_div (Fin (a - b)) (Fin s) (Fin a) (Fin b) (Fin e1) (Fin e2) (Fin rho) df n alternative alpha r.
Proof.
  intros Rh Pd M1 M2 Ed Es F NL NH.
  assert (CI := fi_ci _ _ _ _ _ _ _ _ _ _ _ _ _ _ F). apply ci_not_nan in CI; auto.
  apply nan_nsub in CI as [CA CB]. apply nan_nmul in CB as [_ CB]. assert (CB' := CB). apply nan_nmul in CB as [CB CC].
  apply nan_nmul in CB as [C1 C2].
  unfold one_sample_standard_error, nnat in *.
  assert (SH : 0 < sqrt (INR h)) by (apply sqrt_lt_R0; lra). rewrite nsqrt_fin in * by lra.
  assert (C1' := C1). assert (C2' := C2). apply nan_ndiv in C1' as [C1' _]. apply nan_ndiv in C2' as [C2' _].
  assert (GG : exists a b, V1 = Fin a /\ V2 = Fin b /\ 0 < a /\ 0 < b).
  { apply nan_nsqrt in C1'. apply nan_nsqrt in C2'.
    destruct C1' as [->|(a & -> & Pa)], C2' as [->|(b & -> & Pb)].
    - exfalso. apply CC. cbn [nadd nsub nneg nmul nsqrt]. rewrite ninf_of_pos by lra. reflexivity.
    - exfalso. apply CC. destruct Pb as [Pb|<-].
      + cbn [nadd nsub nneg nmul]. rewrite ninf_of_pos by lra. cbn [nsqrt nmul]. rewrite ninf_of_pos by lra. reflexivity.
      + cbn [nmul]. rewrite ninf_of_0. reflexivity.
    - exfalso. apply CC. destruct Pa as [Pa|<-].
      + cbn [nadd nsub nneg nmul]. rewrite ninf_of_pos by lra. cbn [nsqrt nmul]. rewrite ninf_of_pos by lra. reflexivity.
      + cbn [nmul]. rewrite ninf_of_0. reflexivity.
    - exists a, b. split; auto. split; auto.
      assert (Z : a * b = 0 -> False).
      { intros Z. apply CB'. rewrite !nsqrt_fin by auto. rewrite !ndiv_fin by lra. cbn [nmul nadd nsub nneg]. rewrite Z.
        rewrite nsqrt_fin by lra. rewrite sqrt_0, Rmult_0_r. cbn [ndiv]. rewrite Req_bool_true by reflexivity.
        assert (Y : sqrt a / sqrt (INR h) * (sqrt b / sqrt (INR h)) = 0).
        { transitivity (sqrt (a * b) / (sqrt (INR h) * sqrt (INR h))); [rewrite sqrt_mult by auto; field; lra|].
          rewrite Z, sqrt_0. unfold Rdiv. ring. }
        rewrite Y. apply zero_times_ninf. }
      destruct Pa as [Pa|<-]; [|exfalso; apply Z; ring]. destruct Pb as [Pb|<-]; [auto|exfalso; apply Z; ring]. }
  destruct GG as (a & b & -> & -> & Pa & Pb).
  destruct (M1 a eq_refl) as (u & ->). destruct (M2 b eq_refl) as (w & ->).
  rewrite nsub_fin in Ed. subst d. cbn [nadd nmul] in F. rewrite nsub_fin in F.
  assert (Sa : 0 < sqrt a) by (now apply sqrt_lt_R0). assert (Sb : 0 < sqrt b) by (now apply sqrt_lt_R0).
  assert (Pab : 0 < sqrt (a * b)) by (apply sqrt_lt_R0; nra).
  rewrite !nsqrt_fin in F by nra. cbn [nmul] in F. rewrite !ndiv_fin in F by lra.
  do 5 eexists. split; [reflexivity|]. split; [|exact F].
  rewrite sqrt_mult by lra. rewrite Es.
  transitivity ((sqrt dv * sqrt dv) / (sqrt (INR h) * sqrt (INR h))); [field; lra|]. rewrite (sqrt_sqrt dv) by auto.
  symmetry. transitivity ((sqrt a * sqrt a + sqrt b * sqrt b - (a + b - dv)) / (sqrt (INR h) * sqrt (INR h))).
  - field. lra.
  - rewrite !sqrt_sqrt by lra. field. lra.
Qed.

Lemma quad_notfin g0 g r0 M : notfin (vec r0 0) -> notfin (quadratic_form (g0 :: g) (r0 :: M)).
Proof.
  intros N. unfold quadratic_form. cbn [List.length seq map]. unfold ndot. cbn [combine map nsum].
  apply notfin_nadd_l. cbn [fst snd]. apply notfin_nmul_l, notfin_nadd_l, notfin_nmul_r, N.
Qed.

Lemma paired_ratio_core T xs ys d1 d2 q alternative alpha r s :
  sample xs -> yuens_t_test_paired T argsort (data xs) (data ys) q (Some (data d1)) (Some (data d2)) alternative alpha = Ok r ->
  r_standard_error r = Fin s -> r_abs_lower r <> NaN -> r_abs_upper r <> NaN ->
  exists m1 m2 e1 e2 rho h, (2 <= h)%nat /\ 0 <= s /\ s * s = e1 * e1 + e2 * e2 - 2 * (e1 * e2 * rho) /\
    finished T np_div (Fin (m1 - m2)) (Fin s) (Fin m1) (Fin m2) (Fin e1) (Fin e2) (Fin rho) (Fin (INR h - 1)) h alternative alpha r.
Proof.
  intros Sx H ES NL NH. unfold yuens_t_test_paired in H. apply bind_ok in H as (u & H0 & H). apply raise_if_ok in H0.
  apply Bool.negb_false_iff, Nat.eqb_eq in H0. unfold data in H0. rewrite !map_length in H0.
  cbn [ratio_arguments bind] in H. apply bind_ok in H as (st & Hst & H). apply stack_ok in Hst as [-> HL].
  rewrite differences_data in *. apply bind_ok in H as (t & Ht & H).
  set (rows := [minus xs ys; xs; d1; ys; d2]) in *.
  assert (HR : forall x, In x rows -> List.length x = List.length xs).
  { intros x Hx. assert (K : In (data x) (map data rows)) by (now apply in_map). apply HL in K. cbn [hd map rows] in K.
    unfold data in K. rewrite !map_length in K. rewrite K. now apply minus_length. }
  assert (FT : finite_trimmed t rows (List.length xs) (t_k t)) by (eapply (rows_finite argsort HS q); eauto; discriminate).
  assert (L1 := len_pos argsort HS t rows _ FT).
  assert (MT : forall i, vec (tl (t_mean argsort t)) i = vec (t_mean argsort t) (1 + i)).
  { intros i. unfold vec. destruct (t_mean argsort t); destruct i; reflexivity. }
  assert (CT : forall i j, mat (map (@tl num) (tl (t_cov argsort t 1))) i j = mat (t_cov argsort t 1) (1 + i) (1 + j)).
  { intros i j. unfold mat, vec. destruct (t_cov argsort t 1) as [|c0 cs]; [destruct i, j; reflexivity|].
    cbn [tl]. change (nth (1 + i) (c0 :: cs) []) with (nth i cs []).
    change (@nil num) with (tl (@nil num)) at 1. rewrite map_nth. destruct (nth i cs []); destruct j; reflexivity. }
  unfold difference_of_ratios in H. rewrite !MT, !CT in H.
  set (mean := t_mean argsort t) in *. set (cov := t_cov argsort t 1) in *.
  set (R1 := ratio_mean_and_variance (vec mean (1 + 0)) (vec mean (1 + 1)) (mat cov (1 + 0) (1 + 0)) (mat cov (1 + 1) (1 + 1)) (mat cov (1 + 0) (1 + 1))) in *.
  set (R2 := ratio_mean_and_variance (vec mean (1 + 2)) (vec mean (1 + 3)) (mat cov (1 + 2) (1 + 2)) (mat cov (1 + 3) (1 + 3)) (mat cov (1 + 2) (1 + 3))) in *.
  match type of H with finish_test _ _ _ (one_sample_standard_error (nsqrt ?X) _) _ _ _ _ _ _ _ _ _ = _ => set (DV := X) in * end.
  apply finish_test_ok in H.
  assert (FS := fi_se _ _ _ _ _ _ _ _ _ _ _ _ _ _ H). rewrite ES in FS. symmetry in FS. rewrite FS in H.
  unfold one_sample_standard_error at 1 in FS. unfold nnat in FS. rewrite nsqrt_fin in FS by apply pos_INR.
  apply ndiv_is_fin in FS as (sd & E & SN & Es). apply nsqrt_is_fin in E as (dv & E & Pv & ->).
  assert (Rh0 : 1 <= INR (t_len argsort t)) by (now apply (le_INR 1)).
  assert (L2 : (2 <= t_len argsort t)%nat).
  { (* the first variance enters the quadratic form *)
    assert (EC : exists v, mat cov 1 1 = Fin v).
    { destruct (mat cov 1 1) eqn:EC; [eauto| | |]; exfalso; revert E; unfold DV;
        (assert (ECM := cov_matrix argsort HS t rows _ (t_k t) FT 1)); fold cov in ECM; unfold rows in ECM; rewrite ECM in *;
        cbn [map tl]; (apply quad_notfin); unfold mat in EC; cbn [map nth] in EC; unfold vec in *; cbn [nth tl] in *;
        rewrite EC; intros ?; discriminate. }
    destruct EC as (v & EC). unfold cov in EC. rewrite (cov_entry argsort HS t rows _ 1 1 xs xs FT eq_refl eq_refl) in EC.
    eapply (len_two argsort HS); eauto. }
  assert (Rh : 1 < INR (t_len argsort t)) by (apply (lt_INR 1); lia).
  rewrite E in H.
  assert (A1 : forall c, snd R1 = Fin c -> exists m, fst R1 = Fin m) by (intros c Hc; unfold R1 in *; eapply ratio_fin; eauto).
  assert (A2 : forall c, snd R2 = Fin c -> exists m, fst R2 = Fin m) by (intros c Hc; unfold R2 in *; eapply ratio_fin; eauto).
  destruct (ratio_corr _ _ dv _ T _ s _ _ _ _ alternative alpha r Rh Pv A1 A2 eq_refl Es H NL NH) as (a & b & e1 & e2 & rho & Ed & Eq & F).
  exists a, b, e1, e2, rho, (t_len argsort t). split; auto.
  split; [rewrite Es; apply Rmult_le_pos; [apply sqrt_pos|apply Rlt_le, Rinv_0_lt_compat, sqrt_lt_R0; lra]|].
  split; auto.
Qed.
End Paired.

(** *** Running the tests *)
Lemma known_cases a : known a -> a = "two-sided" \/ a = "greater" \/ a = "less".
Proof. intros [<-|[<-|[<-|[]]]]; auto. Qed.

Lemma finish_test_total T div d se m1 m2 e1 e2 corr df n alternative alpha :
  known alternative ->
  (nleb (Fin 0) m1 = true -> nleb (Fin 0) m2 = true -> exists x, div m1 m2 = Ok x) ->
  exists r, finish_test T div d se m1 m2 e1 e2 corr df n alternative alpha = Ok r.
Proof.
  intros HK HD. unfold finish_test.
  assert (A : exists sp, ttest_from_stats T d se df alternative = Ok sp)
    by (unfold ttest_from_stats; destruct (known_cases _ HK) as [-> | [-> | ->]]; cbn [String.eqb Ascii.eqb Bool.eqb]; eauto).
  destruct A as (sp & ->). cbn [bind].
  assert (B : exists ci, absolute_difference_confidence_interval T m1 m2 e1 e2 corr df alternative alpha = Ok ci)
    by (unfold absolute_difference_confidence_interval; destruct (known_cases _ HK) as [-> | [-> | ->]]; cbn [String.eqb Ascii.eqb Bool.eqb]; eauto).
  destruct B as (ci & ->). cbn [bind].
  destruct (nleb (Fin 0) m1) eqn:E1, (nleb (Fin 0) m2) eqn:E2; cbn [andb bind]; eauto.
  destruct HD as (x & ->); auto. cbn [bind].
  assert (P : forall m, nleb (Fin 0) m = true -> nltb m (Fin 0) = false).
  { intros [r| | |]; simpl; auto; try discriminate. case Rle_bool_spec; [|discriminate]. intros; apply Rlt_bool_false; lra. }
  unfold relative_difference_confidence_interval. rewrite (P m1 E1), (P m2 E2). cbn [orb raise_if bind].
  destruct (known_cases _ HK) as [-> | [-> | ->]]; cbn [String.eqb Ascii.eqb Bool.eqb bind]; eauto.
Qed.

Lemma paired_runs T argsort xs ys q alternative alpha : sorts argsort -> usable (List.length xs) q ->
  List.length xs = List.length ys -> known alternative ->
  exists r, yuens_t_test_paired T argsort (data xs) (data ys) q None None alternative alpha = Ok r.
Proof.
  intros HS U L K. unfold yuens_t_test_paired. replace (List.length (data xs)) with (List.length (data ys)) by (unfold data; now rewrite !map_length).
  rewrite Nat.eqb_refl. cbn [negb raise_if bind ratio_arguments]. rewrite differences_data.
  assert (LL : forall r, In r [data (minus xs ys); data xs; data ys] -> List.length r = List.length xs).
  { intros r [<-|[<-|[<-|[]]]]; unfold data; rewrite map_length; auto. now apply minus_length. }
  unfold np_stack. rewrite (proj2 (forallb_forall _ _)).
  - cbn [negb raise_if bind]. destruct (mk_trimmed_usable argsort [data (minus xs ys); data xs; data ys] q _ HS U ltac:(discriminate) LL) as (t & -> & _).
    cbn [bind]. apply finish_test_total; auto. intros. eexists. reflexivity.
  - intros r Hr. cbn [hd]. apply Nat.eqb_eq. rewrite (LL r Hr). symmetry. apply LL. now left.
Qed.

Lemma ind_runs T argsort xs ys q ev alternative alpha : sorts argsort -> usable (List.length xs) q -> usable (List.length ys) q ->
  known alternative ->
  (forall t1 t2, mk_trimmed argsort [data xs] q = Ok t1 -> mk_trimmed argsort [data ys] q = Ok t2 ->
    nleb (Fin 0) (vec (t_mean argsort t1) 0) = true -> vec (t_mean argsort t2) 0 <> Fin 0) ->
  exists r, yuens_t_test_ind T argsort (data xs) (data ys) q None None ev alternative alpha = Ok r.
Proof.
  intros HS U1 U2 K Z. unfold yuens_t_test_ind. cbn [ratio_arguments bind].
  assert (LL : forall zs, usable (List.length zs) q -> exists t, mk_trimmed argsort [data zs] q = Ok t).
  { intros zs U. destruct (mk_trimmed_usable argsort [data zs] q (List.length zs) HS U) as (t & -> & _); eauto; [discriminate|].
    intros r [<-|[]]. unfold data. now rewrite map_length. }
  destruct (LL xs U1) as (t1 & E1). destruct (LL ys U2) as (t2 & E2). rewrite E1, E2. cbn [bind].
  unfold finish_ind. destruct (two_sample_standard_errors _ _ _ _ _) as [[se e1] e2]. apply finish_test_total; auto.
  intros N1 N2. unfold py_div. destruct (neqb _ _) eqn:E; eauto. apply neqb_eq in E. exfalso. eapply Z; eauto.
Qed.

(** the returned bounds lie t standard errors from the estimate, on the sides of the alternative *)
Definition spread (T : tdist) (alternative : string) (alpha : R) (r : tresult) : Prop :=
  exists d s, r_abs r = Fin d /\ r_standard_error r = Fin s /\
    let t := td_ppf T (r_df r) (1 - level alternative alpha) in
    r_abs_lower r = (if alternative =? "less" then NInf else Fin (d - t * s)) /\
    r_abs_upper r = (if alternative =? "greater" then PInf else Fin (d + t * s)).

Lemma paired_core_consistent T argsort alternative alpha r s :
  (exists m1 m2 e1 e2 rho h, (2 <= h)%nat /\ 0 <= s /\ s * s = e1 * e1 + e2 * e2 - 2 * (e1 * e2 * rho) /\
    finished T np_div (Fin (m1 - m2)) (Fin s) (Fin m1) (Fin m2) (Fin e1) (Fin e2) (Fin rho) (Fin (INR h - 1)) h alternative alpha r) ->
  0 < alpha < 1 -> sorts argsort -> spread T alternative alpha r /\ (0 < s -> consistent alternative alpha r).
Proof.
  intros (m1 & m2 & e1 & e2 & rho & h & H2 & Ps & Es & F) Ha _.
  assert (R2 : 1 < INR h) by (apply (lt_INR 1); lia).
  assert (V : valid_df (Fin (INR h - 1)) = true) by (simpl; apply Rlt_bool_true; lra).
  split; [|intros; eapply finished_consistent; eauto].
  exists (m1 - m2), s. destruct F. split; auto. split; auto.
  rewrite (abs_ci_fin T m1 m2 e1 e2 rho (Fin (INR h - 1)) s) in fi_ci by auto. rewrite fi_df.
  cbv zeta. split; congruence.
Qed.

Theorem c52_significant_iff_interval_excludes_zero :
  forall T argsort xs ys d1 d2 q alternative alpha r s,
    sorts argsort -> sample xs ->
    yuens_t_test_paired T argsort (data xs) (data ys) q (odata d1) (odata d2) alternative alpha = Ok r ->
    r_standard_error r = Fin s -> 0 < alpha < 1 ->
    r_abs_lower r <> NaN -> r_abs_upper r <> NaN ->
    spread T alternative alpha r /\ (0 < s -> consistent alternative alpha r).
Proof.
  intros T argsort xs ys d1 d2 q alternative alpha r s HS Sx H ES Ha NL NH.
  apply (paired_core_consistent T argsort); auto.
  destruct d1 as [d1|], d2 as [d2|]; cbn [odata option_map] in H.
  - eapply (paired_ratio_core argsort HS); eauto.
  - exfalso. unfold yuens_t_test_paired in H. apply bind_ok in H as (u & _ & H). discriminate.
  - exfalso. unfold yuens_t_test_paired in H. apply bind_ok in H as (u & _ & H). discriminate.
  - eapply (paired_plain_core argsort HS); eauto.
Qed.

(** the winsorized positions when nothing is trimmed *)
Lemma widx_untrimmed argsort t rows n : sorts argsort -> finite_trimmed t rows n (t_k t) -> t_k t = 0%nat ->
  Permutation (widx argsort t rows (t_k t)) (seq 0 n).
Proof.
  intros HS FT K. unfold widx. rewrite K. cbn [repeat]. rewrite !app_nil_r.
  unfold t_kept. rewrite K, kept_perm by exact HS.
  unfold middle. rewrite Nat.mul_0_r, Nat.sub_0_r, firstn_all. cbn [skipn].
  destruct (HS (hd [] (t_rows t))) as [P _]. rewrite P.
  rewrite (hd_rows t rows n _ FT), map_length, (r0_length t rows n _ FT). reflexivity.
Qed.

Lemma cc_untrimmed argsort t rows n r : sorts argsort -> finite_trimmed t rows n (t_k t) -> t_k t = 0%nat -> In r rows ->
  cc argsort t rows r r = sqdev r.
Proof.
  intros HS FT K Hr. unfold cc. rewrite codev_self. apply sqdev_perm. unfold rtake.
  rewrite (Permutation_map (fun i => nth i r 0) (widx_untrimmed argsort t rows n HS FT K)).
  rewrite <- (ft_rect _ _ _ _ FT r Hr). rewrite Assign_Proofs.map_nth_seq. reflexivity.
Qed.

(** without trimming, on non-constant samples with a non-constant difference *)
Theorem c52_untrimmed :
  forall T argsort xs ys q alternative alpha,
    sorts argsort -> usable (List.length xs) q -> trim_each (List.length xs) q = 0%Z -> List.length ys = List.length xs ->
    0 < sqdev xs -> 0 < sqdev ys -> 0 < sqdev (minus xs ys) -> known alternative -> 0 < alpha < 1 ->
    exists r, yuens_t_test_paired T argsort (data xs) (data ys) q None None alternative alpha = Ok r /\
      spread T alternative alpha r /\ consistent alternative alpha r.
Proof.
  intros T argsort xs ys q alternative alpha HS U K0 L V1 V2 V0 K Ha.
  destruct (paired_runs T argsort xs ys q alternative alpha HS U (eq_sym L) K) as (r & H). exists r. split; auto.
  assert (Sx : sample xs). { destruct U as (U1 & U2 & _). split; auto. destruct xs; simpl in *; [lia|discriminate]. }
  set (rows := [minus xs ys; xs; ys]).
  assert (KZ : forall t, mk_trimmed argsort (fins rows) q = Ok t -> t_k t = 0%nat).
  { intros t Ht. assert (A : array (List.length xs) (fins rows)).
    { apply sample_array; auto; [|discriminate]. intros x [<-|[<-|[<-|[]]]]; auto. now apply minus_length. }
    destruct (c43_trims_floor_of_quantile_times_n argsort _ q _ t HS A Ht) as (E & _). unfold trim_each in K0. rewrite K0 in E. lia. }
  destruct (paired_plain argsort HS T xs ys q alternative alpha r Sx H) as (_ & t & Ht & FT & _ & _ & F).
  fold rows in Ht, FT, F. specialize (KZ t Ht) as Kt.
  assert (CC : forall x, In x rows -> cc argsort t rows x x = sqdev x) by (intros; now apply (cc_untrimmed argsort t rows (List.length xs))).
  assert (LN := len_real argsort HS t rows _ _ FT). rewrite Kt in LN.
  assert (N2 : (2 <= List.length xs)%nat).
  { destruct xs as [|x [|x' xs]]; simpl; try lia; exfalso; unfold sqdev, avg in V1; simpl in V1; try lra. }
  assert (RN : 1 < INR (List.length xs)) by (apply (lt_INR 1); lia).
  replace (List.length xs - 2 * 0)%nat with (List.length xs) in LN by lia.
  assert (SE : exists s, 0 < s /\ r_standard_error r = Fin s).
  { rewrite (fi_se _ _ _ _ _ _ _ _ _ _ _ _ _ _ F). rewrite CC by (now left). rewrite LN.
    assert (I : IZR (Z.of_nat (List.length xs) - 1) = INR (List.length xs) - 1) by (rewrite minus_IZR, <- INR_IZR_INZ; reflexivity).
    rewrite I, ndiv_fin by lra. assert (P : 0 < sqdev (minus xs ys) / (INR (List.length xs) - 1)) by (apply Rmult_lt_0_compat; auto; apply Rinv_0_lt_compat; lra).
    rewrite nsqrt_fin by lra. unfold one_sample_standard_error, nnat. rewrite nsqrt_fin by lra.
    assert (0 < sqrt (INR (List.length xs))) by (apply sqrt_lt_R0; lra). rewrite ndiv_fin by lra.
    eexists. split; [|reflexivity]. apply Rmult_lt_0_compat; [now apply sqrt_lt_R0|now apply Rinv_0_lt_compat]. }
  destruct SE as (s & Ps & ES).
  destruct (paired_core_consistent T argsort alternative alpha r s) as [G1 G2]; auto.
  eapply (paired_plain_core argsort HS); eauto. right. intros t' Ht'. fold rows in Ht'. assert (t' = t) by congruence. subst t'.
  fold rows. rewrite !CC by (simpl; auto). nra.
Qed.

Lemma avg_untrimmed argsort t rows n r : sorts argsort -> finite_trimmed t rows n (t_k t) -> t_k t = 0%nat -> In r rows ->
  avg (rtake (t_kept argsort t) r) = avg r.
Proof.
  intros HS FT K Hr. apply avg_perm. unfold rtake.
  assert (P := widx_untrimmed argsort t rows n HS FT K). unfold widx in P. rewrite K in P. cbn [repeat] in P. rewrite !app_nil_r in P.
  rewrite (Permutation_map (fun i => nth i r 0) P).
  rewrite <- (ft_rect _ _ _ _ FT r Hr). rewrite Assign_Proofs.map_nth_seq. reflexivity.
Qed.

Lemma codev_repeat n c : codev (repeat c n) (repeat c n) = 0.
Proof.
  rewrite codev_self. unfold sqdev. destruct n as [|n]; [reflexivity|].
  assert (A : avg (repeat c (S n)) = c).
  { unfold avg. assert (E : forall m, fold_right Rplus 0 (repeat c m) = INR m * c).
    { induction m as [|m IH]; [simpl; ring|]. cbn [repeat fold_right]. rewrite IH, S_INR. ring. }
    rewrite repeat_length, E. field. apply not_0_INR. lia. }
  rewrite A. clear A. generalize (S n). intros m. induction m as [|m IH]; [reflexivity|]. cbn [repeat map]. unfold total in *. cbn [fold_right]. rewrite IH. ring.
Qed.

(** a constant sample makes the finite bounds NaN, whatever the other one is *)
Theorem c52_constant_sample_has_nan_bounds :
  forall T argsort xs c q alternative alpha,
    sorts argsort -> usable (List.length xs) q -> known alternative ->
    exists r, yuens_t_test_paired T argsort (data xs) (data (repeat c (List.length xs))) q None None alternative alpha = Ok r /\
      r_abs_lower r = (if alternative =? "less" then NInf else NaN) /\
      r_abs_upper r = (if alternative =? "greater" then PInf else NaN).
Proof.
  intros T argsort xs c q alternative alpha HS U K. set (ys := repeat c (List.length xs)).
  assert (L : List.length xs = List.length ys) by (unfold ys; now rewrite repeat_length).
  destruct (paired_runs T argsort xs ys q alternative alpha HS U L K) as (r & H). exists r. split; auto.
  assert (Sx : sample xs). { destruct U as (U1 & U2 & _). split; auto. destruct xs; simpl in *; [lia|discriminate]. }
  destruct (paired_plain argsort HS T xs ys q alternative alpha r Sx H) as (_ & t & Ht & FT & _ & _ & F).
  set (rows := [minus xs ys; xs; ys]) in *.
  assert (C0 : cc argsort t rows ys ys = 0).
  { unfold cc. assert (E : rtake (widx argsort t rows (t_k t)) ys = repeat c (List.length (widx argsort t rows (t_k t)))).
    { assert (B : forall i, In i (widx argsort t rows (t_k t)) -> (i < List.length xs)%nat).
      { intros i Hi. apply (widx_kept argsort HS t rows _ _ FT) in Hi. eapply (kept_bound argsort HS t rows); eauto. }
      unfold rtake. revert B. generalize (widx argsort t rows (t_k t)). induction l as [|i l IH]; intros B; [reflexivity|].
      cbn [map List.length repeat]. f_equal; [|apply IH; intros; apply B; now right].
      unfold ys. apply (repeat_spec (List.length xs) c). apply nth_In. rewrite repeat_length. apply B. now left. }
    rewrite E. apply codev_repeat. }
  assert (N : forall x y z, nsub (nadd x y) (nmul (Fin 2) (nmul z NaN)) = NaN).
  { intros x y z. destruct z; cbn [nmul]; destruct (nadd x y); reflexivity. }
  assert (MN : forall x, nmul x NaN = NaN) by (destruct x; reflexivity).
  assert (SN : forall x, nsub x NaN = NaN) by (destruct x; reflexivity).
  assert (AN : forall x, nadd x NaN = NaN) by (destruct x; reflexivity).
  assert (CR : ndiv (ndiv (Fin (cc argsort t rows xs ys)) (Fin (IZR (Z.of_nat (t_len argsort t) - 1))))
     (nsqrt (nmul (ndiv (Fin (cc argsort t rows xs xs)) (Fin (IZR (Z.of_nat (t_len argsort t) - 1))))
                  (ndiv (Fin 0) (Fin (IZR (Z.of_nat (t_len argsort t) - 1)))))) = NaN).
  { assert (CS : cc argsort t rows xs ys = 0).
    { assert (CS := Cv_cauchy (widx argsort t rows (t_k t)) (fun i => nth i xs 0) (fun i => nth i ys 0)).
      change (cc argsort t rows xs ys ^ 2 <= cc argsort t rows xs xs * cc argsort t rows ys ys) in CS. rewrite C0 in CS. nra. }
    rewrite CS. generalize (IZR (Z.of_nat (t_len argsort t) - 1)). intros D. destruct (Req_dec D 0) as [->|ND].
    - assert (Z : ndiv (Fin 0) (Fin 0) = NaN) by (cbn [ndiv]; rewrite Req_bool_true by reflexivity; apply ninf_of_0).
      rewrite Z. destruct (nsqrt _); reflexivity.
    - rewrite !ndiv_fin by auto. cbn [nmul]. unfold Rdiv. rewrite !Rmult_0_l, Rmult_0_r, nsqrt_fin, sqrt_0 by lra.
      cbn [ndiv]. rewrite Req_bool_true by reflexivity. now rewrite ninf_of_0. }
  assert (CI := fi_ci _ _ _ _ _ _ _ _ _ _ _ _ _ _ F). cbv zeta in CI. rewrite C0, CR in CI.
  unfold absolute_difference_confidence_interval in CI. rewrite N in CI. cbn [nsqrt] in CI.
  destruct (known_cases _ K) as [-> | [-> | ->]]; cbn [String.eqb Ascii.eqb Bool.eqb] in *; rewrite ?MN, ?SN, ?AN in CI; split; congruence.
Qed.

Lemma ex3 : usable 3 f0 /\ trim_each 3 f0 = 0%Z.
Proof. apply usable_0; lia. Qed.

(** what the plain paired test computes: the one-sample test of the differences *)
Theorem c52_what_the_test_computes :
  forall T argsort xs ys q alternative alpha r sd,
    sorts argsort -> sample xs -> sorted_as (minus xs ys) sd ->
    yuens_t_test_paired T argsort (data xs) (data ys) q None None alternative alpha = Ok r ->
    List.length xs = List.length ys /\
    exists k, Z.of_nat k = trim_each (List.length xs) q /\
    let h := (List.length xs - 2 * k)%nat in
    (1 <= h)%nat /\ r_abs r = Fin (tmean k sd) /\ r_sample_size r = h /\ r_df r = Fin (INR h - 1) /\
    ((2 <= h)%nat -> exists s, r_standard_error r = Fin s /\ 0 <= s /\
      s ^ 2 = tdev k (minus xs ys) sd / (INR h - 1) / INR h /\
      (0 < s -> r_statistic r = Fin (tmean k sd / s))).
Proof.
  intros T argsort xs ys q alternative alpha r sd HS Sx Sd H.
  destruct (paired_plain argsort HS T xs ys q alternative alpha r Sx H) as (L & t & Ht & FT & EM & _ & F).
  split; auto. exists (t_k t). set (rows := [minus xs ys; xs; ys]) in *.
  assert (A : array (List.length xs) (fins rows)).
  { apply sample_array; auto; [|discriminate]. intros x [<-|[<-|[<-|[]]]]; auto. now apply minus_length. }
  destruct (c43_trims_floor_of_quantile_times_n argsort _ q _ t HS A Ht) as (E & _). split; [exact E|].
  assert (LN := len_real argsort HS t rows _ _ FT).
  destruct (first_row argsort HS t rows _ sd FT Sd) as [F1 F2]. cbn [hd rows] in F1, F2. intros h. fold h in LN.
  assert (H1 : (1 <= h)%nat) by (unfold h; destruct FT; lia).
  destruct F. rewrite LN in *. rewrite <- EM, F1 in *. split; [exact H1|]. split; [auto|]. split; [auto|].
  split; [rewrite fi_df; unfold one_sample_degrees_of_freedom, nnat; now rewrite nsub_fin|]. intros H2.
  assert (R2 : 1 < INR h) by (apply (lt_INR 1); lia).
  assert (I : IZR (Z.of_nat h - 1) = INR h - 1) by (rewrite minus_IZR, <- INR_IZR_INZ; reflexivity).
  set (v := tdev (t_k t) (minus xs ys) sd / (INR h - 1)).
  assert (Pv : 0 <= v) by (unfold v; apply Rmult_le_pos; [unfold tdev; apply sqdev_nonneg|apply Rlt_le, Rinv_0_lt_compat; lra]).
  rewrite I, F2, (ndiv_fin _ (INR h - 1)) in fi_se, fi_test by lra. fold v in fi_se, fi_test.
  rewrite nsqrt_fin in fi_se, fi_test by auto. unfold one_sample_standard_error, nnat in fi_se, fi_test.
  assert (SH : 0 < sqrt (INR h)) by (apply sqrt_lt_R0; lra).
  rewrite nsqrt_fin, ndiv_fin in fi_se, fi_test by lra.
  exists (sqrt v / sqrt (INR h)). split; [exact fi_se|].
  split; [apply Rmult_le_pos; [apply sqrt_pos|apply Rlt_le, Rinv_0_lt_compat; lra]|].
  split.
  - transitivity ((sqrt v * sqrt v) / (sqrt (INR h) * sqrt (INR h))); [field; lra|]. now rewrite !sqrt_sqrt by lra.
  - intros Ps. unfold ttest_from_stats in fi_test. rewrite ndiv_fin in fi_test by lra.
    destruct (known_cases _ fi_known) as [-> | [-> | ->]]; cbn [String.eqb Ascii.eqb Bool.eqb] in fi_test; congruence.
Qed.

Lemma clip_id l s x : sorted_as l s -> In x l -> clip (nth 0 s 0) (nth (List.length l - 1 - 0) s 0) x = x.
Proof.
  intros [P SS] Hx. apply (Permutation_in _ P) in Hx.
  assert (Ls := Permutation_length P). rewrite Ls, Nat.sub_0_r.
  assert (A : nth 0 s 0 <= x).
  { destruct s as [|a s]; [destruct Hx|]. cbn [nth]. destruct Hx as [->|Hx]; [lra|].
    apply StronglySorted_inv in SS as [_ SS]. rewrite Forall_forall in SS. auto. }
  assert (B : x <= nth (List.length s - 1) s 0).
  { clear P Ls A. induction SS as [|a s SS IH F]; [destruct Hx|]. cbn [List.length]. rewrite Nat.sub_1_r. cbn [pred].
    destruct s as [|b s]; [destruct Hx as [->|[]]; simpl; lra|].
    cbn [List.length nth]. cbn [List.length] in IH. rewrite Nat.sub_1_r in IH. cbn [pred] in IH.
    destruct Hx as [->|Hx]; [|now apply IH]. rewrite Forall_forall in F. apply F. apply (nth_In (b :: s)). simpl. lia. }
  unfold clip. rewrite Rmin_right, Rmax_right by lra. reflexivity.
Qed.
Lemma tdev_0 l s : sorted_as l s -> tdev 0 l s = sqdev l.
Proof.
  intros H. unfold tdev. f_equal. transitivity (map (fun x => x) l); [|apply map_id]. apply map_ext_in. intros. now apply clip_id.
Qed.
Lemma tmean_0 l s : sorted_as l s -> tmean 0 s = avg l.
Proof. intros [P _]. unfold tmean, middle. rewrite Nat.mul_0_r, Nat.sub_0_r, firstn_all. cbn [skipn]. apply avg_perm. now symmetry. Qed.

(** values 1, 2, 4 against the constant 1: significant at level 1/2, with an interval of NaNs *)
Theorem c52_without_variance_refuted :
  exists T argsort xs ys q alternative alpha r s,
    sorts argsort /\ sample xs /\
    yuens_t_test_paired T argsort (data xs) (data ys) q None None alternative alpha = Ok r /\
    r_standard_error r = Fin s /\ 0 < s /\ 0 < alpha < 1 /\
    r_significant r = true /\ ~ outside0 (r_abs_lower r) (r_abs_upper r).
Proof.
  destruct ex3 as [U U0].
  destruct (c52_constant_sample_has_nan_bounds cauchy argsort_ref [1; 2; 4] 1 f0 "two-sided" (1 / 2) argsort_ref_sorts U ltac:(now left))
    as (r & H & EL & EH).
  assert (Sx : sample [1; 2; 4]) by (split; [discriminate|simpl; lia]).
  assert (Sd : sorted_as [1 - 1; 2 - 1; 4 - 1] [1 - 1; 2 - 1; 4 - 1]).
  { split; [reflexivity|]. repeat constructor; lra. }
  destruct (c52_what_the_test_computes _ _ _ (repeat 1 3) _ _ _ _ _ argsort_ref_sorts Sx Sd H) as (_ & k & Ek & G).
  change (List.length [1; 2; 4]) with 3%nat in *. rewrite U0 in Ek. assert (k = 0%nat) by lia. subst k. clear Ek.
  cbn [Nat.mul Nat.sub Nat.add] in G. destruct G as (_ & EA & _ & ED & G). destruct (G ltac:(lia)) as (s & ES & Ps & Sq & ST). clear G.
  change (minus [1; 2; 4] (repeat 1 3)) with [1 - 1; 2 - 1; 4 - 1] in *.
  rewrite (tmean_0 _ _ Sd) in *. rewrite (tdev_0 _ _ Sd) in *.
  assert (SQ : sqdev [1 - 1; 2 - 1; 4 - 1] = 14 / 3) by (unfold sqdev, avg, total; simpl; lra).
  assert (EV : avg [1 - 1; 2 - 1; 4 - 1] = 4 / 3) by (unfold avg, total; simpl; lra).
  rewrite SQ in Sq. rewrite EV in *. simpl INR in *.
  assert (S2 : s ^ 2 = 7 / 9) by (rewrite Sq; field). assert (S0 : 0 < s) by nra. assert (S1 : s < 4 / 3) by nra.
  exists cauchy, argsort_ref, [1; 2; 4], (repeat 1 3), f0, "two-sided", (1 / 2), r, s.
  split; [apply argsort_ref_sorts|]. split; auto. split; auto. split; auto. split; auto. split; [lra|].
  destruct (paired_plain argsort_ref argsort_ref_sorts _ _ _ _ _ _ _ Sx H) as (_ & t & _ & _ & _ & _ & F).
  split; [|rewrite EL, EH; intros [X|X]; discriminate X].
  assert (TT := fi_test _ _ _ _ _ _ _ _ _ _ _ _ _ _ F). rewrite (fi_sig _ _ _ _ _ _ _ _ _ _ _ _ _ _ F).
  rewrite <- (fi_abs _ _ _ _ _ _ _ _ _ _ _ _ _ _ F), <- (fi_se _ _ _ _ _ _ _ _ _ _ _ _ _ _ F), <- (fi_df _ _ _ _ _ _ _ _ _ _ _ _ _ _ F) in TT.
  rewrite EA, ES, ED in TT. unfold ttest_from_stats in TT. cbn [String.eqb Ascii.eqb Bool.eqb] in TT.
  rewrite ndiv_fin in TT by lra. cbn [nabs nmul] in TT.
  assert (V : valid_df (Fin (1 + 1 + 1 - 1)) = true) by (simpl; apply Rlt_bool_true; lra).
  rewrite t_cdf_fin in TT by auto. assert (EP := f_equal (fun x => match x with Ok y => snd y | Err _ => NaN end) TT). cbn [snd nmul] in EP.
  rewrite <- EP. apply nltb_fin.
  assert (D : 1 < 4 / 3 / s). { apply Rmult_lt_reg_r with s; auto. replace (4 / 3 / s * s) with (4 / 3) by (field; lra). lra. }
  rewrite Rabs_pos_eq by lra.
  assert (K := td_incr cauchy (Fin (1 + 1 + 1 - 1)) (-1 * (4 / 3 / s)) (- (1)) V ltac:(lra)).
  assert (K2 : td_cdf cauchy (Fin (1 + 1 + 1 - 1)) (- (1)) = 1 / 4).
  { simpl. rewrite atan_opp, atan_1. field. apply PI_neq0. }
  rewrite K2 in K. lra.
Qed.

Print Assumptions c51_significant_iff_interval_excludes_zero.
Print Assumptions c51_what_the_test_computes.
Print Assumptions c52_significant_iff_interval_excludes_zero.
Print Assumptions c52_untrimmed.
Print Assumptions c52_constant_sample_has_nan_bounds.
Print Assumptions c52_what_the_test_computes.
Print Assumptions c52_without_variance_refuted.
